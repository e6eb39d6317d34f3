(** * Randomness: aiootp/randoms/simple.py, threading_safe_entropy_pool.py, rng.py,
    _early_salts.py and entropy_daemon.py

    What the operating system draws (random bits, times, identifiers) is given to
    every call; the extendable output function is a parameter. *)
From Verif Require Import Base CanonModel.
Local Open Scope N_scope.

(** simple.py 127-153 [canonical_token]; 97-124 [acanonical_token]: what each call
    draws. *)
Record context := {
  c_bits : N;        (* token_bits(256) *)
  c_time : N;        (* ns_counter() *)
  c_thread : N;      (* get_thread_id() *)
  c_process : N;     (* get_process_id() *)
}.
(** simple.py 127-153. *)
Definition canonical_token (c : context) : result bytes :=
  to_bytes_be 56
    (N.lxor (N.lxor (N.lxor (N.shiftl (c_bits c) 192) (N.shiftl (c_time c) 128))
                    (N.shiftl (c_thread c) 64))
            (c_process c)).

(** ** The entropy pool and the hashing object shared by all threads *)

(** rng.py 45: a deque of at most 32 values; the newest comes first. *)
Definition POOL_SIZE : nat := 32.
(** rng.py 45. *)
Definition appendleft (x : bytes) (pool : list bytes) : list bytes := firstn POOL_SIZE (x :: pool).

(** What threads do with them. rng.py 93-217, threading_safe_entropy_pool.py 141-165,
    entropy_daemon.py 139. *)
Inductive call :=
| Csprng (c : context) (entropy : bytes) (size : N)
    (* rng.py 93-113 [csprng], 70-90 [acsprng]; an [entropy] that is not bytes is
       replaced by the encoding of its [repr] *)
| Hash (c : context) (pad : byte) (data : list bytes) (size : N)
    (* threading_safe_entropy_pool.py 154-165 [hash], pad 0x36; 141-152 [ahash],
       pad 0x5c *)
| Push (x : bytes).
    (* _pool.appendleft: rng.py 179, 197, 202; entropy_daemon.py 139 *)

Inductive stage :=
| Ready
| Tokened (token : bytes)
| Absorbed (token : bytes)
| Copied (token snapshot : bytes).

(** No counterpart: what a thread has left to do, and the exception that ended it. *)
Record thread := { todo : list call; at_ : stage; broken : option exn }.

(** rng.py 45-53: the pool and the hashing object; the rest has no counterpart. *)
Record state := {
  absorbed : bytes;            (* everything _gadget._obj was updated with *)
  pool : list bytes;
  threads : nat -> thread;
}.

(** No counterpart: what a call returns. *)
Inductive event :=
| Drew (i : nat) (token : bytes)                        (* absorbed by the hashing object *)
| Asked (i : nat) (query : bytes) (size : N) (answer : bytes) (* returned to the caller *)
| Failed (i : nat) (e : exn).

Section Pool.
Variable shake : bytes -> N -> bytes.
Variable block_size : N.              (* of shake_256: 136 *)

(** No counterpart: a thread proceeds. *)
Definition set_thread (i : nat) (t : thread) (s : state) : state :=
  {| absorbed := absorbed s; pool := pool s; threads := fun j => if Nat.eqb j i then t else threads s j |}.

(** No counterpart: an exception ends a thread. *)
Definition fail (i : nat) (e : exn) (s : state) : list event * state :=
  ([Failed i e], set_thread i {| todo := []; at_ := Ready; broken := Some e |} s).

(** The token of a call: rng.py 106-109; threading_safe_entropy_pool.py 129-139
    [_make_token], 117-127 [_amake_token], with 160 (the size as eight bytes). *)
Definition token_of (c : call) (pool : list bytes) : result bytes :=
  match c with
  | Csprng x entropy _ => t <- canonical_token x ;; Ok (t ++ entropy)
  | Hash x pad data size =>
    blob <- to_bytes_be INT_BYTES size ;;
    t <- canonical_token x ;;
    match pool with
    | [] => Err IndexErr
    | p :: _ => canonical_pack (t :: p :: blob :: data) block_size [pad] INT_BYTES
    end
  | Push _ => Err OtherErr
  end.

(** One atomic operation of thread [i]. rng.py 93-217, threading_safe_entropy_pool.py 117-165. *)
Definition step (i : nat) (s : state) : list event * state :=
  let t := threads s i in
  match todo t with
  | [] => ([], s)
  | Push x :: rest =>
    ([], set_thread i {| todo := rest; at_ := Ready; broken := broken t |}
           {| absorbed := absorbed s; pool := appendleft x (pool s); threads := threads s |})
  | c :: rest =>
    match at_ t with
    | Ready =>
      match token_of c (pool s) with
      | Err e => fail i e s
      | Ok k => ([], set_thread i {| todo := todo t; at_ := Tokened k; broken := broken t |} s)
      end
    | Tokened k =>
      (* _gadget.update(token) *)
      ([Drew i k], set_thread i {| todo := todo t; at_ := Absorbed k; broken := broken t |}
             {| absorbed := absorbed s ++ k; pool := pool s; threads := threads s |})
    | Absorbed k =>
      (* _gadget._obj.copy() *)
      ([], set_thread i {| todo := todo t; at_ := Copied k (absorbed s); broken := broken t |} s)
    | Copied k snapshot =>
      let done q size :=
        ([Asked i q size (shake q size)], set_thread i {| todo := rest; at_ := Ready; broken := broken t |} s) in
      match c with
      | Csprng _ _ size =>
        (* thread_safe_entropy.update(token + _pool[0]) *)
        match pool s with
        | [] => fail i IndexErr s
        | p :: _ => done (snapshot ++ k ++ p) size
        end
      | Hash _ _ _ size =>
        (* shake_256 has no default digest size: digest() is a TypeError *)
        if size =? 0 then fail i TypeErr s else done (snapshot ++ k) size
      | Push _ => fail i OtherErr s
      end
    end
  end.

(** No counterpart: the operations of the threads as the scheduler orders them. *)
Fixpoint run (l : list nat) (s : state) : list event * state :=
  match l with
  | [] => ([], s)
  | i :: l =>
    let '(e, s) := step i s in
    let '(es, s) := run l s in
    (e ++ es, s)
  end.

(** rng.py 45-53: the pool is filled, the hashing object has absorbed the seed. *)
Definition launch (calls : nat -> list call) (seed : bytes) (fill : list bytes) : state :=
  {| absorbed := seed; pool := fill; threads := fun i => {| todo := calls i; at_ := Ready; broken := None |} |}.
End Pool.

(** ** Generating random numbers: rng.py 116-217 [arandom_number_generator], how the
    pool changes.  [freshness] is an int; the tasks of [gather] end in any order. *)
Definition pushes (freshness : Z) : result N :=
  if Z.ltb freshness 0 then Err ValueErr            (* 176-177 *)
  else if Z.eqb freshness 0 then Ok 1               (* 178-179 *)
  else Ok (Z.to_N freshness * 11).                  (* 180-215: one and ten tasks per round *)

(** The pool after some values were pushed, the first of [xs] first. rng.py 116-217. *)
Definition push_all (xs : list bytes) (pool : list bytes) : list bytes :=
  fold_left (fun pool x => appendleft x pool) xs pool.

(** ** Salted multiplication: _early_salts.py 73-92 [_salt_multiply], 49-70
    [_asalt_multiply]

    The numbers are Python ints.  [tick] is [ns_counter()].  In the asynchronous
    version other tasks run before each number is used and may have changed the
    offset; [offsets] are the values it is found to have. *)
Record globals := { g_mix : Z; g_seed : Z; g_offset : Z }.

(** _early_salts.py 49-92: the modulus. *)
Definition MOD : Z := 2 ^ 256.

(** _early_salts.py 73-92: the loop. *)
Fixpoint multiply_loop (numbers offsets : list Z) (start mix : Z) : Z * Z :=
  match numbers, offsets with
  | n :: numbers, o :: offsets =>
    let mix := (mix + o)%Z in
    multiply_loop numbers offsets (Z.mul (Z.lxor start mix) (Z.lxor n mix)) mix
  | _, _ => (start, mix)
  end.

(** The part before the first await: the new globals, and [start]. _early_salts.py 49-92. *)
Definition multiply_begin (tick : Z) (ints numbers : list Z) (first : bytes) (g : globals) : Z * globals :=
  let start := Z.mul tick (g_offset g) in
  let mix := Z.lxor (g_mix g) (Z.abs (fold_left Z.add (start :: ints ++ numbers) 0%Z)) in
  let mix := Z.modulo (Z.lxor mix (Z.of_N (be_int first))) MOD in
  let seed := Z.lxor (g_seed g) mix in
  (start, {| g_mix := mix; g_seed := seed; g_offset := Z.lxor (g_offset g) seed |}).

(** The value returned; [seed] is what the global is at the end. _early_salts.py 49-92. *)
Definition multiply_end (numbers offsets : list Z) (start mix seed : Z) : Z :=
  let '(start, mix) := multiply_loop numbers offsets start mix in
  Z.lxor seed (Z.modulo (Z.lxor start mix) MOD).

(** _early_salts.py 73-92: without other tasks. *)
Definition salt_multiply (tick : Z) (ints numbers : list Z) (first : bytes) (g : globals) : Z * globals :=
  let '(start, g) := multiply_begin tick ints numbers first g in
  (multiply_end numbers (map (fun _ => g_offset g) numbers) start (g_mix g) (g_seed g), g).

(** What tasks and threads have done to the globals: each of their calls begins without
    interruption. No counterpart: the arguments of [multiply_begin]. *)
Record beginning := { b_tick : Z; b_ints : list Z; b_numbers : list Z; b_first : bytes }.
(** No counterpart: calls one after another. *)
Definition begin_all (bs : list beginning) (g : globals) : globals :=
  fold_left (fun g b => snd (multiply_begin (b_tick b) (b_ints b) (b_numbers b) (b_first b) g)) bs g.

(** _early_salts.py 43-46: [seed] are the 32 bytes of the salt file, [bits] and [more]
    256 random bits. *)
Definition new_globals (seed : bytes) (bits more : Z) : globals :=
  {| g_mix := Z.of_N (be_int seed); g_seed := more; g_offset := Z.lor (Z.shiftl 153 256) bits |}.

(** [n.to_bytes(32, BIG)] of an int: OverflowError if it is negative or too large. As used in
    _early_salts.py 43-92. *)
Definition to_32_bytes (n : Z) : result bytes :=
  if Z.ltb n 0 then Err OverflowErr else to_bytes_be 32 (Z.to_N n).

(** ** The daemon's delays: entropy_daemon.py 77-126.  Times are integers in a unit of
    which [second] makes a second. *)
Record daemon := {
  max_delay : Z;
  initial : Z;
  mutating : bool;
  deadline : Z;
}.

(** entropy_daemon.py 77-126. *)
Inductive daemon_op :=
| SetMax (delay : Z)                      (* set_max_delay *)
| SetTemporary (delay duration : Z)       (* set_temporary_max_delay *)
| Acknowledge.                            (* _acknowledge_temporary_frequency_deadline *)

(** entropy_daemon.py 77-126. *)
Definition do_daemon (second now : Z) (op : daemon_op) (d : daemon) : result daemon :=
  match op with
  | SetMax delay =>
    (* 114-126 *)
    if Z.ltb 0 delay
    then Ok {| max_delay := delay; initial := delay; mutating := mutating d; deadline := deadline d |}
    else Err ValueErr
  | SetTemporary delay duration =>
    (* 94-112 *)
    if Z.ltb 0 delay
    then Ok {| max_delay := delay; initial := initial d; mutating := true; deadline := now + duration |}
    else Err ValueErr
  | Acknowledge =>
    (* 77-92 *)
    if negb (mutating d) then Ok d
    else
      let delta := (deadline d - now)%Z in
      if Z.leb delta 0
      then Ok {| max_delay := initial d; initial := initial d; mutating := false; deadline := deadline d |}
      else if Z.ltb second (max_delay d - delta)
      then Ok {| max_delay := delta; initial := initial d; mutating := mutating d; deadline := deadline d |}
      else Ok d
  end.

(** Refused settings leave the daemon as it was. entropy_daemon.py 77-126. *)
Definition daemon_step (second : Z) (x : Z * daemon_op) (d : daemon) : daemon :=
  match do_daemon second (fst x) (snd x) d with Ok d' => d' | Err _ => d end.

(** entropy_daemon.py 52-67: a new daemon. *)
Definition new_daemon (delay : Z) : daemon :=
  {| max_delay := delay; initial := delay; mutating := false; deadline := 0 |}.
