(** * One authenticator of Chunky2048 shared by asyncio tasks: the asynchronous methods of
      dual_output_shake_cipher.py with stream_hmac.py and stream_junction.py

    As AwaitModel.v, for the other cipher.  A block is transformed in three pieces: first the
    generator waits, in the permutation of the first block or in the keystream of a later one;
    then the round key is drawn, and for the first block the header is hashed before that; then it
    waits once more, in [_aupdate_mac], and the block is hashed. *)
From Coq Require Import ZArith.
From Verif Require Import Base CanonModel TransformModel PermModel ClockModel IdModel CipherModel AuthModel AwaitModel.
Local Open Scope N_scope.

(** Where a task is suspended: dual_output_shake_cipher.py 424-426 [apermute], 490-494 [ainvert], 149
    [asleep] of the keystream; stream_hmac.py 173 [asleep] of [_aupdate_mac]; stream_hmac.py 223-258,
    349-374; 296-305, 317-331. *)
Inductive waiting :=
| Waiting (g : nat) (block ratchet_key : bytes)                      (* about to draw a key *)
| Hashing (g : nat) (block : bytes) (out : result bytes) (hashed : bytes)  (* about to hash *)
| Asks (k : call)
| Finalizes (i : nat).

(** As [shared] of AwaitModel.v. stream_hmac.py 39-54, 317-331. *)
Record joint := {
  j_world : world;
  j_claimed : nat -> bool;
  j_running : nat -> bool;
  j_tasks : nat -> option waiting;
}.

(** No counterpart: the objects change. *)
Definition j_set_world (s : joint) (w : world) : joint :=
  {| j_world := w; j_claimed := j_claimed s; j_running := j_running s; j_tasks := j_tasks s |}.
(** stream_hmac.py 326, 342: [_is_finalized] is set. *)
Definition j_claim (s : joint) (i : nat) : joint :=
  {| j_world := j_world s; j_claimed := fun j => if Nat.eqb j i then true else j_claimed s j;
     j_running := j_running s; j_tasks := j_tasks s |}.
(** No counterpart: CPython's flag of an asynchronous generator. *)
Definition j_set_running (s : joint) (g : nat) (r : bool) : joint :=
  {| j_world := j_world s; j_claimed := j_claimed s;
     j_running := fun j => if Nat.eqb j g then r else j_running s j; j_tasks := j_tasks s |}.
(** No counterpart: a task is suspended or goes on. *)
Definition j_set_task (s : joint) (t : nat) (p : option waiting) : joint :=
  {| j_world := j_world s; j_claimed := j_claimed s; j_running := j_running s;
     j_tasks := fun j => if Nat.eqb j t then p else j_tasks s j |}.

(** What the second piece comes to: an exception, or the value to be returned and what will be
    hashed; and the bundle. No counterpart: the control flow. *)
Inductive drawn :=
| Fails (e : exn) (b : bundle)
| Draws (b : bundle) (out : result bytes) (hashed : bytes).

Section Dual.
Variable H : hasher.
Variable c : cfg.

(** dual_output_shake_cipher.py 411-442 [_aunique_cipher], 477-510 [_aunique_decipher], after the
    permutation and up to the update of the hash. *)
Definition draw_first (m : cipher_mode) (b : bundle) (s : shmac) (block : bytes) : drawn :=
  let seen := take (inner_header_bytes c) block in
  match (x <- match m with
              | Encryption => chain_permute (s_perm s) (be_z seen)
              | Decryption => chain_invert (s_perm s) (be_z seen)
              end ;; z_to_bytes (inner_header_bytes c) BigEndian x) with
  | Err e => Fails e b
  | Ok made =>
    if s_finalized s then Fails AttributeErr b
    else
      let header := match m with Encryption => seen ++ made | Decryption => made ++ seen end in
      let mac := b_mac b ++ header ++ drop (2 * inner_header_bytes c) (s_cur s) in
      let '(key, b) := keystream_send H (set_mac b mac) (h_digest H mac (2 * rate H)) in
      match z_to_bytes (first_content_bytes c) BigEndian
              (Z.lxor (be_z (first_key H c key)) (be_z (drop (inner_header_bytes c) block))) with
      | Err e => Fails e b
      | Ok body =>
        let out := made ++ body in
        let ciphertext := match m with Encryption => out | Decryption => block end in
        Draws b (Ok out) (left_capacity H c key ++ ciphertext ++ right_capacity H c key)
      end
  end.

(** dual_output_shake_cipher.py 143-149 of [_anew_keystream], 226-250 [_aencipher_then_hash], 278-301
    [_ahash_then_decipher]: up to the update of the hash.  In decryption the block is hashed before it
    is seen that it is too large. *)
Definition draw_later (m : cipher_mode) (b : bundle) (block ratchet_key : bytes) : drawn :=
  let '(key, b) := keystream_send H b ratchet_key in
  let out := z_to_bytes (c_blocksize c) BigEndian (Z.lxor (be_z (embedded_key H c key)) (be_z block)) in
  match m with
  | Encryption =>
    match out with
    | Err e => Fails e b
    | Ok ciphertext => Draws b out (left_capacity H c key ++ ciphertext ++ right_capacity H c key)
    end
  | Decryption => Draws b out (left_capacity H c key ++ block ++ right_capacity H c key)
  end.

(** dual_output_shake_cipher.py 556-580 [acombine_streams]. *)
Definition draw (m : cipher_mode) (first : bool) (b : bundle) (s : shmac) (block ratchet_key : bytes) : drawn :=
  if first then draw_first m b s block else draw_later m b block ratchet_key.

(** The first piece: dual_output_shake_cipher.py 556-580; 214-224 [_ratchet_key], which is read before
    the keystream waits. *)
Definition j_begin_feed (t g : nat) (block : bytes) (s : joint) : list (call * reply) * joint :=
  match nth_error (w_gens (j_world s)) g with
  | None => ([(Feed g block, NoSuchObject)], s)
  | Some x =>
    if j_running s g then ([(Feed g block, Raised RuntimeErr)], s)
    else if negb (g_live x) then ([(Feed g block, Raised StopIter)], s)
    else
      match nth_error (w_shmacs (j_world s)) (g_shmac x) with
      | None => ([(Feed g block, NoSuchObject)], s)
      | Some h =>
        if negb (g_first x) && s_finalized h then
          ([(Feed g block, Raised AttributeErr)], j_set_world s (close g (j_world s)))
        else ([], j_set_running (j_set_task s t (Some (Waiting g block (s_cur h ++ s_prev h)))) g true)
      end
  end.

(** The second piece. dual_output_shake_cipher.py 556-580. *)
Definition j_draw (t g : nat) (block ratchet_key : bytes) (s : joint) : list (call * reply) * joint :=
  match nth_error (w_gens (j_world s)) g with
  | None => ([(Feed g block, NoSuchObject)], j_set_running s g false)
  | Some x =>
    match nth_error (w_shmacs (j_world s)) (g_shmac x) with
    | None => ([(Feed g block, NoSuchObject)], j_set_running s g false)
    | Some h =>
      match draw (g_mode x) (g_first x) (w_bundle (j_world s)) h block ratchet_key with
      | Fails e b =>
        ([(Feed g block, Raised e)], j_set_running (j_set_world s (close g (set_bundle (j_world s) b))) g false)
      | Draws b out hashed =>
        ([], j_set_task (j_set_world s (set_bundle (j_world s) b)) t (Some (Hashing g block out hashed)))
      end
    end
  end.

(** The third piece: stream_hmac.py 174-180 [_aupdate_mac], and the yield or the exception of the
    generator. *)
Definition j_hash (g : nat) (block : bytes) (out : result bytes) (hashed : bytes) (s : joint) : list (call * reply) * joint :=
  let s := j_set_running s g false in
  match nth_error (w_gens (j_world s)) g with
  | None => ([(Feed g block, NoSuchObject)], s)
  | Some x =>
    match nth_error (w_shmacs (j_world s)) (g_shmac x) with
    | None => ([(Feed g block, NoSuchObject)], s)
    | Some h =>
      if s_finalized h then ([(Feed g block, Raised AttributeErr)], j_set_world s (close g (j_world s)))
      else
        let '(b', h') := update_mac H (w_bundle (j_world s), h) hashed in
        let w := set_shmac (set_bundle (j_world s) b') (g_shmac x) h' in
        match out with
        | Ok o =>
          ([(Feed g block, Got o)],
           j_set_world s (set_gen w g {| g_shmac := g_shmac x; g_mode := g_mode x; g_first := false; g_live := true |}))
        | Err e => ([(Feed g block, Raised e)], j_set_world s (close g w))
        end
    end
  end.

(** No counterpart: a call of AuthModel.v without a suspension in it. *)
Definition j_at_once (k : call) (s : joint) : list (call * reply) * joint :=
  let '(r, w) := step H c (j_world s) k in ([(k, r)], j_set_world s w).

(** stream_hmac.py 317-331 [afinalize], 333-347 [finalize]: up to the suspension. *)
Definition j_begin_finalize (t i : nat) (asynchronous : bool) (s : joint) : list (call * reply) * joint :=
  match nth_error (w_shmacs (j_world s)) i with
  | None => ([(Finalize i, NoSuchObject)], s)
  | Some _ =>
    if j_claimed s i then ([(Finalize i, Raised PermissionErr)], s)
    else if asynchronous then ([], j_set_task (j_claim s i) t (Some (Finalizes i)))
    else j_at_once (Finalize i) (j_claim s i)
  end.

(** A call: stream_junction.py 37-148; stream_hmac.py 223-374. *)
Definition j_make (t : nat) (k : call) (asynchronous : bool) (s : joint) : list (call * reply) * joint :=
  match j_tasks s t with
  | Some _ => ([], s)
  | None =>
    match k with
    | Feed g block =>
      match b_mode (w_bundle (j_world s)) with
      | Some Async => j_begin_feed t g block s
      | _ => j_at_once k s
      end
    | BlockId _ _ _ _ | TestBlockId _ _ _ _ =>
      if asynchronous then ([], j_set_task s t (Some (Asks k))) else j_at_once k s
    | Finalize i => j_begin_finalize t i asynchronous s
    | _ => j_at_once k s
    end
  end.

(** The next piece of a call: dual_output_shake_cipher.py 556-580; stream_hmac.py 168-180, 244-258, 304-305,
    328-331. *)
Definition j_resume (t : nat) (s : joint) : list (call * reply) * joint :=
  match j_tasks s t with
  | None => ([], s)
  | Some p =>
    let s := j_set_task s t None in
    match p with
    | Waiting g block ratchet_key => j_draw t g block ratchet_key s
    | Hashing g block out hashed => j_hash g block out hashed s
    | Asks k => j_at_once k s
    | Finalizes i => j_at_once (Finalize i) s
    end
  end.

(** CancelledError in a suspended task: nothing is undone; a generator in which it is raised is
    over. dual_output_shake_cipher.py 556-580, stream_hmac.py 168-180, 223-258, 296-331. *)
Definition j_cancel (t : nat) (s : joint) : joint :=
  match j_tasks s t with
  | None => s
  | Some p =>
    let s := j_set_task s t None in
    match p with
    | Waiting g _ _ | Hashing g _ _ _ => j_set_running (j_set_world s (close g (j_world s))) g false
    | _ => s
    end
  end.

(** No counterpart: one action. *)
Definition j_act (a : action) (s : joint) : list (call * reply) * joint :=
  match a with
  | Make t k asynchronous => j_make t k asynchronous s
  | Resume t => j_resume t s
  | Cancel t => ([], j_cancel t s)
  end.

(** No counterpart: actions one after another, and the calls that ended, with their replies. *)
Fixpoint j_run (l : list action) (s : joint) : list (call * reply) * joint :=
  match l with
  | [] => ([], s)
  | a :: l =>
    let '(e1, s1) := j_act a s in
    let '(e2, s2) := j_run l s1 in
    (e1 ++ e2, s2)
  end.
End Dual.
