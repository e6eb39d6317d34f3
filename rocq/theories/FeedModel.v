(** * Model of tasks that share one AsyncCipherStream

    aiootp/ciphers/cipher_streams.py 33-265.  Some tasks call [abuffer], each once; others
    iterate over the stream and call [afinalize].  A task runs without interruption
    between two points where it awaits something that yields.  The guards of [abuffer] and
    [afinalize] (asynchs/guards/concurrency_guard.py, exclusive) are the line of those who
    wait or are inside, which C34 and C35 justify: the one in front is inside. *)
From Coq Require Import ZArith.
From Verif Require Import Base CanonModel GentoolsModel CipherModel StreamModel.
Local Open Scope N_scope.

(** A task that calls [abuffer]: before the call, in [__aenter__], at cipher_streams.py 225 with what is
    left to read, at 232 with what is left to read, back from the call, cancelled. *)
Inductive feeder :=
| Fresh (data : bytes) | Waiting (data : bytes) | Filling (rem : bytes) | Looping (rem : bytes)
| Ended (o : outcome) | Gone.
(** A task that iterates or finalizes: between two steps of a loop over the stream, in
    [asend], in [anext_block_id], in [__aenter__] of [afinalize], in [aend_padding], in
    [abatch], in front of the loop cipher_streams.py 207-210, at the end of [afinalize], stopped by an
    exception.  The flag tells [afinalize] from [__aiter__]. *)
Inductive consumer :=
| Idle | Pulling (final : bool) | Naming (final : bool) (block : bytes)
| Joining | Padding (end_ : bytes) | Appending (blocks : list bytes) | Flushing
| Finished | Broken (e : exn).
(** Members of the line. concurrency_guard.py 240-247, cipher_streams.py 73-120: the guards in the deque. *)
Inductive who := Feeds (i : nat) | Closes (j : nat).

(** [cs_phase] is [Open] as long as [_finalizing_now] is empty, and [Closed] when the tag is
    made. [sent] are the packets in the order in which they were yielded. cipher_streams.py
    33-265: what the tasks share, and where each of them is. *)
Record system := {
  stream : cstream; line : list who; feeders : list feeder; consumers : list consumer;
  sent : list (bytes * bytes);
}.

(** No counterpart: a task or slot changes. *)
Definition replace {A} (i : nat) (x : A) (l : list A) : list A :=
  firstn i l ++ match skipn i l with [] => [] | _ :: r => x :: r end.
(** No counterpart: a new buffer. *)
Definition with_buffer (b : list bytes) (s : cstream) : cstream :=
  {| cs_buffer := b; cs_count := cs_count s; cs_session := cs_session s; cs_first := cs_first s; cs_phase := cs_phase s |}.
(** No counterpart: a new count of bytes. *)
Definition with_count (n : N) (s : cstream) : cstream :=
  {| cs_buffer := cs_buffer s; cs_count := n; cs_session := cs_session s; cs_first := cs_first s; cs_phase := cs_phase s |}.
(** No counterpart: a new phase. *)
Definition with_phase (p : phase) (s : cstream) : cstream :=
  {| cs_buffer := cs_buffer s; cs_count := cs_count s; cs_session := cs_session s; cs_first := cs_first s; cs_phase := p |}.
(** cipher_streams.py 259: the check for [_finalizing_now]. *)
Definition is_open (s : cstream) : bool := match cs_phase s with Open => true | _ => false end.

Section Feed.
Variable H : hasher.
Variable c : cfg.
Variable extra : bytes.   (* the frame of random padding *)

(** cipher_streams.py 238-265 [abuffer] and 213-236 [_adigest_data] by the [i]-th feeder. *)
Definition feeder_step (i : nat) (f : feeder) (s : cstream) (l : list who) : feeder * cstream * list who :=
  match f with
  | Fresh data => (Waiting data, s, l ++ [Feeds i])
  | Waiting data =>
    match l with
    | Feeds h :: rest =>
      if Nat.eqb h i then
        if is_open s then
          let s := with_count (cs_count s + blen data) s in
          (match split_last (cs_buffer s) with
           | Some (_, lst) => if blen lst =? c_blocksize c then Looping data else Filling data
           | None => Looping data
           end, s, l)
        else (Ended (Raised CipherStreamIsClosed), s, rest)
      else (f, s, l)
    | _ => (f, s, l)
    end
  | Filling rem =>
    match split_last (cs_buffer s) with
    | Some (init, lst) =>
      let missing := (Z.of_N (c_blocksize c) - Z.of_N (blen lst))%Z in
      let '(chunk, rem) := read_z missing rem in
      let s := with_buffer (init ++ [lst ++ chunk]) s in
      if (Z.of_N (blen chunk) =? missing)%Z then (Looping rem, s, l) else (Ended Done, s, tl l)
    | None => (Ended (Raised IndexErr), s, tl l)
    end
  | Looping rem =>
    let block := take (c_blocksize c) rem in
    let s := with_buffer (cs_buffer s ++ [block]) s in
    if blen block =? c_blocksize c then (Looping (drop (c_blocksize c) rem), s, l) else (Ended Done, s, tl l)
  | Ended _ | Gone => (f, s, l)
  end.

(** Cancelling a feeder which sleeps.  In [__aenter__] it stays in the line (C37, C38);
    inside, [__aexit__] takes it out of the line.  What it did to the stream remains. *)
Definition cancel_step (f : feeder) (l : list who) : feeder * list who :=
  match f with
  | Fresh _ | Waiting _ => (Gone, l)
  | Filling _ | Looping _ => (Gone, tl l)
  | Ended _ | Gone => (f, l)
  end.

(** An asynchronous generator that is running refuses another [asend]. cipher_streams.py
    159-171. *)
Definition is_pulling (x : consumer) : bool := match x with Pulling _ => true | _ => false end.

(** cipher_streams.py 159-171 [__aiter__]: the next round of a loop over the stream.  The exception ends the task. *)
Definition look_step (busy : bool) (s : cstream) : consumer :=
  if min_stream_queue c <? blen (cs_buffer s) then if busy then Broken RuntimeErr else Pulling false
  else Idle.
(** cipher_streams.py 194-197: the beginning of [afinalize]. *)
Definition close_step (j : nat) (s : cstream) (l : list who) : consumer * cstream * list who :=
  if is_open s then (Joining, with_phase Finalizing s, l ++ [Closes j])
  else (Broken CipherStreamIsClosed, s, l).

(** cipher_streams.py 170-171,  199-211. The transformation of a block touches nothing that feeders touch, so
    it is one step with [popleft]; it comes before the sleep of [anext_block_id]. *)
Definition consumer_step (j : nat) (busy : bool) (x : consumer) (s : cstream) (l : list who)
    : consumer * cstream * list who * list (bytes * bytes) :=
  let leave final := if final : bool then tl l else l in
  match x with
  | Pulling final =>
    match cs_buffer s with
    | [] => (Broken StopIter, s, leave final, [])
    | block :: rest =>
      match transform H c Encryption (cs_first s) (cs_session s) block with
      | Err e => (Broken e, s, leave final, [])
      | Ok (ct, ss) =>
        (Naming final ct,
         {| cs_buffer := rest; cs_count := cs_count s; cs_session := ss; cs_first := false; cs_phase := cs_phase s |},
         l, [])
      end
    end
  | Naming final ct =>
    match next_block_id H c (snd (cs_session s)) ct None [] with
    | Err e => (Broken e, s, leave final, [])
    | Ok block_id => (if final then Flushing else Idle, s, l, [(block_id, ct)])
    end
  | Joining =>
    match l with
    | Closes h :: rest =>
      if Nat.eqb h j then
        match end_padding c (cs_count s) extra with
        | Ok end_ => (Padding end_, s, l, [])
        | Err e => (Broken e, s, rest, [])
        end
      else (x, s, l, [])
    | _ => (x, s, l, [])
    end
  | Padding end_ =>
    match split_last (cs_buffer s) with
    | Some (init, lst) => (Appending (batch (lst ++ end_) (c_blocksize c)), with_buffer init s, l, [])
    | None => (Broken IndexErr, s, tl l, [])
    end
  | Appending (b :: bs) => (Appending bs, with_buffer (cs_buffer s ++ [b]) s, l, [])
  | Appending [] => (Flushing, s, l, [])
  | Flushing =>
    match cs_buffer s with
    | _ :: _ => if busy then (Broken RuntimeErr, s, tl l, []) else (Pulling true, s, l, [])
    | [] =>
      let '(b, m) := cs_session s in
      match finalize H c b m with
      | Err e => (Broken e, s, tl l, [])
      | Ok (_, m) =>
        (Finished, {| cs_buffer := []; cs_count := cs_count s; cs_session := (b, m); cs_first := cs_first s;
                      cs_phase := Closed |}, tl l, [])
      end
    end
  | Idle | Finished | Broken _ => (x, s, l, [])
  end.

(** Which task proceeds: a feeder; a consumer, which between two steps of its loops looks for
    another packet or begins to finalize as its own program says; or a feeder is cancelled. No
    counterpart: the event loop chooses. *)
Inductive event := Feeder (i : nat) | Look (j : nat) | Close (j : nat) | Go (j : nat) | Cancel (i : nat).

(** No counterpart: one step of the event loop. *)
Definition proceed (e : event) (y : system) : system :=
  match e with
  | Feeder i =>
    match nth_error (feeders y) i with
    | None => y
    | Some f =>
      let '(f, s, l) := feeder_step i f (stream y) (line y) in
      {| stream := s; line := l; feeders := replace i f (feeders y); consumers := consumers y; sent := sent y |}
    end
  | Cancel i =>
    match nth_error (feeders y) i with
    | None => y
    | Some f =>
      let '(f, l) := cancel_step f (line y) in
      {| stream := stream y; line := l; feeders := replace i f (feeders y); consumers := consumers y; sent := sent y |}
    end
  | Look j =>
    match nth_error (consumers y) j with
    | Some Idle =>
      {| stream := stream y; line := line y; feeders := feeders y;
         consumers := replace j (look_step (existsb is_pulling (consumers y)) (stream y)) (consumers y); sent := sent y |}
    | _ => y
    end
  | Close j =>
    match nth_error (consumers y) j with
    | Some Idle =>
      let '(x, s, l) := close_step j (stream y) (line y) in
      {| stream := s; line := l; feeders := feeders y; consumers := replace j x (consumers y); sent := sent y |}
    | _ => y
    end
  | Go j =>
    match nth_error (consumers y) j with
    | None => y
    | Some x =>
      let '(x, s, l, out) := consumer_step j (existsb is_pulling (consumers y)) x (stream y) (line y) in
      {| stream := s; line := l; feeders := feeders y; consumers := replace j x (consumers y); sent := sent y ++ out |}
    end
  end.
(** No counterpart: the steps of the event loop. *)
Definition run (es : list event) (y : system) : system := fold_left (fun y e => proceed e y) es y.

(** Before any of the tasks has run: what the feeders will feed, and [n] consumers. No
    counterpart: the state in which the tasks are created. *)
Definition started (st0 : cstream) (datas : list bytes) (n : nat) : system :=
  {| stream := st0; line := []; feeders := map Fresh datas; consumers := repeat Idle n; sent := [] |}.
End Feed.
