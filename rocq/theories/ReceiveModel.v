(** * Model of tasks that share one AsyncDecipherStream

    aiootp/ciphers/decipher_streams.py 33-318.  Some tasks call [abuffer], each once;
    others iterate over the stream and call [afinalize].  A task runs without
    interruption between two points where it awaits something that yields.  The guards of
    [abuffer] and [afinalize] (asynchs/guards/concurrency_guard.py, exclusive) are the line
    of those who wait or are inside, which C34 and C35 justify: the one in front is inside. *)
From Coq Require Import ZArith.
From Verif Require Import Base CanonModel ClockModel GentoolsModel CipherModel StreamModel FeedModel.
Local Open Scope N_scope.

(** A task that calls [abuffer]: before the call, in [__aenter__], in [atest_next_block_id] or
    in [asend] with the packet and what is left to read, back from the call, cancelled.
    decipher_streams.py 263-318. *)
Inductive receiver :=
| RFresh (data : bytes) | RWaiting (data : bytes)
| RTesting (i b rem : bytes) | RDeciphering (i b rem : bytes)
| REnded (o : outcome) | RGone.
(** A task that iterates or finalizes: in neither, in [atest_timestamp] with the timestamp, in
    [_aremove_inner_header], at a [yield] of [__aiter__], in [__aenter__] of [afinalize], in
    [shmac.afinalize], in [abatch] or at the [yield] behind it with the pieces that are left.
    The flag tells [__aiter__] as used by [afinalize]. decipher_streams.py 180-261. *)
Inductive reader :=
| RIdle | RDating (final : bool) (stamp : bytes) | RTrimming (final : bool) | RYielded (final : bool)
| RJoining | RSealing | RTail (rest : list bytes).

(** [alive]: the generator [_stream] has not been ended by an exception. [closing]:
    [_finalizing_now] is not empty ([ds_phase] stays as it is). [heard] are the answers which
    the readers got in turn, with a flag for those of [afinalize]. decipher_streams.py 33-318:
    what the tasks share, and where each of them is. *)
Record channel := {
  inbox : dstream; alive : bool; closing : bool; waiters : list who;
  receivers : list receiver; readers : list reader; heard : list (bool * outcome);
}.

Section Receive.
Variable H : hasher.
Variable c : cfg.
Variable ttl : option Z.

(** decipher_streams.py 276-287: the head of the loop in [_adigest_data], which ends the call and so leaves
    the guard or goes to the next packet. *)
Definition next_packet (rem : bytes) (l : list who) : receiver * list who :=
  match take (c_block_id_bytes c) rem with
  | [] => (REnded Done, tl l)
  | block_id =>
    let rem := drop (c_block_id_bytes c) rem in
    (RTesting block_id (take (c_blocksize c) rem) (drop (c_blocksize c) rem), l)
  end.

(** decipher_streams.py 289-318 [abuffer] and 263-287 [_adigest_data] by the [k]-th receiver. *)
Definition receiver_step (k : nat) (f : receiver) (s : dstream) (live shut : bool) (l : list who)
    : receiver * dstream * list who :=
  match f with
  | RFresh data =>
    if (blen data =? 0) || negb (blen data mod packetsize c =? 0)
    then (REnded (Raised InvalidLength), s, l)
    else (RWaiting data, s, l ++ [Feeds k])
  | RWaiting data =>
    match l with
    | Feeds h :: rest =>
      if Nat.eqb h k then
        if shut then (REnded (Raised CipherStreamIsClosed), s, rest)
        else let '(f, l) := next_packet data l in (f, s, l)
      else (f, s, l)
    | _ => (f, s, l)
    end
  | RTesting i b rem =>
    match test_next_block_id H c (snd (ds_session s)) i b [] with
    | Err InvalidBlockID => (REnded (Refused i b rem), s, tl l)
    | Err e => (REnded (Raised e), s, tl l)
    | Ok _ => (RDeciphering i b rem, s, l)
    end
  | RDeciphering i b rem =>
    if live then
      match transform H c Decryption (ds_first s) (ds_session s) b with
      | Err e => (REnded (Raised e), s, tl l)
      | Ok (pt, ss) =>
        let '(f, l) := next_packet rem l in
        (f, {| ds_queue := ds_queue s ++ [pt]; ds_trim := ds_trim s; ds_streaming := ds_streaming s;
               ds_session := ss; ds_first := false; ds_iterating := ds_iterating s; ds_phase := ds_phase s |}, l)
      end
    else (REnded (Raised StopIter), s, tl l)
  | REnded _ | RGone => (f, s, l)
  end.

(** Cancelling a receiver which sleeps: it stays in the line if it was waiting (C37, C38). The
    exception passes through [_stream] if that was running, and ends it. decipher_streams.py
    263-318. *)
Definition cancel_receiver (f : receiver) (live : bool) (l : list who) : receiver * bool * list who :=
  match f with
  | RFresh _ | RWaiting _ => (RGone, live, l)
  | RTesting _ _ _ => (RGone, live, tl l)
  | RDeciphering _ _ _ => (RGone, false, tl l)
  | REnded _ | RGone => (f, live, l)
  end.

(** Leaving [afinalize] leaves its guard. decipher_streams.py 249-261. *)
Definition leave (final : bool) (l : list who) : list who := if final then tl l else l.

(** decipher_streams.py 220-222 and 253-261: the loop of [__aiter__] and, behind it, the rest of [afinalize] up
    to its first sleep.  ([adepadding_end_index] does not sleep.) *)
Definition round (final : bool) (s : dstream) (l : list who)
    : reader * dstream * list who * list (bool * outcome) :=
  match ds_loop c s with
  | (Plain x, s) => (RYielded final, s, l, [(final, Plain x)])
  | (_, s) =>
    if final then
      match split_last (ds_queue s) with
      | None => (RIdle, s, tl l, [(true, Raised IndexErr)])
      | Some (_, lst) =>
        (RTail (batch (but_last_n (depadding_end_index c lst) (concat (ds_queue s))) (c_blocksize c)), s, l, [])
      end
    else (RIdle, s, l, [(false, Stop)])
  end.
(** decipher_streams.py 218-219: the loop which removes the inner header, up to the sleep in
    [_aremove_inner_header] or its end. *)
Definition head (final : bool) (s : dstream) (l : list who)
    : reader * dstream * list who * list (bool * outcome) :=
  if negb (ds_trim s =? 0) && negb (blen (ds_queue s) =? 0) then (RTrimming final, s, l, [])
  else round final s l.
(** decipher_streams.py 216-217 and 186-188: the beginning of [__aiter__] and of [_atest_timestamp].  Without
    a time-to-live there is no sleep before the header is removed; the model sleeps. *)
Definition enter (final : bool) (s : dstream) (l : list who)
    : reader * dstream * list who * list (bool * outcome) :=
  if ds_streaming s then head final s l
  else
    let s := ds_set_queue s (ds_trim s) true (ds_queue s) in
    match ds_queue s with
    | [] => (RIdle, s, leave final l, [(final, Raised IndexErr)])
    | q :: _ => (RDating final (take (c_timestamp_bytes c) q), s, l, [])
    end.

(** A step of the [j]-th reader at the moment [now]: decipher_streams.py 189-192, 199-206, 218-222, 249-261.
    The end of [afinalize] of the SHMAC is one step: only the one inside looks at it. *)
Definition reader_step (j : nat) (now : Z) (x : reader) (s : dstream) (l : list who)
    : reader * dstream * list who * list (bool * outcome) :=
  match x with
  | RIdle => (x, s, l, [])
  | RDating final stamp =>
    match test_timestamp (c_clock c) now stamp ttl BigEndian with
    | Err (TimestampExpired by_) =>
      (RIdle, ds_set_queue s (ds_trim s) false (ds_queue s), leave final l, [(final, Raised (TimestampExpired by_))])
    | Err e => (RIdle, s, leave final l, [(final, Raised e)])
    | Ok _ => head final s l
    end
  | RTrimming final =>
    match ds_queue s with
    | [] => (RIdle, s, leave final l, [(final, Raised IndexErr)])
    | q :: queue =>
      let trim := ds_trim s - blen (take (ds_trim s) q) in
      let block := drop (ds_trim s) q in
      head final (ds_set_queue s trim (ds_streaming s) (match block with [] => queue | _ => block :: queue end)) l
    end
  | RYielded final => round final s l
  | RJoining =>
    match l with
    | Closes h :: _ => (if Nat.eqb h j then RSealing else x, s, l, [])
    | _ => (x, s, l, [])
    end
  | RSealing =>
    let '(b, m) := ds_session s in
    match finalize H c b m with
    | Err e => (RIdle, s, tl l, [(true, Raised e)])
    | Ok (_, m) =>
      enter true {| ds_queue := ds_queue s; ds_trim := ds_trim s; ds_streaming := ds_streaming s; ds_session := (b, m);
                    ds_first := ds_first s; ds_iterating := ds_iterating s; ds_phase := ds_phase s |} l
    end
  | RTail (x :: rest) => (RTail rest, s, l, [(true, Plain x)])
  | RTail [] => (RIdle, s, tl l, [(true, Stop)])
  end.

(** Which task proceeds: a receiver; a reader, at the moment [now], which in neither [__aiter__]
    nor [afinalize] begins to iterate or to finalize, otherwise goes on, or leaves the loop in
    which it iterates; or a receiver or an iterating reader is cancelled (readers in [afinalize]
    are not cancelled here). No counterpart: the event loop chooses. *)
Inductive revent :=
| Receiver (k : nat) | RLook (j : nat) (now : Z) | RClose (j : nat) (now : Z) | RGo (j : nat) (now : Z)
| RLeave (j : nat) | RCancel (k : nat) | RStop (j : nat).

(** No counterpart: one step of the event loop. *)
Definition rproceed (e : revent) (y : channel) : channel :=
  match e with
  | Receiver k =>
    match nth_error (receivers y) k with
    | None => y
    | Some f =>
      let '(f, s, l) := receiver_step k f (inbox y) (alive y) (closing y) (waiters y) in
      {| inbox := s; alive := alive y; closing := closing y; waiters := l;
         receivers := replace k f (receivers y); readers := readers y; heard := heard y |}
    end
  | RCancel k =>
    match nth_error (receivers y) k with
    | None => y
    | Some f =>
      let '(f, live, l) := cancel_receiver f (alive y) (waiters y) in
      {| inbox := inbox y; alive := live; closing := closing y; waiters := l;
         receivers := replace k f (receivers y); readers := readers y; heard := heard y |}
    end
  | RLook j _ =>
    match nth_error (readers y) j with
    | Some RIdle =>
      let '(x, s, l, out) := enter false (inbox y) (waiters y) in
      {| inbox := s; alive := alive y; closing := closing y; waiters := l;
         receivers := receivers y; readers := replace j x (readers y); heard := heard y ++ out |}
    | _ => y
    end
  | RClose j _ =>
    match nth_error (readers y) j with
    | Some RIdle =>
      if closing y then
        {| inbox := inbox y; alive := alive y; closing := true; waiters := waiters y;
           receivers := receivers y; readers := readers y; heard := heard y ++ [(true, Raised CipherStreamIsClosed)] |}
      else
        {| inbox := inbox y; alive := alive y; closing := true; waiters := waiters y ++ [Closes j];
           receivers := receivers y; readers := replace j RJoining (readers y); heard := heard y |}
    | _ => y
    end
  | RGo j now =>
    match nth_error (readers y) j with
    | None => y
    | Some x =>
      let '(x, s, l, out) := reader_step j now x (inbox y) (waiters y) in
      {| inbox := s; alive := alive y; closing := closing y; waiters := l;
         receivers := receivers y; readers := replace j x (readers y); heard := heard y ++ out |}
    end
  | RLeave j | RStop j =>
    match nth_error (readers y) j, e with
    | Some (RYielded false), _ | Some (RDating false _), RStop _ | Some (RTrimming false), RStop _ =>
      {| inbox := inbox y; alive := alive y; closing := closing y; waiters := waiters y;
         receivers := receivers y; readers := replace j RIdle (readers y); heard := heard y |}
    | _, _ => y
    end
  end.
(** No counterpart: the steps of the event loop. *)
Definition rrun (es : list revent) (y : channel) : channel := fold_left (fun y e => rproceed e y) es y.

(** Before any of the tasks has run: what the receivers will feed, and [n] readers. No
    counterpart: the state in which the tasks are created. *)
Definition rstarted (st0 : dstream) (datas : list bytes) (n : nat) : channel :=
  {| inbox := st0; alive := true; closing := false; waiters := []; receivers := map RFresh datas;
     readers := repeat RIdle n; heard := [] |}.
End Receive.
