(** * Online encryption and decryption: cipher_streams.py, decipher_streams.py

    Only the synchronous classes are transcribed; the asynchronous ones repeat
    them with awaits.  The methods that are generators are modelled by what one
    [next()] on a generator object does, so that every interleaving of several
    generators over one stream object, and generators which are abandoned
    half-way, are histories of these steps. *)
From Coq Require Import ZArith.
From Verif Require Import Base CanonModel PermModel ClockModel GentoolsModel CipherModel.
Local Open Scope N_scope.

(** What a call shows to its caller. No counterpart: what the methods of cipher_streams.py and
    decipher_streams.py return, yield or raise. *)
Inductive outcome :=
| Done                                     (* returned normally *)
| Packet (block_id block : bytes)          (* yielded (block_id, block) *)
| Plain (block : bytes)                    (* yielded a piece of plaintext *)
| Stop                                     (* StopIteration: the generator ended *)
| Raised (e : exn)
| Refused (block_id block rest : bytes)    (* InvalidBlockID with its failure_state *)
| Hangs.                                   (* waits for a guard which the same
                                              thread holds in a suspended generator *)

(** [io.BytesIO(data).read(n)]: a negative n reads everything. Returns what is read and what
    remains. As used in cipher_streams.py 461-465 and decipher_streams.py 543-567. *)
Definition read_z (n : Z) (rem : bytes) : bytes * bytes :=
  if (n <? 0)%Z then (rem, []) else (take (Z.to_N n) rem, drop (Z.to_N n) rem).

(** A deque split into all but its last element, and the last one. [pop] of a deque, as used in
    decipher_streams.py 510-541. *)
Fixpoint split_last {A} (l : list A) : option (list A * A) :=
  match l with
  | [] => None
  | [x] => Some ([], x)
  | x :: l' => match split_last l' with
               | None => None
               | Some (i, y) => Some (x :: i, y)
               end
  end.

Section Streams.
Variable H : hasher.
Variable c : cfg.

(** ** CipherStream *)

(** Where the first [finalize] generator stands: not started, suspended inside its [with guard]
    block, or ended. cipher_streams.py 406-442. *)
Inductive phase := Open | Finalizing | Closed.

(** cipher_streams.py 315-366: the instance.  [cs_first] tells that nothing has
    been pulled through the cipher generator yet. *)
Record cstream := {
  cs_buffer : list bytes;
  cs_count : N;
  cs_session : session;
  cs_first : bool;
  cs_phase : phase;
}.

(** cipher_streams.py 315-366 [__init__]. *)
Definition cs_new (ks : kdfs) (r : coins) (salt : option bytes) (aad : bytes) : result cstream :=
  start <- start_padding c (r_now r) (r_siv r) ;;
  b <- make_bundle H c ks salt aad None (r_salt r) (r_iv r) ;;
  b <- set_run_mode Sync b ;;
  s <- make_shmac H c b ;;
  s <- for_encryption b s ;;
  st <- junction Encryption Sync (b, s) ;;
  Ok {| cs_buffer := [start]; cs_count := 0; cs_session := st; cs_first := true;
        cs_phase := Open |}.

(** cipher_streams.py 461-465: the loop of [_digest_data]; [fuel] bounds the
    number of rounds, one more than the number of bytes is enough. *)
Fixpoint read_blocks (fuel : nat) (rem : bytes) (buffer : list bytes) : list bytes :=
  match fuel with
  | O => buffer
  | S fuel =>
    let block := take (c_blocksize c) rem in
    if blen block =? c_blocksize c
    then read_blocks fuel (drop (c_blocksize c) rem) (buffer ++ [block])
    else buffer ++ [block]
  end.

(** cipher_streams.py 444-465 [_digest_data]. *)
Definition digest_plaintext (data : bytes) (buffer : list bytes) : list bytes :=
  match split_last buffer with
  | None => read_blocks (S (length data)) data buffer
  | Some (init, lst) =>
    if blen lst =? c_blocksize c then read_blocks (S (length data)) data buffer
    else
      let missing := (Z.of_N (c_blocksize c) - Z.of_N (blen lst))%Z in
      let '(chunk, rem) := read_z missing data in
      let buffer := init ++ [lst ++ chunk] in
      if (Z.of_N (blen chunk) =? missing)%Z
      then read_blocks (S (length data)) rem buffer
      else buffer
  end.

(** cipher_streams.py 467-494 [buffer]. *)
Definition cs_feed (data : bytes) (st : cstream) : outcome * cstream :=
  match cs_phase st with
  | Finalizing => (Hangs, st)
  | Closed => (Raised CipherStreamIsClosed, st)
  | Open =>
    (Done,
     {| cs_buffer := digest_plaintext data (cs_buffer st);
        cs_count := cs_count st + blen data;
        cs_session := cs_session st; cs_first := cs_first st; cs_phase := Open |})
  end.

(** Pulling one block through the cipher generator, and its block ID:
    cipher_streams.py 402-404, 436-440. *)
Definition cs_pull (st : cstream) : outcome * cstream :=
  match cs_buffer st with
  | [] => (Raised StopIter, st)
  | block :: rest =>
    match transform H c Encryption (cs_first st) (cs_session st) block with
    | Err e => (Raised e, st)
    | Ok (ct, ss) =>
      let st' := {| cs_buffer := rest; cs_count := cs_count st; cs_session := ss;
                    cs_first := false; cs_phase := cs_phase st |} in
      match next_block_id H c (snd ss) ct None [] with
      | Err e => (Raised e, st')
      | Ok block_id => (Packet block_id ct, st')
      end
    end
  end.

(** cipher_streams.py 394-404 [__iter__]: one step of any iterator. *)
Definition cs_next (st : cstream) : outcome * cstream :=
  if min_stream_queue c <? blen (cs_buffer st) then cs_pull st else (Stop, st).

(** cipher_streams.py 436-442: a step inside the guarded part of [finalize]. *)
Definition cs_flush (st : cstream) : outcome * cstream :=
  match cs_buffer st with
  | _ :: _ => cs_pull st
  | [] =>
    let '(b, s) := cs_session st in
    match finalize H c b s with
    | Err e => (Raised e, {| cs_buffer := []; cs_count := cs_count st; cs_session := (b, s);
                             cs_first := cs_first st; cs_phase := Closed |})
    | Ok (_, s) => (Stop, {| cs_buffer := []; cs_count := cs_count st; cs_session := (b, s);
                             cs_first := cs_first st; cs_phase := Closed |})
    end
  end.

(** cipher_streams.py 406-442 [finalize]: one step of the first such generator;
    [extra] is the frame of random padding. *)
Definition cs_finalize (extra : bytes) (st : cstream) : outcome * cstream :=
  match cs_phase st with
  | Closed => (Stop, st)
  | Finalizing => cs_flush st
  | Open =>
    match split_last (cs_buffer st), end_padding c (cs_count st) extra with
    | Some (init, lst), Ok end_ =>
      cs_flush {| cs_buffer := init ++ batch (lst ++ end_) (c_blocksize c);
                  cs_count := cs_count st; cs_session := cs_session st;
                  cs_first := cs_first st; cs_phase := Finalizing |}
    | _, Err e => (Raised e, {| cs_buffer := cs_buffer st; cs_count := cs_count st;
                                cs_session := cs_session st; cs_first := cs_first st;
                                cs_phase := Closed |})
    | None, _ => (Raised IndexErr, {| cs_buffer := cs_buffer st; cs_count := cs_count st;
                                cs_session := cs_session st; cs_first := cs_first st;
                                cs_phase := Closed |})
    end
  end.

(** The calls a user can make on the stream. [EFinalAgain] is the first step of a [finalize]
    generator created while another one has already started. cipher_streams.py 394-494. *)
Inductive eop :=
| EFeed (data : bytes)
| ENext
| EFinal
| EFinalAgain.
(** cipher_streams.py 394-494: one call. *)
Definition cs_step (extra : bytes) (o : eop) (st : cstream) : outcome * cstream :=
  match o with
  | EFeed data => cs_feed data st
  | ENext => cs_next st
  | EFinal => cs_finalize extra st
  | EFinalAgain => match cs_phase st with
                   | Open => cs_finalize extra st
                   | _ => (Raised CipherStreamIsClosed, st)
                   end
  end.
(** No counterpart: calls one after another. *)
Fixpoint cs_run (extra : bytes) (ops : list eop) (st : cstream) : list outcome * cstream :=
  match ops with
  | [] => ([], st)
  | o :: ops =>
    let '(out, st) := cs_step extra o st in
    let '(outs, st) := cs_run extra ops st in
    (out :: outs, st)
  end.

(** ** DecipherStream *)

(** Where the first [finalize] generator stands: not started, in [yield from self], yielding the
    last pieces, ended, or ended by an exception. decipher_streams.py 510-541. *)
Inductive dphase := DOpen | DIter | DTail (rest : list bytes) | DDone | DFailed.

(** decipher_streams.py 371-435: the instance.  [ds_iterating] tells that some
    iterator is suspended at its [yield]. *)
Record dstream := {
  ds_queue : list bytes;
  ds_trim : N;
  ds_streaming : bool;
  ds_session : session;
  ds_first : bool;
  ds_iterating : bool;
  ds_phase : dphase;
}.

(** decipher_streams.py 371-435 [__init__]; [rsalt] is only drawn for an empty
    salt. *)
Definition ds_new (ks : kdfs) (rsalt salt aad iv : bytes) : result dstream :=
  b <- make_bundle H c ks (Some salt) aad (Some iv) rsalt [] ;;
  b <- set_run_mode Sync b ;;
  s <- make_shmac H c b ;;
  s <- for_decryption b s ;;
  st <- junction Decryption Sync (b, s) ;;
  Ok {| ds_queue := []; ds_trim := inner_header_bytes c; ds_streaming := false;
        ds_session := st; ds_first := true; ds_iterating := false; ds_phase := DOpen |}.

(** No counterpart: slots change. *)
Definition ds_set_queue (st : dstream) (trim : N) (streaming : bool) (queue : list bytes)
    : dstream :=
  {| ds_queue := queue; ds_trim := trim; ds_streaming := streaming;
     ds_session := ds_session st; ds_first := ds_first st;
     ds_iterating := ds_iterating st; ds_phase := ds_phase st |}.
(** No counterpart: a new phase. *)
Definition ds_set_phase (st : dstream) (p : dphase) : dstream :=
  {| ds_queue := ds_queue st; ds_trim := ds_trim st; ds_streaming := ds_streaming st;
     ds_session := ds_session st; ds_first := ds_first st;
     ds_iterating := ds_iterating st; ds_phase := p |}.
(** No counterpart: an iterator is suspended. *)
Definition ds_set_iterating (st : dstream) : dstream :=
  {| ds_queue := ds_queue st; ds_trim := ds_trim st; ds_streaming := ds_streaming st;
     ds_session := ds_session st; ds_first := ds_first st;
     ds_iterating := true; ds_phase := ds_phase st |}.

(** decipher_streams.py 543-567 [_digest_data]; [fuel] bounds the number of
    packets, the number of bytes is enough. *)
Fixpoint ds_digest (fuel : nat) (data : bytes) (st : dstream) : outcome * dstream :=
  let block_id := take (c_block_id_bytes c) data in
  match fuel, block_id with
  | O, _ => (Done, st)
  | _, [] => (Done, st)
  | S fuel, _ :: _ =>
    let rem := drop (c_block_id_bytes c) data in
    let block := take (c_blocksize c) rem in
    let rest := drop (c_blocksize c) rem in
    match test_next_block_id H c (snd (ds_session st)) block_id block [] with
    | Err InvalidBlockID => (Refused block_id block rest, st)
    | Err e => (Raised e, st)
    | Ok _ =>
      match transform H c Decryption (ds_first st) (ds_session st) block with
      | Err e => (Raised e, st)
      | Ok (pt, ss) =>
        ds_digest fuel rest
          {| ds_queue := ds_queue st ++ [pt]; ds_trim := ds_trim st;
             ds_streaming := ds_streaming st; ds_session := ss; ds_first := false;
             ds_iterating := ds_iterating st; ds_phase := ds_phase st |}
      end
    end
  end.

(** decipher_streams.py 569-596 [buffer]. *)
Definition ds_feed (data : bytes) (st : dstream) : outcome * dstream :=
  if (blen data =? 0) || negb (blen data mod packetsize c =? 0)
  then (Raised InvalidLength, st)
  else match ds_phase st with
       | DIter | DTail _ => (Hangs, st)
       | DDone | DFailed => (Raised CipherStreamIsClosed, st)
       | DOpen => ds_digest (length data) data st
       end.

(** decipher_streams.py 482-493, 505-506: removing the inner header while there
    is something to remove it from. *)
Fixpoint trim_queue (trim : N) (queue : list bytes) : N * list bytes :=
  match queue with
  | [] => (trim, [])
  | q :: queue' =>
    if trim =? 0 then (trim, queue)
    else
      let inner_header := take trim q in
      let trim' := trim - blen inner_header in
      match drop trim q with
      | [] => trim_queue trim' queue'
      | block => (trim', block :: queue')
      end
  end.

(** decipher_streams.py 468-480 [_test_timestamp] and 503-506, the beginning of
    [__iter__]: [None] if it goes on to the loop. *)
Definition ds_prologue (now : Z) (ttl : option Z) (st : dstream) : option exn * dstream :=
  let go st :=
    let '(trim, queue) := trim_queue (ds_trim st) (ds_queue st) in
    (@None exn, ds_set_queue st trim true queue) in
  if ds_streaming st then go st
  else match ds_queue st with
       | [] => (Some IndexErr, ds_set_queue st (ds_trim st) true [])
       | q :: _ =>
         match test_timestamp (c_clock c) now (take (c_timestamp_bytes c) q) ttl BigEndian with
         | Err (TimestampExpired by_) =>
           (Some (TimestampExpired by_), ds_set_queue st (ds_trim st) false (ds_queue st))
         | Err e => (Some e, ds_set_queue st (ds_trim st) true (ds_queue st))
         | Ok _ => go st
         end
       end.

(** decipher_streams.py 507-508: a round of the loop of [__iter__]. *)
Definition ds_loop (st : dstream) : outcome * dstream :=
  match ds_queue st with
  | q :: queue => if min_stream_queue c <? blen (ds_queue st)
                  then (Plain q, ds_set_iterating (ds_set_queue st (ds_trim st) (ds_streaming st) queue))
                  else (Stop, st)
  | [] => (Stop, st)
  end.

(** decipher_streams.py 495-508 [__iter__]: the first step of a new iterator,
    and a later step of one that is suspended (if there is one). *)
Definition ds_next (now : Z) (ttl : option Z) (st : dstream) : outcome * dstream :=
  match ds_prologue now ttl st with
  | (Some e, st) => (Raised e, st)
  | (None, st) => ds_loop st
  end.
(** decipher_streams.py 495-508. *)
Definition ds_more (st : dstream) : outcome * dstream :=
  if ds_iterating st then ds_loop st else (Stop, st).

(** decipher_streams.py 535-541: the end of [finalize]; yielding the last
    pieces. *)
Definition ds_yield_tail (rest : list bytes) (st : dstream) : outcome * dstream :=
  match rest with
  | x :: rest => (Plain x, ds_set_phase st (DTail rest))
  | [] => (Stop, ds_set_phase st DDone)
  end.
(** A round of [yield from self] inside [finalize], which goes on to the tail when the iterator
    has ended. decipher_streams.py 510-541. *)
Definition ds_final_iter (st : dstream) : outcome * dstream :=
  match ds_loop st with
  | (Plain x, st) => (Plain x, ds_set_phase st DIter)
  | (_, st) =>
    match split_last (ds_queue st) with
    | None => (Raised IndexErr, ds_set_phase st DFailed)
    | Some (_, lst) =>
      let text := but_last_n (depadding_end_index c lst) (concat (ds_queue st)) in
      ds_yield_tail (batch text (c_blocksize c)) st
    end
  end.

(** decipher_streams.py 510-541 [finalize]: one step of the first such
    generator. *)
Definition ds_finalize (now : Z) (ttl : option Z) (st : dstream) : outcome * dstream :=
  match ds_phase st with
  | DDone | DFailed => (Stop, st)
  | DTail rest => ds_yield_tail rest st
  | DIter => ds_final_iter st
  | DOpen =>
    let '(b, s) := ds_session st in
    match finalize H c b s with
    | Err e => (Raised e, ds_set_phase st DFailed)
    | Ok (_, s) =>
      let st := {| ds_queue := ds_queue st; ds_trim := ds_trim st;
                   ds_streaming := ds_streaming st; ds_session := (b, s);
                   ds_first := ds_first st; ds_iterating := ds_iterating st;
                   ds_phase := DIter |} in
      match ds_prologue now ttl st with
      | (Some e, st) => (Raised e, ds_set_phase st DFailed)
      | (None, st) => ds_final_iter st
      end
    end
  end.

(** The calls a user can make, at the moments [now]. decipher_streams.py 495-596. *)
Inductive dop :=
| DFeed (data : bytes)
| DNext (now : Z)
| DMore
| DFinal (now : Z)
| DFinalAgain (now : Z).
(** decipher_streams.py 495-596: one call. *)
Definition ds_step (ttl : option Z) (o : dop) (st : dstream) : outcome * dstream :=
  match o with
  | DFeed data => ds_feed data st
  | DNext now => ds_next now ttl st
  | DMore => ds_more st
  | DFinal now => ds_finalize now ttl st
  | DFinalAgain now => match ds_phase st with
                       | DOpen => ds_finalize now ttl st
                       | _ => (Raised CipherStreamIsClosed, st)
                       end
  end.
(** No counterpart: calls one after another. *)
Fixpoint ds_run (ttl : option Z) (ops : list dop) (st : dstream) : list outcome * dstream :=
  match ops with
  | [] => ([], st)
  | o :: ops =>
    let '(out, st) := ds_step ttl o st in
    let '(outs, st) := ds_run ttl ops st in
    (out :: outs, st)
  end.

End Streams.
