(** * Vocabulary for the properties of online encryption *)
From Coq Require Import ZArith.
From Verif Require Import Base CanonModel ClockModel GentoolsModel CipherModel CipherSpec StreamModel.
Local Open Scope N_scope.

(** A valid configuration whose default block ID size is allowed and fits the
    one byte in which it is hashed. *)
Definition valid_ids (c : cfg) : Prop :=
  1 <= c_min_block_id_bytes c /\ c_min_block_id_bytes c <= c_block_id_bytes c /\
  c_block_id_bytes c <= c_max_block_id_bytes c /\ c_max_block_id_bytes c <= 255.

(** The packets in a list of outcomes, in order, and the plaintext pieces. *)
Fixpoint packets (outs : list outcome) : list (bytes * bytes) :=
  match outs with
  | [] => []
  | Packet i b :: outs => (i, b) :: packets outs
  | _ :: outs => packets outs
  end.
Fixpoint released (outs : list outcome) : bytes :=
  match outs with
  | [] => []
  | Plain b :: outs => b ++ released outs
  | _ :: outs => released outs
  end.

(** Everything that was fed to the encrypting stream by calls which returned. *)
Fixpoint fed (ops : list eop) (outs : list outcome) : bytes :=
  match ops, outs with
  | EFeed d :: ops, Done :: outs => d ++ fed ops outs
  | _ :: ops, _ :: outs => fed ops outs
  | _, _ => []
  end.

(** A packet as it is transmitted. *)
Definition wire (p : bytes * bytes) : bytes := fst p ++ snd p.

(** The packets in a transmitted piece, and those which a call of the
    decrypting stream has taken in, as its outcome shows. *)
Definition parse (c : cfg) (p : bytes) : list (bytes * bytes) :=
  map (fun x => (take (c_block_id_bytes c) x, drop (c_block_id_bytes c) x)) (batch p (packetsize c)).
Definition taken (c : cfg) (o : dop) (out : outcome) : list (bytes * bytes) :=
  match o, out with
  | DFeed p, Done => parse c p
  | DFeed p, Refused i b rest => parse c (take (blen p - (blen i + blen b + blen rest)) p)
  | _, _ => []
  end.
Fixpoint accepted (c : cfg) (ops : list dop) (outs : list outcome) : list (bytes * bytes) :=
  match ops, outs with
  | o :: ops, out :: outs => taken c o out ++ accepted c ops outs
  | _, _ => []
  end.

(** The generator of [finalize] was exhausted: a step of it ended. *)
Definition finished (ops : list eop) (outs : list outcome) : Prop :=
  In (EFinal, Stop) (combine ops outs).
(** A call of the decrypting stream's [finalize]. *)
Definition finalizes (o : dop) : Prop :=
  match o with DFinal _ | DFinalAgain _ => True | _ => False end.
(** The decrypting stream's [finalize] was exhausted, and raised nothing other
    than the complaint that the stream is closed already. *)
Definition completed (ops : list dop) (outs : list outcome) : Prop :=
  (exists now, In (DFinal now, Stop) (combine ops outs)) /\
  (forall o e, In (o, Raised e) (combine ops outs) -> finalizes o -> e = CipherStreamIsClosed).
(** No call of [finalize] yet. *)
Definition unfinalized (ops : list dop) : Prop := Forall (fun o => ~ finalizes o) ops.

(** One byte string starts another. *)
Definition prefix (a b : bytes) : Prop := exists t, b = a ++ t.

(** The ID which a receiver with this key, salt, associated data and IV, who has
    processed the ciphertext blocks [body], computes for [block]. *)
Definition id_after (H : hasher) (c : cfg) (ks : kdfs) (salt aad iv body block : bytes)
    (size : option N) (baad : bytes) : result bytes :=
  st <- ds_new H c ks salt salt aad iv ;;
  ' (_, (_, s)) <- transform_blocks H c Decryption true (ds_session st) (batch body (c_blocksize c)) ;;
  next_block_id H c s block size baad.

(** The calls, with their outcomes, of a history from which those are removed
    that offered a packet to the decrypting stream which it refused at once. *)
Definition refused_first (o : dop) (out : outcome) : bool :=
  match o, out with
  | DFeed p, Refused i b rest => blen p =? blen i + blen b + blen rest
  | _, _ => false
  end.
Fixpoint kept (ops : list dop) (outs : list outcome) : list (dop * outcome) :=
  match ops, outs with
  | o :: ops, out :: outs =>
    if refused_first o out then kept ops outs else (o, out) :: kept ops outs
  | _, _ => []
  end.

(** The moment of a call that looks at the clock. *)
Definition moment (o : dop) : option Z :=
  match o with DNext now | DFinal now | DFinalAgain now => Some now | _ => None end.
(** At this moment, data sealed at the moment [made] is older than the limit. *)
Definition too_late (ck : clock) (made : Z) (ttl : option Z) (now : Z) : Prop :=
  exists l, ttl = Some l /\ (l < clock_time ck now - clock_time ck made)%Z.

(** A cipher to which the properties apply: a XOF that returns what is asked of
    it, a valid configuration, allowed block IDs, and a timestamp which fits the
    first block.  [shipped_streaming] says that the two shipped ciphers are. *)
Record streaming (H : hasher) (c : cfg) : Prop := {
  sg_xof : forall m n, blen (h_digest H m n) = n;
  sg_cfg : valid_cfg H c;
  sg_ids : valid_ids c;
  sg_stamp : c_timestamp_bytes c <= c_blocksize c;
}.

(** The answers which a call of the encrypting stream may give. *)
Definition proper (o : eop) (out : outcome) : Prop :=
  match o with
  | EFeed _ => out = Done \/ out = Hangs \/ out = Raised CipherStreamIsClosed
  | EFinalAgain => (exists i b, out = Packet i b) \/ out = Stop \/ out = Raised CipherStreamIsClosed
  | _ => (exists i b, out = Packet i b) \/ out = Stop
  end.
(** A call which feeds data or iterates. *)
Definition feeds_or_iterates (o : eop) : Prop :=
  match o with EFeed _ | ENext => True | _ => False end.
(** A call which feeds a packet to the decrypting stream. *)
Definition feeds (o : dop) : Prop := match o with DFeed _ => True | _ => False end.
