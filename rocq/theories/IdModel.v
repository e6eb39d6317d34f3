(** * Model of aiootp/randoms/ids: SequenceID, RawGUID, GUID. *)
From Verif Require Import Base PermModel ClockModel.
Local Open Scope Z_scope.

(** ** sequence_id.py *)
(** sequence_id.py 66, 94-107, with the configuration of sequence_id_config.py
    60-83 and of lines 68-80 (sizes 1 to 32, FastAffineXORChain). *)
Record seqid := { sq_size : Z; sq_perm : chain }.

(** [config_id] is looked up in the registered ids (KeyError otherwise); [mult] is the
    multiplier of the permutation's configuration. sequence_id.py 94-107. *)
Definition make_seqid (mult : Z) (config_id : Z) (key : bytes) : result seqid :=
  if (1 <=? config_id) && (config_id <=? 32) then
    c <- make_chain_config FastChain config_id mult ;;
    p <- make_chain c key ;;
    Ok {| sq_size := config_id; sq_perm := p |}
  else Err KeyErr.

(** sequence_id.py 115-120 [new]; 108-113 async. *)
Definition seqid_new (q : seqid) (value : Z) : result bytes :=
  sid <- chain_permute (sq_perm q) value ;;
  z_to_bytes (Z.to_N (sq_size q)) BigEndian sid.

(** sequence_id.py 128-132 [read]; 122-126 async. *)
Definition seqid_read (q : seqid) (value : bytes) : result Z :=
  chain_invert (sq_perm q) (be_z value).

(** ** raw_guid.py and raw_guid_config.py *)
(** raw_guid_config.py 93-114 [RawGUIDConfig.__init__]. *)
Record raw_config := {
  rc_timestamp_bytes : N;
  rc_prf_bytes : N;
  rc_node_id_bytes : N;
  rc_ticker_bytes : N;
  rc_tick_domain : N;
  rc_size : N;
  rc_clock : clock;
}.
(** raw_guid_config.py 70-82, 92-115.  [int(TICKER_BYTES * "ff", 16)] is
    256 ^ TICKER_BYTES - 1 (a ValueError for zero bytes). *)
Definition make_raw_config (timestamp prf node ticker size : N) : result raw_config :=
  if (ticker =? 0)%N then Err ValueErr
  else if negb (size =? timestamp + prf + node + ticker)%N then Err InvalidLength
  else Ok {| rc_timestamp_bytes := timestamp; rc_prf_bytes := prf; rc_node_id_bytes := node;
             rc_ticker_bytes := ticker; rc_tick_domain := 256 ^ ticker - 1; rc_size := size;
             rc_clock := {| ck_unit := Nanoseconds; ck_epoch := EPOCH_NS |} |}.
(** raw_guid.py 52-64: the registered configurations, ids 12 to 32. *)
Definition raw_config_of (config_id : N) : result raw_config :=
  if ((12 <=? config_id) && (config_id <=? 32))%N
  then make_raw_config 8 (config_id - 10) 1 1 config_id
  else Err KeyErr.

(** raw_guid.py 50, 76-88: attributes of an instance. *)
Record raw_guid := { rg_config : raw_config; rg_node : bytes; rg_tick : N }.

(** raw_guid.py 66-74 [_process_node_id], 76-88 [__init__]. *)
Definition make_raw_guid (config_id : N) (node_id : bytes) : result raw_guid :=
  c <- raw_config_of config_id ;;
  if negb (blen node_id =? rc_node_id_bytes c)%N then Err InvalidLength
  else Ok {| rg_config := c; rg_node := node_id; rg_tick := 0 |}.

(** raw_guid.py 90-96 [_incremented_tick]: the new state and the bytes. *)
Definition incremented_tick (r : raw_guid) : result (bytes * raw_guid) :=
  let tick := N.land (rg_tick r + 1) (rc_tick_domain (rg_config r)) in
  let r' := {| rg_config := rg_config r; rg_node := rg_node r; rg_tick := tick |} in
  b <- to_bytes_be (rc_ticker_bytes (rg_config r)) tick ;;
  Ok (b, r').

(** raw_guid.py 105-115 [new]; 98-103 async.  [now] is the value of [time_ns()]
    and [token] what [token_bytes(PRF_BYTES)] returned in this call. *)
Definition raw_new (r : raw_guid) (now : Z) (token : bytes) : result (bytes * raw_guid) :=
  ts <- make_timestamp (rc_clock (rg_config r)) now (rc_timestamp_bytes (rg_config r)) BigEndian ;;
  ' (tick, r') <- incremented_tick r ;;
  Ok (ts ++ token ++ rg_node r ++ tick, r').

(** raw_guid_config.py 118-137 [RawGUIDContainer]. *)
Record container := {
  co_timestamp : bytes;
  co_token : bytes;
  co_node_id : bytes;
  co_ticker : bytes;
}.
(** raw_guid.py 124-128 [read] and raw_guid_config.py 124-134 [__init__]. *)
Definition raw_read (c : raw_config) (guid : bytes) : result container :=
  if negb (blen guid =? rc_size c)%N then Err InvalidLength
  else
    let timestamp := take (rc_timestamp_bytes c) guid in
    let rem := drop (rc_timestamp_bytes c) guid in
    let token := take (rc_prf_bytes c) rem in
    let rem := drop (rc_prf_bytes c) rem in
    let node_id := take (rc_node_id_bytes c) rem in
    let rem := drop (rc_node_id_bytes c) rem in
    let ticker := take (rc_ticker_bytes c) rem in
    Ok {| co_timestamp := timestamp; co_token := token; co_node_id := node_id;
          co_ticker := ticker |}.

(** raw_guid_config.py 160-166 [sort_key]. *)
Definition sort_key (c : container) : bytes :=
  co_timestamp c ++ co_node_id c ++ co_ticker c ++ co_token c.

(** Python's [<] on bytes. As used in raw_guid_config.py 148-158. *)
Fixpoint bytes_ltb (a b : bytes) : bool :=
  match a, b with
  | _, [] => false
  | [], _ :: _ => true
  | x :: a', y :: b' =>
    if (bval x <? bval y)%N then true
    else if (bval y <? bval x)%N then false
    else bytes_ltb a' b'
  end.

(** raw_guid_config.py 142-146 [__eq__], 148-158 [__gt__], [__lt__]. *)
Definition container_eqb (a b : container) : bool := bytes_eqb (sort_key a) (sort_key b).
(** raw_guid_config.py 148-158 [__gt__]. *)
Definition container_gtb (a b : container) : bool := bytes_ltb (sort_key b) (sort_key a).
(** raw_guid_config.py 148-158 [__lt__]. *)
Definition container_ltb (a b : container) : bool := bytes_ltb (sort_key a) (sort_key b).

(** raw_guid_config.py 136-140 [__hash__]. *)
Definition container_hash (a : container) : N := be_int (sort_key a).

(** ** guid.py. guid.py 140-162. *)
Record guid := { gd_size : N; gd_raw : raw_guid; gd_perm : chain }.

(** guid.py 148-162 [__init__] with 140-146; [default_key] is the device's key
    (guid_config.py 91-103).  [key or default]: an empty key counts as missing. *)
Definition make_guid (mult : Z) (default_key : bytes) (key : option bytes) (node_id : bytes)
    (config_id : N) : result guid :=
  if ((12 <=? config_id) && (config_id <=? 32))%N then
    let key := match key with Some (b :: k) => b :: k | _ => default_key end in
    r <- make_raw_guid config_id node_id ;;
    c <- make_chain_config FastChain (Z.of_N config_id) mult ;;
    p <- make_chain c key ;;
    Ok {| gd_size := config_id; gd_raw := r; gd_perm := p |}
  else Err KeyErr.

(** guid.py 174-181 [new]; 165-172 async. *)
Definition guid_new (g : guid) (now : Z) (token : bytes) : result (bytes * guid) :=
  ' (raw, r') <- raw_new (gd_raw g) now token ;;
  v <- chain_permute (gd_perm g) (be_z raw) ;;
  b <- z_to_bytes (gd_size g) BigEndian v ;;
  Ok (b, {| gd_size := gd_size g; gd_raw := r'; gd_perm := gd_perm g |}).

(** guid.py 196-205 [read]; 183-194 async. *)
Definition guid_read (g : guid) (b : bytes) : result container :=
  if negb (blen b =? gd_size g)%N then Err InvalidLength
  else
    original <- chain_invert (gd_perm g) (be_z b) ;;
    raw <- z_to_bytes (gd_size g) BigEndian original ;;
    raw_read (rg_config (gd_raw g)) raw.

(** ** The tick update at the granularity of threads

    raw_guid.py 94-96 is two statements: the first loads the attribute and stores
    the incremented value, the second loads the attribute again.  A thread switch
    can occur between any two of the three accesses. *)
Inductive tick_action := LoadTick | StoreTick | ReloadTick.
(** No counterpart: what a thread has loaded and returned. *)
Record tick_thread := { tt_loaded : N; tt_result : option N }.
(** Shared tick, and the local state of every thread. raw_guid.py 94-96: one access. *)
Definition tick_step (domain : N) (s : N * (nat -> tick_thread)) (e : nat * tick_action)
    : N * (nat -> tick_thread) :=
  let '(tick, th) := s in
  let '(i, a) := e in
  let upd t := fun j => if Nat.eqb j i then t else th j in
  match a with
  | LoadTick => (tick, upd {| tt_loaded := tick; tt_result := None |})
  | StoreTick => (N.land (tt_loaded (th i) + 1) domain, th)
  | ReloadTick => (tick, upd {| tt_loaded := tt_loaded (th i); tt_result := Some tick |})
  end.
