(** * Model of aiootp/keygens/passcrypt

    The asynchronous variants repeat the synchronous ones.  Processes: a session
    submitted to the pool is a started session; a broken pool is not modelled. *)
From Verif Require Import Base CanonModel ClockModel.
Local Open Scope Z_scope.

(** Python's [math.ceil(a / b)] for integers a >= 0, b > 0: as [int_truediv], with the ceiling
    of the float quotient. As used in session_init.py 128-142 and sessions_manager.py 131-165. *)
Definition ceil_truediv (a b : Z) : Z :=
  let e := float_exponent a b in
  if 0 <=? e then round_half_even a (b * 2 ^ e) * 2 ^ e
  else (round_half_even (a * 2 ^ (- e)) b + 2 ^ (- e) - 1) / 2 ^ (- e).
(** [math.floor(n * r)] for an int n and a float r that is an integer: both the conversion of n
    and the product are rounded to 53 bits. As used in session_init.py 128-180. *)
Definition floor_mul (n r : Z) : Z := int_truediv (int_truediv n 1 * r) 1.

(** _constants/misc.py 26. *)
Definition B_TO_MB_RATIO : Z := 1024 * 1024.

(** config.py 35-75 [_passcrypt_config_inputs] and 235-236 ([clock]): the constants
    the functions below use. *)
Record config := {
  PASSCRYPT_PAD : bytes;
  PACKED_METADATA : bytes;
  MIN_CORES : Z; MAX_CORES : Z; CORES_BYTES : N;
  MIN_CPU : Z; MAX_CPU : Z; CPU_TO_DIGEST_PAIRS_PER_ROW_RATIO : Z; CPU_BYTES : N;
  MIN_MB : Z; MAX_MB : Z; MB_BYTES : N;
  MIN_SALT_SIZE : Z; MAX_SALT_SIZE : Z; SALT_SIZE_BYTES : N;
  MIN_TAG_SIZE : Z;
  MIN_PASSPHRASE_BYTES : Z;
  TIMESTAMP_BYTES : N;
  pc_clock : clock;
  S_TO_TIME_UNIT_RATIO : Z;
}.
(** config.py 385 [passcrypt_spec]; [metadata] stands for the packed encoding of
    lines 238-283. *)
Definition passcrypt_spec (metadata : bytes) : config := {|
  PASSCRYPT_PAD := [xf2];
  PACKED_METADATA := metadata;
  MIN_CORES := 1; MAX_CORES := 256; CORES_BYTES := 1;
  MIN_CPU := 1; MAX_CPU := 256; CPU_TO_DIGEST_PAIRS_PER_ROW_RATIO := 2; CPU_BYTES := 1;
  MIN_MB := 1; MAX_MB := 256 ^ 3; MB_BYTES := 3;
  MIN_SALT_SIZE := 4; MAX_SALT_SIZE := 256; SALT_SIZE_BYTES := 1;
  MIN_TAG_SIZE := 16;
  MIN_PASSPHRASE_BYTES := 12;
  TIMESTAMP_BYTES := 8;
  pc_clock := {| ck_unit := Nanoseconds; ck_epoch := EPOCH_NS |};
  S_TO_TIME_UNIT_RATIO := 1000000000;
|}.

(** [lo <= n <= hi]: [n in range(lo, hi + 1)]. As used in config.py 285-341. *)
Definition within (lo hi n : Z) : bool := (lo <=? n) && (n <=? hi).
(** No counterpart: [len]. *)
Definition zlen (x : bytes) : Z := Z.of_N (blen x).

Section Config.
Variable cf : config.

(** config.py 343-358 [validate_inputs] with 285-305; all values are bytes. *)
Definition validate_inputs (passphrase salt aad : bytes) : result unit :=
  if negb (MIN_PASSPHRASE_BYTES cf <=? zlen passphrase) then Err ImproperPassphrase
  else if negb (within (MIN_SALT_SIZE cf) (MAX_SALT_SIZE cf) (zlen salt)) then Err ValueErr
  else Ok tt.

(** config.py 360-382 [validate_settings] with 307-341; all values are ints. *)
Definition validate_settings (mb cpu cores tag_size salt_size : Z) : result unit :=
  if negb (within (MIN_MB cf) (MAX_MB cf) mb) then Err ValueErr
  else if negb (within (MIN_CPU cf) (MAX_CPU cf) cpu) then Err ValueErr
  else if negb (within (MIN_CORES cf) (MAX_CORES cf) cores) then Err ValueErr
  else if negb (MIN_TAG_SIZE cf <=? tag_size) then Err ValueErr
  else if negb (within (MIN_SALT_SIZE cf) (MAX_SALT_SIZE cf) salt_size) then Err ValueErr
  else Ok tt.

(** hash_format.py 50-88 [PasscryptHash]: the fields of an instance that is set. *)
Record phash := { timestamp : bytes; mb : Z; cpu : Z; cores : Z; salt : bytes; tag : bytes }.
(** hash_format.py 50-88. *)
Definition make_phash (timestamp : bytes) (mb cpu cores : Z) (salt tag : bytes) : result phash :=
  _ <- validate_settings mb cpu cores (zlen tag) (zlen salt) ;;
  Ok {| timestamp := timestamp; mb := mb; cpu := cpu; cores := cores; salt := salt; tag := tag |}.

(** hash_format.py 108-126 [import_hash], on an instance not set yet. *)
Definition import_hash (x : bytes) : result phash :=
  ' (ts, x1) <- bio_read (TIMESTAMP_BYTES cf) x ;;
  ' (m, x2) <- bio_read (MB_BYTES cf) x1 ;;
  ' (c, x3) <- bio_read (CPU_BYTES cf) x2 ;;
  ' (co, x4) <- bio_read (CORES_BYTES cf) x3 ;;
  ' (sz, x5) <- bio_read (SALT_SIZE_BYTES cf) x4 ;;
  ' (sl, x6) <- bio_read (be_int sz + 1) x5 ;;
  make_phash ts (Z.of_N (be_int m) + 1) (Z.of_N (be_int c) + 1) (Z.of_N (be_int co) + 1) sl x6.

(** hash_format.py 128-142 [export_hash]; [salt_size] (90-97) is None for an empty
    salt, and [None - 1] is a TypeError. *)
Definition export_hash (h : phash) : result bytes :=
  m <- z_to_bytes (MB_BYTES cf) BigEndian (mb h - 1) ;;
  c <- z_to_bytes (CPU_BYTES cf) BigEndian (cpu h - 1) ;;
  co <- z_to_bytes (CORES_BYTES cf) BigEndian (cores h - 1) ;;
  sz <- match salt h with
        | [] => Err TypeErr
        | _ => z_to_bytes (SALT_SIZE_BYTES cf) BigEndian (zlen (salt h) - 1)
        end ;;
  Ok (timestamp h ++ m ++ c ++ co ++ sz ++ salt h ++ tag h).

(** A [range] object and its [in]. For hash_format.py 144-193. *)
Record range := { r_start : Z; r_stop : Z; r_step : Z }.
(** No counterpart: [in] for a range. *)
Definition in_range (n : Z) (r : range) : bool :=
  (if 0 <? r_step r then (r_start r <=? n) && (n <? r_stop r) else (r_stop r <? n) && (n <=? r_start r)) &&
  ((n - r_start r) mod r_step r =? 0).
(** config.py 208, 214, 223: the default ranges. *)
Definition MB_RESOURCE_SAFETY_RANGE : range := {| r_start := MIN_MB cf; r_stop := 512; r_step := 1 |}.
(** config.py 214. *)
Definition CPU_RESOURCE_SAFETY_RANGE : range := {| r_start := MIN_CPU cf; r_stop := 33; r_step := 1 |}.
(** config.py 223. *)
Definition CORES_RESOURCE_SAFETY_RANGE : range := {| r_start := MIN_CORES cf; r_stop := 9; r_step := 1 |}.

(** hash_format.py 144-193 [in_allowed_ranges]. *)
Definition in_allowed_ranges (h : phash) (mb_allowed cpu_allowed cores_allowed : range) : result unit :=
  if negb (in_range (mb h) mb_allowed) then Err ResourceLimitErr
  else if negb (in_range (cpu h) cpu_allowed) then Err ResourceLimitErr
  else if negb (in_range (cores h) cores_allowed) then Err ResourceLimitErr
  else Ok tt.

(** ** Sessions *)

(** session_init.py 61-91 [PasscryptSession.__init__]. *)
Record session := {
  s_passphrase : bytes; s_salt : bytes; s_aad : bytes;
  s_mb : Z; s_cpu : Z; s_cores : Z; s_tag_size : Z;
}.
(** session_init.py 61-91. *)
Definition make_session (passphrase salt aad : bytes) (mb cpu cores tag_size : Z) : result session :=
  _ <- validate_inputs passphrase salt aad ;;
  _ <- validate_settings mb cpu cores tag_size (zlen salt) ;;
  Ok {| s_passphrase := passphrase; s_salt := salt; s_aad := aad; s_mb := mb; s_cpu := cpu; s_cores := cores; s_tag_size := tag_size |}.

(** [Domains.PASSCRYPT], and the block [shake_128] is started with
    (session_init.py 53-59). *)
Variable PASSCRYPT_DOMAIN : bytes.
Variable kdf_salt : bytes.
Variable shake_128 : hasher.

(** session_init.py 108-126 [_hash_session_parameters]: what is hashed, and the
    hash. *)
Definition session_parameters (s : session) : result (list bytes) :=
  m <- z_to_bytes INT_BYTES BigEndian (s_mb s) ;;
  c <- z_to_bytes INT_BYTES BigEndian (s_cpu s) ;;
  co <- z_to_bytes INT_BYTES BigEndian (s_cores s) ;;
  sz <- z_to_bytes INT_BYTES BigEndian (s_tag_size s) ;;
  Ok [PASSCRYPT_DOMAIN; PACKED_METADATA cf; s_salt s; s_aad s; m; c; co; sz].
(** session_init.py 108-126. *)
Definition hash_session_parameters (s : session) : result bytes :=
  l <- session_parameters s ;;
  hash_bytes shake_128 l (PASSCRYPT_PAD cf) (Some 336%N) (Some (s_passphrase s ++ s_salt s ++ s_aad s)).

(** session_init.py 128-142 [prepare_session]. *)
Definition rounds (s : session) : Z := Z.max 1 (s_cpu s / CPU_TO_DIGEST_PAIRS_PER_ROW_RATIO cf).
(** session_init.py 128-142. *)
Definition rows (s : session) : Z := ceil_truediv (B_TO_MB_RATIO * s_mb s) (336 * rounds s).
(** session_init.py 128-142. *)
Definition row_size (s : session) : Z := 336 * rounds s.
(** session_init.py 128-142. *)
Definition total_size (s : session) : Z := row_size s * rows s.

(** The memory, everything absorbed by the [proof] object, and the accesses made: for each the
    bounds of the slice of the memory it falls on ([Read], [Write]) and the number of bytes
    written ([Write]). No counterpart: what C51 speaks about. *)
Inductive access := Read (lo hi : Z) | Write (lo hi size : Z).
(** session_init.py 144-180: [ram] and [proof]. *)
Record machine := { ram : bytes; absorbed : bytes; accesses : list access }.

(** A slice index, [slice.indices] with step 1. No counterpart: part of slices. *)
Definition py_index (len i : Z) : Z := if i <? 0 then Z.max 0 (len + i) else Z.min i len.
(** No counterpart: part of slices. *)
Definition lower (l : bytes) (start : Z) : Z := py_index (zlen l) start.
(** No counterpart: part of slices. *)
Definition upper (l : bytes) (stop : option Z) : Z := match stop with None => zlen l | Some i => py_index (zlen l) i end.
(** [l[start:stop]]; and [l[start:stop] = data] on a bytearray, which grows or shrinks it when
    the sizes differ. As used in sessions_manager.py 65-83. *)
Definition getslice (l : bytes) (start : Z) (stop : option Z) : bytes :=
  firstn (Z.to_nat (upper l stop - lower l start)) (skipn (Z.to_nat (lower l start)) l).
(** As used in sessions_manager.py 70-79. *)
Definition setslice (l : bytes) (start : Z) (stop : option Z) (data : bytes) : bytes :=
  firstn (Z.to_nat (lower l start)) l ++ data ++ skipn (Z.to_nat (Z.max (lower l start) (upper l stop))) l.

(** [proof.digest(n)]. As used in sessions_manager.py 47-83. *)
Definition digest (n : Z) (st : machine) : bytes := h_digest shake_128 (absorbed st) (Z.to_N n).
(** [update(ram[start:stop])]. As used in sessions_manager.py 65-83. *)
Definition update_slice (start : Z) (stop : option Z) (st : machine) : machine := {|
  ram := ram st;
  absorbed := absorbed st ++ getslice (ram st) start stop;
  accesses := accesses st ++ [Read (lower (ram st) start) (Z.max (lower (ram st) start) (upper (ram st) stop))] |}.
(** [ram[start:stop] = digest(n)]. As used in sessions_manager.py 70-79. *)
Definition write_slice (start : Z) (stop : option Z) (n : Z) (st : machine) : machine := {|
  ram := setslice (ram st) start stop (digest n st);
  absorbed := absorbed st;
  accesses := accesses st ++ [Write (lower (ram st) start) (Z.max (lower (ram st) start) (upper (ram st) stop)) n] |}.

(** session_init.py 144-180 [allocate_ram]; [fuel] bounds the turns of the loop
    (see C51_memory_is_allocated: it is enough). *)
Definition max_size : Z := B_TO_MB_RATIO * 512 - 1.
(** session_init.py 144-180: a turn of the loop. *)
Definition extend (n : Z) (st : machine) : machine :=
  update_slice (-168) None {| ram := ram st ++ digest n st; absorbed := absorbed st; accesses := accesses st |}.
(** session_init.py 144-180: the loop. *)
Fixpoint fill (fuel : nat) (size : Z) (st : machine) : machine :=
  match fuel with
  | O => st
  | S fuel =>
    if max_size <? size then fill fuel (size - max_size) (extend max_size st)
    else if size =? 0 then st else extend size st
  end.
(** session_init.py 144-180. *)
Definition allocate_ram (s : session) (st : machine) : machine :=
  fill (S (Z.to_nat (total_size s / max_size))) (total_size s) st.

(** [range(0, stop, step)] for step > 0. As used in sessions_manager.py 65-83. *)
Definition range0 (stop step : Z) : list Z :=
  map (fun i => Z.of_nat i * step) (seq 0 (Z.to_nat ((stop + step - 1) / step))).

(** sessions_manager.py 70-79: the body of the two loops of
    [_work_memory_prover]. *)
Definition step (row_size column_start row_start : Z) (st : machine) : machine :=
  let index := row_start + column_start in
  let ref_row_start := - row_start - row_size in
  let reflection := ref_row_start + column_start + 168 in
  let ref_end := if reflection + 168 <? 0 then Some (reflection + 168) else None in
  let st1 := update_slice row_start (Some (row_start + row_size)) st in
  let st2 := write_slice index (Some (index + 168)) 168 st1 in
  let st3 := update_slice ref_row_start (Some (ref_row_start + row_size)) st2 in
  write_slice reflection ref_end 168 st3.
(** sessions_manager.py 65-79: the passes. *)
Definition passes (row_size total_size : Z) (st : machine) : machine :=
  fold_left (fun st column_start =>
    fold_left (fun st row_start => step row_size column_start row_start st) (range0 total_size row_size) st)
    (range0 row_size 336) st.
(** sessions_manager.py 80-83: the final scans. *)
Definition scans (cpu : Z) (st : machine) : machine :=
  fold_left (fun st iteration =>
    let seek := 168 * iteration in
    update_slice 0 None (write_slice seek (Some (seek + 84)) 84 st)) (range0 (cpu + 2) 1) st.
(** sessions_manager.py 47-83 [_work_memory_prover]. *)
Definition work_memory_prover (row_size total_size cpu : Z) (st : machine) : result (bytes * machine) :=
  if negb (total_size =? zlen (ram st)) then Err AssertionErr
  else
    let st1 := scans cpu (passes row_size total_size st) in
    Ok (digest 168 st1, st1).

(** sessions_manager.py 85-93 [_passcrypt]. *)
Definition passcrypt (s : session) : result (bytes * machine) :=
  parameters <- hash_session_parameters s ;;
  work_memory_prover (row_size s) (total_size s) (s_cpu s)
    (allocate_ram s {| ram := []; absorbed := kdf_salt ++ parameters; accesses := [] |}).

(** sessions_manager.py 131-165 [spawn]: the sessions started, in order, and
    whether it raised. *)
Definition core_mb (mb cores : Z) : Z := ceil_truediv mb cores.
(** sessions_manager.py 131-165. *)
Definition core_session (passphrase salt aad pepper : bytes) (mb cpu cores tag_size : Z) (core : Z) : result session :=
  total_mb <- z_to_bytes INT_BYTES BigEndian mb ;;
  core_blob <- z_to_bytes 8 BigEndian core ;;
  core_aad <- canonical_pack [pepper; aad; core_blob; total_mb] 1 [x00] INT_BYTES ;;
  make_session passphrase salt core_aad (core_mb mb cores) cpu cores tag_size.
(** sessions_manager.py 131-165: the loop. *)
Fixpoint spawn_all (make : Z -> result session) (l : list Z) : result unit * list session :=
  match l with
  | [] => (Ok tt, [])
  | core :: l =>
    match make core with
    | Err e => (Err e, [])
    | Ok s => let '(r, ss) := spawn_all make l in (r, s :: ss)
    end
  end.
(** sessions_manager.py 131-165. *)
Definition spawn (passphrase salt aad pepper : bytes) (mb cpu cores tag_size : Z) : result unit * list session :=
  spawn_all (core_session passphrase salt aad pepper mb cpu cores tag_size) (range0 cores 1).

(** interface.py 298-338 [new]: the tag, and the sessions started. *)
Definition new (pepper passphrase salt aad : bytes) (mb cpu cores tag_size : Z) : result bytes * list session :=
  let '(r, ss) := spawn passphrase salt aad pepper mb cpu cores tag_size in
  (_ <- r ;;
   results <- mapM (fun s => x <- passcrypt s ;; Ok (fst x)) ss ;;
   match results with
   | [] => Err IndexErr
   | first :: _ => hash_bytes shake_128 results [x00] (Some (Z.to_N tag_size)) (Some first)
   end, ss).

(** interface.py 384-426 [hash_passphrase] of an instance with the given settings
    (233-254 [__init__], 42-65 [PasscryptSettings], which validates them).  [now]
    is the clock's reading and [fresh] the salt [csprng] returns. *)
Definition hash_passphrase (pepper passphrase aad : bytes) (mb cpu cores tag_size salt_size : Z) (now : Z) (fresh : bytes) : result bytes :=
  _ <- validate_settings mb cpu cores tag_size salt_size ;;
  ts <- make_timestamp (pc_clock cf) now (TIMESTAMP_BYTES cf) BigEndian ;;
  tag <- fst (new pepper passphrase fresh (ts ++ aad) mb cpu cores tag_size) ;;
  h <- make_phash ts mb cpu cores fresh tag ;;
  export_hash h.

(** interface.py 492-552 [verify]: the outcome, and the sessions started.  [ttl] is
    None or an int.  The instance made there has the default salt size, that of
    [passcrypt_spec] (interface.py 240) whatever the [config] argument. *)
Definition DEFAULT_SCHEMA_SALT_SIZE : Z := 8.
(** interface.py 492-552. *)
Definition verify (pepper composed passphrase aad : bytes) (ttl : option Z) (mb_allowed cpu_allowed cores_allowed : range) (now : Z)
    : result unit * list session :=
  match
    parts <- import_hash composed ;;
    let ttl := match ttl with None => None | Some t => if t =? 0 then Some 0 else Some (floor_mul t (S_TO_TIME_UNIT_RATIO cf)) end in
    _ <- test_timestamp (pc_clock cf) now (timestamp parts) ttl BigEndian ;;
    _ <- in_allowed_ranges parts mb_allowed cpu_allowed cores_allowed ;;
    _ <- validate_settings (mb parts) (cpu parts) (cores parts) (zlen (tag parts)) DEFAULT_SCHEMA_SALT_SIZE ;;
    Ok parts
  with
  | Err e => (Err e, [])
  | Ok parts =>
    let '(r, ss) := new pepper passphrase (salt parts) (timestamp parts ++ aad) (mb parts) (cpu parts) (cores parts) (zlen (tag parts)) in
    (untrusted <- r ;;
     if bytes_eqb untrusted (tag parts) then Ok tt else Err InvalidPassphrase, ss)
  end.
End Config.
