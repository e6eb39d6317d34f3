(** * Passcrypt: specification

    The format and the limits as documented in interface.py 165-185 and
    config.py, and the schedule of memory accesses of interface.py 97-163. *)
From Verif Require Import Base CanonModel ClockModel PasscryptModel.
Local Open Scope Z_scope.

(** A configuration whose header fields hold its limits. *)
Record sound_config (cf : config) : Prop := {
  sc_mb : 1 <= MIN_MB cf /\ MAX_MB cf <= 256 ^ Z.of_N (MB_BYTES cf) /\ MAX_MB cf <= 2 ^ 30;
  sc_cpu : 1 <= MIN_CPU cf /\ MAX_CPU cf <= 256 ^ Z.of_N (CPU_BYTES cf) /\ MAX_CPU cf <= 4096;
  sc_cores : 1 <= MIN_CORES cf /\ MAX_CORES cf <= 256 ^ Z.of_N (CORES_BYTES cf) /\ MAX_CORES cf <= 2 ^ 30;
  sc_salt : 1 <= MIN_SALT_SIZE cf /\ MAX_SALT_SIZE cf <= 256 ^ Z.of_N (SALT_SIZE_BYTES cf) /\ 256 ^ Z.of_N (SALT_SIZE_BYTES cf) < 2 ^ 63;
  sc_tag : 1 <= MIN_TAG_SIZE cf;
  sc_widths : (TIMESTAMP_BYTES cf < 2 ^ 63 /\ MB_BYTES cf < 2 ^ 63 /\ CPU_BYTES cf < 2 ^ 63 /\ CORES_BYTES cf < 2 ^ 63 /\ SALT_SIZE_BYTES cf < 2 ^ 63)%N;
  sc_ratio : 1 <= CPU_TO_DIGEST_PAIRS_PER_ROW_RATIO cf;
}.

(** The documented limits. *)
Definition in_limits (cf : config) (mb cpu cores tag_size salt_size : Z) : Prop :=
  MIN_MB cf <= mb <= MAX_MB cf /\ MIN_CPU cf <= cpu <= MAX_CPU cf /\ MIN_CORES cf <= cores <= MAX_CORES cf /\
  MIN_TAG_SIZE cf <= tag_size /\ MIN_SALT_SIZE cf <= salt_size <= MAX_SALT_SIZE cf.

(** The documented format: a field of [w] bytes holding the number [n]. *)
Definition field (w : N) (n : Z) (x : bytes) : Prop := blen x = w /\ Z.of_N (be_int x) = n.
Definition format (cf : config) (h : phash) (x : bytes) : Prop :=
  exists m c co sz, x = timestamp h ++ m ++ c ++ co ++ sz ++ salt h ++ tag h /\ blen (timestamp h) = TIMESTAMP_BYTES cf /\
    field (MB_BYTES cf) (mb h - 1) m /\ field (CPU_BYTES cf) (cpu h - 1) c /\ field (CORES_BYTES cf) (cores h - 1) co /\
    field (SALT_SIZE_BYTES cf) (zlen (salt h) - 1) sz.

(** Membership in a Python range. *)
Definition member (n : Z) (r : range) : Prop :=
  exists k, n = r_start r + k * r_step r /\ 0 <= k /\ (if 0 <? r_step r then n < r_stop r else r_stop r < n).

(** An extendable-output function returns as many bytes as it is asked for. *)
Definition xof (h : hasher) : Prop := h_is_xof h = true /\ forall x n, blen (h_digest h x n) = n.

(** An access that falls inside a memory of the given size and leaves the size as
    it is. *)
Definition inside (total : Z) (a : access) : Prop :=
  match a with
  | Read lo hi => 0 <= lo <= hi /\ hi <= total
  | Write lo hi size => 0 <= lo /\ hi = lo + size /\ hi <= total
  end.

(** The schedule: a grid of [n] rows of [2 * rounds] cells of 168 bytes.  At
    column pair [c] and row [r] the row is hashed and its cell [2 * c] overwritten,
    then the row mirrored across the memory is hashed and its cell [2 * c + 1]
    overwritten. *)
Definition turn (rounds n c r : Z) : list access :=
  let row i := i * (336 * rounds) in
  let cell i j := row i + 168 * j in
  let mirror := n - 1 - r in
  [ Read (row r) (row (r + 1)); Write (cell r (2 * c)) (cell r (2 * c) + 168) 168;
    Read (row mirror) (row (mirror + 1)); Write (cell mirror (2 * c + 1)) (cell mirror (2 * c + 1) + 168) 168 ].
(** As the code does it: on the first row the mirrored row is read as empty. *)
Definition turn' (rounds n c r : Z) : list access :=
  if r =? 0 then
    match turn rounds n c r with
    | [a; b; Read lo _; d] => [a; b; Read lo lo; d]
    | l => l
    end
  else turn rounds n c r.
Definition upto (n : Z) : list Z := map Z.of_nat (seq 0 (Z.to_nat n)).
Definition schedule (turn : Z -> Z -> Z -> Z -> list access) (rounds n : Z) : list access :=
  flat_map (fun c => flat_map (turn rounds n c) (upto n)) (upto rounds).
Definition writes (l : list access) : list Z := flat_map (fun a => match a with Write lo _ _ => [lo] | _ => [] end) l.

(** The queries to the hash function that decide the outcome of [new]: for each
    worker what is absorbed when its parameters are hashed and when its result is
    taken, and what is absorbed when the tag is taken. *)
Definition parameters_absorbed (cf : config) (domain : bytes) (h : hasher) (s : session) : result bytes :=
  l <- session_parameters cf domain s ;;
  hash_bytes_absorbed h l (PASSCRYPT_PAD cf) (Some 336%N) (Some (s_passphrase s ++ s_salt s ++ s_aad s)).
Definition worker_queries (cf : config) (domain kdf_salt : bytes) (h : hasher) (s : session) : list (bytes * N) :=
  match parameters_absorbed cf domain h s, passcrypt cf domain kdf_salt h s with
  | Ok a, Ok (_, st) => [(a, 336%N); (absorbed st, 168%N)]
  | _, _ => []
  end.
Definition tag_queries (cf : config) (domain kdf_salt : bytes) (h : hasher) (tag_size : Z) (ss : list session) : list (bytes * N) :=
  match mapM (fun s => x <- passcrypt cf domain kdf_salt h s ;; Ok (fst x)) ss with
  | Ok ((first :: _) as results) =>
    match hash_bytes_absorbed h results [x00] (Some (Z.to_N tag_size)) (Some first) with
    | Ok a => [(a, Z.to_N tag_size)]
    | Err _ => []
    end
  | _ => []
  end.
Definition queries (cf : config) (domain kdf_salt : bytes) (h : hasher) (tag_size : Z) (ss : list session) : list (bytes * N) :=
  flat_map (worker_queries cf domain kdf_salt h) ss ++ tag_queries cf domain kdf_salt h tag_size ss.
(** Two queries for as many bytes, one from each list, with different inputs and
    one output. *)
Definition collision (h : hasher) (l1 l2 : list (bytes * N)) : Prop :=
  exists a b n, In (a, n) l1 /\ In (b, n) l2 /\ a <> b /\ h_digest h a n = h_digest h b n.

(** The number of bytes of memory a list of workers fills. *)
Definition memory (cf : config) (ss : list session) : Z := fold_right Z.add 0 (map (total_size cf) ss).

(** The length of the key of the first worker: the passphrase, the salt, and the
    packed pepper, associated data (here with the timestamp), worker and cost. *)
Definition key_size (pepper passphrase salt aad : bytes) : N :=
  (blen passphrase + blen salt + (82 + blen pepper + blen aad))%N.
(** The number of blocks a key of that length is padded to. *)
Definition blocks (h : hasher) (size : N) : N := ((size + 17 + h_block_size h - 1) / h_block_size h)%N.

(** Inputs with keys of one number of blocks, or with salts of one length and peppers
    and associated data of one length together, and passphrases of any lengths. *)
Definition comparable_inputs (h : hasher) (pepper1 passphrase1 salt1 aad1 pepper2 passphrase2 salt2 aad2 : bytes) : Prop :=
  blocks h (key_size pepper1 passphrase1 salt1 aad1) = blocks h (key_size pepper2 passphrase2 salt2 aad2) \/
  (blen salt1 = blen salt2 /\ blen pepper1 + blen aad1 = blen pepper2 + blen aad2)%N.

(** A session with settings in the documented limits. *)
Definition valid_session (cf : config) (s : session) : Prop :=
  in_limits cf (s_mb s) (s_cpu s) (s_cores s) (s_tag_size s) (zlen (s_salt s)).

(** A final scan: 84 bytes are inserted, the whole memory is hashed. *)
Definition scan_accesses (total i : Z) : list access := [Write (168 * i) (168 * i + 84) 84; Read 0 total].
Definition is_read (a : access) : Prop := match a with Read _ _ => True | Write _ _ _ => False end.
(** How many bytes are read in all. *)
Definition bytes_read (l : list access) : Z :=
  fold_right (fun a n => match a with Read lo hi => hi - lo + n | Write _ _ _ => n end) 0 l.

(** A lifetime in seconds, in the units of the clock (see C49_lifetime), and the
    hashes young enough. *)
Definition lifetime (cf : config) (seconds : Z) : Z := if seconds =? 0 then 0 else floor_mul seconds (S_TO_TIME_UNIT_RATIO cf).
Definition fresh_enough (cf : config) (now : Z) (timestamp : bytes) (ttl : option Z) : Prop :=
  match ttl with
  | None => True
  | Some t => clock_time (pc_clock cf) now - Z.of_N (be_int timestamp) <= lifetime cf t
  end.
