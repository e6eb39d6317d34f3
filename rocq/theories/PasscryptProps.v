(** * Passcrypt: properties C48 to C51, C62 and C63 *)
From Coq Require Import Lia Permutation.
From Verif Require Import Base BaseFacts CanonModel CanonSpec CanonProofs ClockModel ClockProofs PasscryptModel PasscryptSpec PasscryptProofs PasscryptConfusion.
Local Open Scope Z_scope.

(** The configuration of the package. *)
Lemma spec_sound metadata : sound_config (passcrypt_spec metadata).
Proof. constructor; cbn; lia. Qed.

(** ** C48: the format of hashes *)
Theorem C48_export_then_import : forall cf h, sound_config cf ->
  in_limits cf (mb h) (cpu h) (cores h) (zlen (tag h)) (zlen (salt h)) -> blen (timestamp h) = TIMESTAMP_BYTES cf ->
  exists x, export_hash cf h = Ok x /\ format cf h x /\ import_hash cf x = Ok h.
Proof.
  intros cf h sc L T. pose proof (limits_salt cf sc h L) as NE.
  pose proof (sc_mb _ sc). pose proof (sc_cpu _ sc). pose proof (sc_cores _ sc). pose proof (sc_salt _ sc). pose proof L as (L1 & L2 & L3 & L4 & L5).
  destruct (z_to_bytes_field (MB_BYTES cf) (mb h - 1)) as (m & _ & M); [lia|]. destruct (z_to_bytes_field (CPU_BYTES cf) (cpu h - 1)) as (c & _ & C); [lia|].
  destruct (z_to_bytes_field (CORES_BYTES cf) (cores h - 1)) as (co & _ & CO); [lia|]. destruct (z_to_bytes_field (SALT_SIZE_BYTES cf) (zlen (salt h) - 1)) as (sz & _ & SZ); [lia|].
  assert (format cf h (timestamp h ++ m ++ c ++ co ++ sz ++ salt h ++ tag h)) as F by (exists m, c, co, sz; auto 10).
  eexists. split; [apply (proj2 (export_format cf h _ NE) F)|]. split; [exact F|]. now apply import_format.
Qed.
Print Assumptions C48_export_then_import.

Theorem C48_accepted_strings : forall cf x h, sound_config cf -> import_hash cf x = Ok h ->
  export_hash cf h = Ok x /\ format cf h x /\ in_limits cf (mb h) (cpu h) (cores h) (zlen (tag h)) (zlen (salt h)).
Proof.
  intros cf x h sc I. destruct (import_ok cf sc x h I) as (F & L). split; [|auto]. apply (proj2 (export_format cf h x (limits_salt cf sc h L)) F).
Qed.
Print Assumptions C48_accepted_strings.

(** Everything else is refused with a ValueError: settings outside of the limits,
    and in particular every string shorter than the documented minimum. *)
Theorem C48_other_strings : forall cf x, sound_config cf -> (forall h, import_hash cf x <> Ok h) -> import_hash cf x = Err ValueErr.
Proof.
  intros cf x sc N. destruct (import_hash cf x) as [h|e] eqn:I; [now destruct (N h)|]. clear N. unfold import_hash in I.
  pose proof (sc_widths _ sc) as (W1 & W2 & W3 & W4 & W5). pose proof (sc_salt _ sc) as (_ & _ & SB).
  rewrite bio_read_ok in I by exact W1. cbn [bind] in I. rewrite bio_read_ok in I by exact W2. cbn [bind] in I.
  rewrite bio_read_ok in I by exact W3. cbn [bind] in I. rewrite bio_read_ok in I by exact W4. cbn [bind] in I. rewrite bio_read_ok in I by exact W5. cbn [bind] in I.
  match type of I with context [be_int ?a] => match a with take (SALT_SIZE_BYTES cf) ?y => pose proof (be_int_bound a) as B; set (n := be_int a) in *; rewrite blen_take in B end end.
  rewrite bio_read_ok in I.
  2:{ apply N2Z.inj_lt in B. rewrite N2Z.inj_pow in B.
      match type of B with _ < _ ^ Z.of_N ?k => assert (Z.of_N 256 ^ Z.of_N k <= 256 ^ Z.of_N (SALT_SIZE_BYTES cf)) by (apply Z.pow_le_mono_r; lia) end. lia. }
  cbn [bind] in I. unfold make_phash in I. match type of I with bind ?v _ = _ => destruct v as [[]|e'] eqn:V; [discriminate|] end. cbn in I. injection I as <-.
  f_equal. revert V. unfold validate_settings. repeat match goal with |- context [negb ?b] => destruct b eqn:?; cbn [negb] end; congruence.
Qed.
Print Assumptions C48_other_strings.
Theorem C48_outside_limits_refused : forall cf h x, sound_config cf -> format cf h x ->
  ~ in_limits cf (mb h) (cpu h) (cores h) (zlen (tag h)) (zlen (salt h)) -> import_hash cf x = Err ValueErr.
Proof. intros cf h x sc F N. rewrite (import_fields cf sc h x F). unfold make_phash. now rewrite (validate_err _ _ _ _ _ _ N). Qed.
Print Assumptions C48_outside_limits_refused.
Theorem C48_short_strings_refused : forall cf x, sound_config cf ->
  zlen x < Z.of_N (TIMESTAMP_BYTES cf + MB_BYTES cf + CPU_BYTES cf + CORES_BYTES cf + SALT_SIZE_BYTES cf) + MIN_SALT_SIZE cf + MIN_TAG_SIZE cf ->
  import_hash cf x = Err ValueErr.
Proof.
  intros cf x sc L. apply C48_other_strings; [exact sc|]. intros h I. apply (import_ok cf sc) in I as ((m & c & co & sz & -> & T & [M _] & [C _] & [O _] & [S _]) & (_ & _ & _ & TG & SL)).
  rewrite !zlen_app in L. unfold zlen in *. lia.
Qed.
Print Assumptions C48_short_strings_refused.
(** Two different hashes are never written as one string. *)
Theorem C48_format_injective : forall cf h1 h2 x, sound_config cf -> export_hash cf h1 = Ok x -> export_hash cf h2 = Ok x ->
  in_limits cf (mb h1) (cpu h1) (cores h1) (zlen (tag h1)) (zlen (salt h1)) -> blen (timestamp h1) = TIMESTAMP_BYTES cf ->
  in_limits cf (mb h2) (cpu h2) (cores h2) (zlen (tag h2)) (zlen (salt h2)) -> blen (timestamp h2) = TIMESTAMP_BYTES cf -> h1 = h2.
Proof.
  intros cf h1 h2 x sc E1 E2 L1 T1 L2 T2. destruct (C48_export_then_import cf h1 sc L1 T1) as (x1 & X1 & _ & I1). destruct (C48_export_then_import cf h2 sc L2 T2) as (x2 & X2 & _ & I2).
  assert (x1 = x2) by congruence. congruence.
Qed.
Print Assumptions C48_format_injective.

Definition a_hash : phash := {| timestamp := repeat x07 8; mb := 70000; cpu := 256; cores := 1; salt := [x01; x02; x03; x04]; tag := repeat xaa 16 |}.
Example C48_case : in_limits (passcrypt_spec []) (mb a_hash) (cpu a_hash) (cores a_hash) (zlen (tag a_hash)) (zlen (salt a_hash)) /\
  export_hash (passcrypt_spec []) a_hash = Ok (repeat x07 8 ++ [x01; x11; x6f; xff; x00; x03; x01; x02; x03; x04] ++ repeat xaa 16) /\
  (exists h, import_hash (passcrypt_spec []) (repeat x07 8 ++ [x01; x11; x6f; xff; x00; x03; x01; x02; x03; x04] ++ repeat xaa 16) = Ok h) /\
  format (passcrypt_spec []) {| timestamp := repeat x07 8; mb := 1; cpu := 1; cores := 1; salt := [x01]; tag := repeat xaa 16 |} (repeat x07 8 ++ [x00; x00; x00; x00; x00; x00; x01] ++ repeat xaa 16).
Proof.
  split; [unfold in_limits; vm_compute; repeat split; discriminate|]. split; [reflexivity|]. split; [eexists; reflexivity|].
  exists [x00; x00; x00], [x00], [x00], [x00]. repeat split; reflexivity.
Qed.

(** ** C49: the cost of a verification *)

(** A verification starts workers only for a string in the documented format that
    is young enough and has every setting in the caller's range; there are at most
    as many workers as cores, each with the given cpu cost and its share of the
    memory. *)
Theorem C49_checks_before_work : forall cf domain kdf_salt hs pepper x passphrase aad ttl mb_allowed cpu_allowed cores_allowed now r ss,
  sound_config cf -> r_step mb_allowed <> 0 -> r_step cpu_allowed <> 0 -> r_step cores_allowed <> 0 ->
  verify cf domain kdf_salt hs pepper x passphrase aad ttl mb_allowed cpu_allowed cores_allowed now = (r, ss) -> ss <> [] ->
  exists h, format cf h x /\ fresh_enough cf now (timestamp h) ttl /\
    member (mb h) mb_allowed /\ member (cpu h) cpu_allowed /\ member (cores h) cores_allowed /\
    Z.of_nat (length ss) <= cores h /\
    Forall (fun s => valid_session cf s /\ s_cpu s = cpu h /\ s_mb s = (mb h + cores h - 1) / cores h) ss.
Proof.
  intros cf domain kdf_salt hs pepper x passphrase aad ttl ma ca coa now r ss sc Sm Sc So E NE.
  destruct (verify_inv cf _ _ _ _ _ _ _ _ _ _ _ _ _ _ E) as [(h & AD)|(-> & _)]; [|contradiction]. exists h. rewrite (verify_admitted cf _ _ _ _ _ _ _ _ _ _ _ _ _ AD) in E.
  destruct AD as (I & T & R & L). apply (import_ok cf sc) in I as (F & LI). split; [exact F|]. split; [now apply ttl_test|].
  apply allowed_inv in R as (R1 & R2 & R3). apply member_in_range in R1, R2, R3; [|assumption..]. split; [exact R1|]. split; [exact R2|]. split; [exact R3|].
  assert (ss = snd (spawn cf passphrase (salt h) (timestamp h ++ aad) pepper (mb h) (cpu h) (cores h) (zlen (tag h)))) as ES.
  { rewrite <- (new_sessions cf domain kdf_salt hs).
    destruct (new cf domain kdf_salt hs pepper passphrase (salt h) (timestamp h ++ aad) (mb h) (cpu h) (cores h) (zlen (tag h))) as [r' ss']. apply pair_equal_spec in E as [_ <-]. reflexivity. }
  destruct (spawn cf passphrase (salt h) (timestamp h ++ aad) pepper (mb h) (cpu h) (cores h) (zlen (tag h))) as [r' ss'] eqn:SP. cbn [snd] in ES. subst ss'.
  unfold spawn in SP. rewrite range1 in SP. apply spawn_all_ok in SP as (LE & _ & SI). pose proof (sc_cores _ sc). pose proof (sc_mb _ sc). destruct LI as (L1 & L2 & L3 & _).
  split; [rewrite upto_length in LE; lia|]. apply Forall_forall. intros s IS. destruct (SI s IS) as (c & _ & CS). apply (core_session_ok cf) in CS as (V & M & C & _).
  split; [exact V|]. split; [exact C|]. rewrite M. apply core_mb_exact; lia.
Qed.
Print Assumptions C49_checks_before_work.

(** A string with a setting out of range: ResourceWarning, no worker. *)
Theorem C49_out_of_range_refused : forall cf domain kdf_salt hs pepper x passphrase aad ttl mb_allowed cpu_allowed cores_allowed now h,
  sound_config cf -> r_step mb_allowed <> 0 -> r_step cpu_allowed <> 0 -> r_step cores_allowed <> 0 ->
  import_hash cf x = Ok h -> fresh_enough cf now (timestamp h) ttl ->
  ~ (member (mb h) mb_allowed /\ member (cpu h) cpu_allowed /\ member (cores h) cores_allowed) ->
  verify cf domain kdf_salt hs pepper x passphrase aad ttl mb_allowed cpu_allowed cores_allowed now = (Err ResourceLimitErr, []).
Proof.
  intros cf domain kdf_salt hs pepper x passphrase aad ttl ma ca coa now h sc Sm Sc So I FE N. unfold verify. rewrite I. cbn [bind].
  apply ttl_test in FE. unfold ttl_units in FE. rewrite FE. cbn [bind].
  assert (in_allowed_ranges h ma ca coa = Err ResourceLimitErr) as ->; [|reflexivity].
  rewrite <- !member_in_range in N by assumption. unfold in_allowed_ranges.
  destruct (in_range (mb h) ma); [|reflexivity]. destruct (in_range (cpu h) ca); [|reflexivity]. destruct (in_range (cores h) coa); [|reflexivity]. exfalso. apply N. auto.
Qed.
Print Assumptions C49_out_of_range_refused.
(** An expired one: no worker, and an error saying by how much. *)
Theorem C49_expired_refused : forall cf domain kdf_salt hs pepper x passphrase aad ttl mb_allowed cpu_allowed cores_allowed now h,
  import_hash cf x = Ok h -> ~ fresh_enough cf now (timestamp h) (Some ttl) ->
  verify cf domain kdf_salt hs pepper x passphrase aad (Some ttl) mb_allowed cpu_allowed cores_allowed now =
    (Err (TimestampExpired (clock_time (pc_clock cf) now - Z.of_N (be_int (timestamp h)) - lifetime cf ttl)), []).
Proof.
  intros cf domain kdf_salt hs pepper x passphrase aad ttl ma ca coa now h I FE. unfold verify. rewrite I. cbn [bind].
  unfold fresh_enough, lifetime in *. unfold test_timestamp, delta, read_timestamp. destruct (ttl =? 0) eqn:E; cbn [bind];
    match goal with |- context [?a >? ?b] => replace (a >? b) with true by lia end; reflexivity.
Qed.
Print Assumptions C49_expired_refused.
(** The lifetime is the given number of seconds, as long as the product is below
    2^53 units (104 days in nanoseconds); beyond that it is rounded. *)
Theorem C49_lifetime : forall cf t, 0 <= t -> 1 <= S_TO_TIME_UNIT_RATIO cf -> t * S_TO_TIME_UNIT_RATIO cf <= 2 ^ 53 -> lifetime cf t = t * S_TO_TIME_UNIT_RATIO cf.
Proof.
  intros cf t T R B. unfold lifetime, floor_mul. destruct (t =? 0) eqn:E; [lia|]. set (k := S_TO_TIME_UNIT_RATIO cf) in *.
  assert (t <= 2 ^ 53) by nia. assert (forall n, 0 <= n <= 2 ^ 53 -> int_truediv n 1 = n) as X.
  { intros n Hn. unfold int_truediv. replace (n <? 0) with false by lia. rewrite <- (Z.mul_1_r n) at 1. apply int_truediv_exact; lia. }
  rewrite (X t) by lia. apply X. nia.
Qed.
Print Assumptions C49_lifetime.

(** The limits if none are given: less than 512 megabytes, at most 32 for the cpu cost and at most
    8 cores. *)
Theorem C49_default_limits : forall cf n,
  (member n (MB_RESOURCE_SAFETY_RANGE cf) <-> MIN_MB cf <= n <= 511) /\
  (member n (CPU_RESOURCE_SAFETY_RANGE cf) <-> MIN_CPU cf <= n <= 32) /\
  (member n (CORES_RESOURCE_SAFETY_RANGE cf) <-> MIN_CORES cf <= n <= 8).
Proof.
  intros cf n. unfold member. cbn [r_start r_stop r_step MB_RESOURCE_SAFETY_RANGE CPU_RESOURCE_SAFETY_RANGE CORES_RESOURCE_SAFETY_RANGE].
  replace (0 <? 1) with true by reflexivity.
  split; [|split]; (split; [intros (k & E & K & L); lia|]; intros [A B]; eexists (n - _); split; [|split]; [rewrite Z.mul_1_r; symmetry; apply Zplus_minus| |]; lia).
Qed.
Print Assumptions C49_default_limits.

(** The memory the workers of a verification fill: no more than the hash asks for,
    rounded up to a mebibyte and a row per core; and no less, once all workers are
    started, as they are when it succeeds. *)
Theorem C49_memory_partial : forall cf domain kdf_salt hs pepper x passphrase aad ttl mb_allowed cpu_allowed cores_allowed now r ss h,
  sound_config cf -> r_step mb_allowed <> 0 -> r_step cpu_allowed <> 0 -> r_step cores_allowed <> 0 ->
  verify cf domain kdf_salt hs pepper x passphrase aad ttl mb_allowed cpu_allowed cores_allowed now = (r, ss) -> import_hash cf x = Ok h ->
  memory cf ss <= 2 ^ 20 * (mb h + cores h - 1) + cores h * (336 * Z.max 1 (cpu h / CPU_TO_DIGEST_PAIRS_PER_ROW_RATIO cf)) /\
  (Z.of_nat (length ss) = cores h -> 2 ^ 20 * mb h <= memory cf ss) /\
  (r = Ok tt -> Z.of_nat (length ss) = cores h).
Proof.
  intros cf domain kdf_salt hs pepper x passphrase aad ttl ma ca coa now r ss h sc Sm Sc So E I.
  pose proof (C49_checks_before_work cf domain kdf_salt hs pepper x passphrase aad ttl ma ca coa now r ss sc Sm Sc So E) as W.
  destruct (import_ok cf sc x h I) as (F & L1 & L2 & L3 & _). pose proof (sc_cores _ sc). pose proof (sc_mb _ sc). pose proof (sc_cpu _ sc).
  set (R := Z.max 1 (cpu h / CPU_TO_DIGEST_PAIRS_PER_ROW_RATIO cf)). assert (1 <= R) by (unfold R; lia).
  pose proof (ceil_bounds (mb h) (cores h) ltac:(lia)) as CB. set (q := (mb h + cores h - 1) / cores h) in *.
  assert (0 <= q) by (apply Z.div_pos; lia).
  assert (Z.of_nat (length ss) <= cores h /\ Forall (fun s => valid_session cf s /\ s_mb s = q /\ s_cpu s = cpu h) ss) as (LN & FA).
  { destruct ss as [|s0 ss]; [split; [cbn; lia|constructor]|]. destruct W as (h' & F' & _ & _ & _ & _ & LE & FA); [discriminate|].
    assert (h' = h) as ->. { pose proof (import_fields cf sc h' x F') as I'. rewrite I in I'. unfold make_phash in I'. apply eq_sym, bind_ok in I' as (u & _ & I'). apply Ok_inj in I'. destruct h'; cbn in I'; congruence. }
    split; [exact LE|]. eapply Forall_impl; [|exact FA]. intros s (A & B & C). auto. }
  pose proof (memory_bounds cf sc q (cpu h) ss FA) as MB. fold R in MB. change B_TO_MB_RATIO with (2 ^ 20) in MB. clearbody q R.
  set (n := Z.of_nat (length ss)) in *. assert (0 <= n) by (unfold n; lia). split; [|split].
  - assert (n * (2 ^ 20 * q + 336 * R) <= cores h * (2 ^ 20 * q + 336 * R)) by (apply Z.mul_le_mono_nonneg_r; lia). lia.
  - intros EN. rewrite EN in MB. lia.
  - intros ->. destruct (verify_inv cf _ _ _ _ _ _ _ _ _ _ _ _ _ _ E) as [(h' & AD)|(_ & e & C)]; [|discriminate C].
    rewrite (verify_admitted cf _ _ _ _ _ _ _ _ _ _ _ _ _ AD) in E. destruct AD as (I' & _). assert (h' = h) as -> by congruence.
    destruct (new cf domain kdf_salt hs pepper passphrase (salt h) (timestamp h ++ aad) (mb h) (cpu h) (cores h) (zlen (tag h))) as [r' ss'] eqn:N.
    apply pair_equal_spec in E as [E <-]. apply bind_ok in E as (t & -> & _). apply new_ok in N as (F2 & _). apply Forall2_len in F2. rewrite upto_length in F2. unfold n. lia.
Qed.
Print Assumptions C49_memory_partial.

(** The range for the memory does not bound it by itself: with the default ranges a
    hash that asks for one mebibyte on eight cores makes every verification fill
    eight.  For every hash function and passphrase. *)
Definition cheap_hash : bytes := repeat x00 8 ++ [x00; x00; x00; x00; x07; x03; x01; x02; x03; x04] ++ repeat x00 16.
Theorem C49_memory_within_mb_refuted : forall metadata domain kdf_salt hs passphrase now,
  let cf := passcrypt_spec metadata in
  xof hs -> (0 < h_block_size hs < 2 ^ 56)%N -> (blen domain < 2 ^ 60)%N -> (blen metadata < 2 ^ 60)%N -> 12 <= zlen passphrase < 2 ^ 60 ->
  exists h, import_hash cf cheap_hash = Ok h /\ mb h = 1 /\
    8 * 2 ^ 20 <= memory cf (snd (verify cf domain kdf_salt hs [] cheap_hash passphrase [] None
      (MB_RESOURCE_SAFETY_RANGE cf) (CPU_RESOURCE_SAFETY_RANGE cf) (CORES_RESOURCE_SAFETY_RANGE cf) now)).
Proof.
  intros metadata domain kdf_salt hs passphrase now cf X HB D M P. pose proof (spec_sound metadata) as sc. fold cf in sc.
  set (h := {| timestamp := repeat x00 8; mb := 1; cpu := 1; cores := 8; salt := [x01; x02; x03; x04]; tag := repeat x00 16 |}).
  assert (import_hash cf cheap_hash = Ok h) as I by reflexivity.
  exists h. split; [exact I|]. split; [reflexivity|].
  assert (admitted cf cheap_hash None (MB_RESOURCE_SAFETY_RANGE cf) (CPU_RESOURCE_SAFETY_RANGE cf) (CORES_RESOURCE_SAFETY_RANGE cf) now h) as AD.
  { split; [exact I|]. split; [reflexivity|]. split; [reflexivity|]. unfold in_limits. vm_compute. repeat split; discriminate. }
  rewrite (verify_admitted cf _ _ _ _ _ _ _ _ _ _ _ _ _ AD).
  destruct (new_total cf sc domain kdf_salt hs X HB [] passphrase ltac:(reflexivity) D M ltac:(reflexivity) ltac:(unfold zlen in P; lia) ltac:(cbn; lia)
    (salt h) (timestamp h ++ []) (mb h) (cpu h) (cores h) (zlen (tag h))) as (t & ss & N & _ & LS).
  - reflexivity.
  - unfold in_limits. vm_compute. repeat split; discriminate.
  - vm_compute. discriminate.
  - intros ->. change (zlen []) with 0 in P. lia.
  - reflexivity.
  - rewrite N. cbn [snd]. 
    pose proof (new_ok cf _ _ _ _ _ _ _ _ _ _ _ _ _ N) as (F2 & _).
    assert (Forall (fun s => valid_session cf s /\ s_mb s = 1 /\ s_cpu s = 1) ss) as FA.
    { clear - F2. induction F2 as [|c s l ss C _ IH]; constructor; [|exact IH]. apply (core_session_ok cf) in C as (V & A & B & _). rewrite A, B. auto. }
    pose proof (memory_bounds cf sc 1 1 ss FA) as MB. rewrite LS in MB. change (cores h) with 8 in MB. unfold B_TO_MB_RATIO in MB. lia.
Qed.
Print Assumptions C49_memory_within_mb_refuted.

(** A case for the theorems above: within its limits. *)
Example C49_case : let cf := passcrypt_spec [] in forall h, import_hash cf cheap_hash = Ok h ->
  fresh_enough cf (EPOCH_NS + 1000) (timestamp h) (Some 60) /\ ~ fresh_enough cf (EPOCH_NS + 2 ^ 40) (timestamp h) (Some 60) /\
  member (cores h) (CORES_RESOURCE_SAFETY_RANGE cf) /\ ~ member (cores h) {| r_start := 1; r_stop := 8; r_step := 2 |}.
Proof.
  intros cf h I. assert (h = {| timestamp := repeat x00 8; mb := 1; cpu := 1; cores := 8; salt := [x01; x02; x03; x04]; tag := repeat x00 16 |}) as -> by (vm_compute in I; injection I as <-; reflexivity).
  split; [vm_compute; discriminate|]. split; [vm_compute; intros N; apply N; reflexivity|]. split.
  - exists 7. vm_compute. repeat split; discriminate.
  - intros (k & E & K & L). cbn in *. lia.
Qed.

(** ** C50: verification of passphrases *)

(** Hashing succeeds on all valid inputs. *)
Theorem C50_hash_is_made : forall cf domain kdf_salt hs pepper passphrase aad mb cpu cores tag_size now fresh,
  sound_config cf -> xof hs -> (0 < h_block_size hs < 2 ^ 56)%N -> length (PASSCRYPT_PAD cf) = 1%nat ->
  (blen domain < 2 ^ 60)%N -> (blen (PACKED_METADATA cf) < 2 ^ 60)%N -> (TIMESTAMP_BYTES cf < 2 ^ 60)%N ->
  (blen pepper < 2 ^ 60)%N -> (blen passphrase < 2 ^ 60)%N -> (blen aad < 2 ^ 60)%N ->
  Z.max 1 (MIN_PASSPHRASE_BYTES cf) <= zlen passphrase -> in_limits cf mb cpu cores tag_size (zlen fresh) -> tag_size < 2 ^ 63 ->
  MIN_MB cf <= (mb + cores - 1) / cores -> 0 <= clock_time (pc_clock cf) now < 256 ^ Z.of_N (TIMESTAMP_BYTES cf) ->
  exists x, hash_passphrase cf domain kdf_salt hs pepper passphrase aad mb cpu cores tag_size (zlen fresh) now fresh = Ok x.
Proof.
  intros cf domain kdf_salt hs pepper passphrase aad mb cpu cores tag_size now fresh sc X HB P1 D M TB PB PPB AB PL L TS MM CT.
  unfold hash_passphrase. pose proof (proj2 (validate_ok _ _ _ _ _ _) L) as V. rewrite V. cbn [bind].
  unfold make_timestamp. destruct (z_to_bytes_field (TIMESTAMP_BYTES cf) (clock_time (pc_clock cf) now) CT) as (ts & -> & TL & _). cbn [bind].
  pose proof (sc_mb _ sc). pose proof (sc_cores _ sc). pose proof L as (L1 & L2 & L3 & L4 & L5).
  destruct (new_total cf sc domain kdf_salt hs X HB pepper passphrase P1 D M PB PPB ltac:(lia) fresh (ts ++ aad) mb cpu cores tag_size) as (t & ss & -> & TZ & _).
  - rewrite blen_app. lia.
  - exact L.
  - rewrite core_mb_exact by lia. exact MM.
  - intros ->. change (zlen []) with 0 in PL. lia.
  - exact TS.
  - cbn [fst bind]. unfold make_phash. rewrite TZ, V. cbn [bind].
    match goal with |- exists x, export_hash cf ?h = _ => destruct (C48_export_then_import cf h sc) as (x & E & _) end; [cbn; now rewrite TZ|exact TL|]. exists x. exact E.
Qed.
Print Assumptions C50_hash_is_made.

(** What hashing returns, and what verifying it recomputes. *)
Lemma hash_passphrase_inv cf domain kdf_salt hs pepper passphrase aad mb0 cpu0 cores0 tag_size salt_size now fresh x :
  sound_config cf -> xof hs ->
  hash_passphrase cf domain kdf_salt hs pepper passphrase aad mb0 cpu0 cores0 tag_size salt_size now fresh = Ok x ->
  exists ts t ss, make_timestamp (pc_clock cf) now (TIMESTAMP_BYTES cf) BigEndian = Ok ts /\
    new cf domain kdf_salt hs pepper passphrase fresh (ts ++ aad) mb0 cpu0 cores0 tag_size = (Ok t, ss) /\ zlen t = tag_size /\
    in_limits cf mb0 cpu0 cores0 tag_size salt_size /\
    import_hash cf x = Ok {| timestamp := ts; mb := mb0; cpu := cpu0; cores := cores0; salt := fresh; tag := t |}.
Proof.
  intros sc X E. unfold hash_passphrase in E. apply bind_ok in E as ([] & V & E). apply validate_ok in V. apply bind_ok in E as (ts & T & E). apply bind_ok in E as (t & N & E). apply bind_ok in E as (h & MP & E).
  destruct (new cf domain kdf_salt hs pepper passphrase fresh (ts ++ aad) mb0 cpu0 cores0 tag_size) as [r ss] eqn:NW. cbn [fst] in N. subst r.
  exists ts, t, ss. split; [exact T|]. split; [exact NW|]. unfold make_phash in MP. apply bind_ok in MP as ([] & V2 & MP). apply Ok_inj in MP. subst h. apply validate_ok in V2.
  pose proof NW as NO. apply new_ok in NO as (_ & rs & first & _ & _ & HBY). pose proof (sc_tag _ sc). 
  apply (hash_bytes_query hs X) in HBY as (a & _ & TE); [|destruct V as (_ & _ & _ & TG & _); lia].
  split; [subst t; unfold zlen; rewrite (proj2 X); destruct V as (_ & _ & _ & TG & _); lia|]. split; [exact V|].
  unfold make_timestamp in T. apply z_to_bytes_len in T.
  match type of E with export_hash cf ?h = _ => destruct (C48_export_then_import cf h sc V2 T) as (x' & E' & _ & I) end. congruence.
Qed.

(** The hash of a passphrase verifies with that passphrase, pepper and associated
    data, whenever it is young enough and its settings are allowed. *)
Theorem C50_same_inputs_verify : forall cf domain kdf_salt hs pepper passphrase aad mb cpu cores tag_size salt_size t0 fresh x ttl mb_allowed cpu_allowed cores_allowed t1,
  sound_config cf -> xof hs -> MIN_SALT_SIZE cf <= 8 <= MAX_SALT_SIZE cf ->
  hash_passphrase cf domain kdf_salt hs pepper passphrase aad mb cpu cores tag_size salt_size t0 fresh = Ok x ->
  r_step mb_allowed <> 0 -> r_step cpu_allowed <> 0 -> r_step cores_allowed <> 0 ->
  member mb mb_allowed -> member cpu cpu_allowed -> member cores cores_allowed ->
  match ttl with None => True | Some t => clock_time (pc_clock cf) t1 - clock_time (pc_clock cf) t0 <= lifetime cf t end ->
  fst (verify cf domain kdf_salt hs pepper x passphrase aad ttl mb_allowed cpu_allowed cores_allowed t1) = Ok tt.
Proof.
  intros cf domain kdf_salt hs pepper passphrase aad mb0 cpu0 cores0 tag_size salt_size t0 fresh x ttl ma ca coa t1 sc X DS E Sm Sc So Mm Mc Mo TT.
  destruct (hash_passphrase_inv _ _ _ _ _ _ _ _ _ _ _ _ _ _ _ sc X E) as (ts & t & ss & T & N & TL & V & I).
  assert (admitted cf x ttl ma ca coa t1 {| timestamp := ts; mb := mb0; cpu := cpu0; cores := cores0; salt := fresh; tag := t |}) as AD.
  { split; [exact I|]. split; [apply ttl_test|split].
    - unfold fresh_enough. cbn [timestamp]. destruct ttl; [|exact TT]. unfold make_timestamp in T.
      assert (Z.of_N (be_int ts) = clock_time (pc_clock cf) t0) as ->; [|exact TT]. apply z_to_bytes_ok in T as (A & _). exact A.
    - apply allowed_inv. cbn [mb cpu cores]. rewrite !member_in_range by assumption. auto.
    - cbn [mb cpu cores tag]. rewrite TL. destruct V as (V1 & V2 & V3 & V4 & V5). unfold in_limits, DEFAULT_SCHEMA_SALT_SIZE. auto 10. }
  rewrite (verify_admitted cf _ _ _ _ _ _ _ _ _ _ _ _ _ AD). cbn [mb cpu cores tag salt timestamp]. rewrite TL, N. cbn [fst bind]. now rewrite bytes_eqb_refl.
Qed.
Print Assumptions C50_same_inputs_verify.

(** Conversely it succeeds only if the tag recomputed equals the one stored. *)
Theorem C50_success_means_same_tag : forall cf domain kdf_salt hs pepper x passphrase aad ttl mb_allowed cpu_allowed cores_allowed now,
  sound_config cf ->
  fst (verify cf domain kdf_salt hs pepper x passphrase aad ttl mb_allowed cpu_allowed cores_allowed now) = Ok tt ->
  exists h, format cf h x /\ fst (new cf domain kdf_salt hs pepper passphrase (salt h) (timestamp h ++ aad) (mb h) (cpu h) (cores h) (zlen (tag h))) = Ok (tag h).
Proof.
  intros cf domain kdf_salt hs pepper x passphrase aad ttl ma ca coa now sc E.
  destruct (verify cf domain kdf_salt hs pepper x passphrase aad ttl ma ca coa now) as [r ss] eqn:VE. cbn [fst] in E. subst r.
  destruct (verify_inv cf _ _ _ _ _ _ _ _ _ _ _ _ _ _ VE) as [(h & AD)|(_ & e & C)]; [|discriminate C]. exists h.
  rewrite (verify_admitted cf _ _ _ _ _ _ _ _ _ _ _ _ _ AD) in VE. destruct AD as (I & _). apply (import_ok cf sc) in I as (F & _). split; [exact F|].
  destruct (new cf domain kdf_salt hs pepper passphrase (salt h) (timestamp h ++ aad) (mb h) (cpu h) (cores h) (zlen (tag h))) as [r ss'].
  apply pair_equal_spec in VE as [VE _]. apply bind_ok in VE as (t & -> & VE). destruct (bytes_eqb t (tag h)) eqn:Q; [|discriminate]. apply bytes_eqb_eq in Q. now subst t.
Qed.
Print Assumptions C50_success_means_same_tag.

(** So a string that verifies does not verify with any other tag of that length. *)
Theorem C50_other_tag_refused : forall cf domain kdf_salt hs pepper x y passphrase aad ttl mb_allowed cpu_allowed cores_allowed now h tag',
  sound_config cf ->
  fst (verify cf domain kdf_salt hs pepper x passphrase aad ttl mb_allowed cpu_allowed cores_allowed now) = Ok tt ->
  import_hash cf x = Ok h -> blen tag' = blen (tag h) -> tag' <> tag h ->
  format cf {| timestamp := timestamp h; mb := mb h; cpu := cpu h; cores := cores h; salt := salt h; tag := tag' |} y ->
  fst (verify cf domain kdf_salt hs pepper y passphrase aad ttl mb_allowed cpu_allowed cores_allowed now) = Err InvalidPassphrase.
Proof.
  intros cf domain kdf_salt hs pepper x y passphrase aad ttl ma ca coa now h tag' sc E I TL TN F.
  destruct (verify cf domain kdf_salt hs pepper x passphrase aad ttl ma ca coa now) as [r ss] eqn:VE. cbn [fst] in E. subst r.
  destruct (verify_inv cf _ _ _ _ _ _ _ _ _ _ _ _ _ _ VE) as [(h' & AD)|(_ & e & C)]; [|discriminate C]. assert (h' = h) as -> by (destruct AD as (I' & _); congruence).
  pose proof (verify_admitted cf domain kdf_salt hs pepper x passphrase aad _ _ _ _ _ _ AD) as VA. rewrite VE in VA.
  destruct AD as (_ & A1 & A2 & A3). set (h2 := {| timestamp := timestamp h; mb := mb h; cpu := cpu h; cores := cores h; salt := salt h; tag := tag' |}) in *.
  assert (zlen tag' = zlen (tag h)) as ZL by (unfold zlen; congruence).
  assert (admitted cf y ttl ma ca coa now h2) as AD2.
  { split; [|split; [exact A1|split; [exact A2|]]].
    - apply import_format; [exact sc|exact F|]. cbn. rewrite ZL. apply (import_ok cf sc x h I).
    - cbn [h2 mb cpu cores tag]. now rewrite ZL. }
  rewrite (verify_admitted cf _ _ _ _ _ _ _ _ _ _ _ _ _ AD2). cbn [h2 mb cpu cores tag salt timestamp]. rewrite ZL.
  destruct (new cf domain kdf_salt hs pepper passphrase (salt h) (timestamp h ++ aad) (mb h) (cpu h) (cores h) (zlen (tag h))) as [r ss'].
  apply pair_equal_spec in VA as [VA _]. apply eq_sym, bind_ok in VA as (t & -> & VA). destruct (bytes_eqb t (tag h)) eqn:Q; [|discriminate]. apply bytes_eqb_eq in Q. subst t.
  cbn [fst bind]. destruct (bytes_eqb (tag h) tag') eqn:Q2; [|reflexivity]. apply bytes_eqb_eq in Q2. congruence.
Qed.
Print Assumptions C50_other_tag_refused.

(** Verifying with another passphrase, pepper or associated data succeeds only by a
    collision between two of the queries the two computations make: for passphrases of
    any lengths when peppers and associated data have one length.  Missing for the full
    claim: peppers and associated data of other lengths such that the key takes up a
    different number of blocks of the hash function (168 bytes); for them it is false,
    see C50_other_lengths_refuted. *)
Theorem C50_other_inputs_collide_partial : forall cf domain kdf_salt hs pepper passphrase aad mb cpu cores tag_size salt_size t0 fresh x
    pepper' passphrase' aad' ttl mb_allowed cpu_allowed cores_allowed t1 ss',
  sound_config cf -> xof hs -> (h_block_size hs < 2 ^ 56)%N ->
  hash_passphrase cf domain kdf_salt hs pepper passphrase aad mb cpu cores tag_size salt_size t0 fresh = Ok x ->
  verify cf domain kdf_salt hs pepper' x passphrase' aad' ttl mb_allowed cpu_allowed cores_allowed t1 = (Ok tt, ss') ->
  blocks hs (key_size pepper passphrase fresh aad + TIMESTAMP_BYTES cf) = blocks hs (key_size pepper' passphrase' fresh aad' + TIMESTAMP_BYTES cf) \/
  (blen pepper + blen aad = blen pepper' + blen aad')%N ->
  (pepper = pepper' /\ passphrase = passphrase' /\ aad = aad') \/
  exists ts, make_timestamp (pc_clock cf) t0 (TIMESTAMP_BYTES cf) BigEndian = Ok ts /\
    collision hs (queries cf domain kdf_salt hs tag_size (snd (spawn cf passphrase fresh (ts ++ aad) pepper mb cpu cores tag_size)))
                 (queries cf domain kdf_salt hs tag_size ss').
Proof.
  intros cf domain kdf_salt hs pepper passphrase aad mb0 cpu0 cores0 tag_size salt_size t0 fresh x pepper' passphrase' aad' ttl ma ca coa t1 ss' sc X HB E VE BL.
  destruct (hash_passphrase_inv _ _ _ _ _ _ _ _ _ _ _ _ _ _ _ sc X E) as (ts & t & ss & T & N & TL & V & I).
  destruct (verify_inv cf _ _ _ _ _ _ _ _ _ _ _ _ _ _ VE) as [(h' & AD)|(_ & e & C)]; [|discriminate C].
  rewrite (verify_admitted cf _ _ _ _ _ _ _ _ _ _ _ _ _ AD) in VE. destruct AD as (I' & _). rewrite I in I'. apply Ok_inj in I'. subst h'. cbn [mb cpu cores tag salt timestamp] in VE.
  destruct (new cf domain kdf_salt hs pepper' passphrase' fresh (ts ++ aad') mb0 cpu0 cores0 (zlen t)) as [r ss2] eqn:N'. rewrite TL in N'.
  apply pair_equal_spec in VE as [VE <-]. apply bind_ok in VE as (t' & -> & VE). destruct (bytes_eqb t' t) eqn:Q; [|discriminate]. apply bytes_eqb_eq in Q. subst t'.
  assert (ss = snd (spawn cf passphrase fresh (ts ++ aad) pepper mb0 cpu0 cores0 tag_size)) as ES by (rewrite <- (new_sessions cf domain kdf_salt hs), N; reflexivity).
  pose proof T as TSL. unfold make_timestamp in TSL. apply z_to_bytes_len in TSL.
  destruct (tag_bound cf sc domain kdf_salt hs X HB _ _ _ _ _ _ _ _ _ _ _ _ _ _ _ _ _ _ N N') as [C|(E0 & _)].
  - destruct BL as [BL|BL]; [left|right].
    + unfold key_size in *. rewrite !blen_app, TSL.
      replace (blen passphrase + blen fresh + (82 + blen pepper + (TIMESTAMP_BYTES cf + blen aad)))%N with (blen passphrase + blen fresh + (82 + blen pepper + blen aad) + TIMESTAMP_BYTES cf)%N by lia.
      replace (blen passphrase' + blen fresh + (82 + blen pepper' + (TIMESTAMP_BYTES cf + blen aad')))%N with (blen passphrase' + blen fresh + (82 + blen pepper' + blen aad') + TIMESTAMP_BYTES cf)%N by lia.
      exact BL.
    + split; [reflexivity|]. rewrite !blen_app. lia.
  - right. exists ts. split; [exact T|]. rewrite <- ES. exact C.
  - left. injection E0 as E1 E2 E3. apply app_inv_head in E3. auto.
Qed.
Print Assumptions C50_other_inputs_collide_partial.

(** Two computations of one tag have all inputs in common, the salt and the three
    costs too, or two of their queries collide. *)
Theorem C50_tags_bind_all_inputs_partial : forall cf domain kdf_salt hs pepper1 passphrase1 salt1 aad1 mb1 cpu1 cores1
    pepper2 passphrase2 salt2 aad2 mb2 cpu2 cores2 tag_size tag ss1 ss2,
  sound_config cf -> xof hs -> (h_block_size hs < 2 ^ 56)%N ->
  new cf domain kdf_salt hs pepper1 passphrase1 salt1 aad1 mb1 cpu1 cores1 tag_size = (Ok tag, ss1) ->
  new cf domain kdf_salt hs pepper2 passphrase2 salt2 aad2 mb2 cpu2 cores2 tag_size = (Ok tag, ss2) ->
  comparable_inputs hs pepper1 passphrase1 salt1 aad1 pepper2 passphrase2 salt2 aad2 ->
  ((pepper1, passphrase1, salt1, aad1) = (pepper2, passphrase2, salt2, aad2) /\ (mb1, cpu1, cores1) = (mb2, cpu2, cores2)) \/
  collision hs (queries cf domain kdf_salt hs tag_size ss1) (queries cf domain kdf_salt hs tag_size ss2).
Proof.
  intros cf domain kdf_salt hs pepper1 passphrase1 salt1 aad1 mb1 cpu1 cores1 pepper2 passphrase2 salt2 aad2 mb2 cpu2 cores2 tag_size tag ss1 ss2 sc X HB N1 N2 K.
  destruct (tag_bound cf sc domain kdf_salt hs X HB _ _ _ _ _ _ _ _ _ _ _ _ _ _ _ _ _ _ N1 N2 K); auto.
Qed.
Print Assumptions C50_tags_bind_all_inputs_partial.

(** Missing in the two theorems above, and false: peppers and associated data of other
    lengths.  The key of a worker is followed by its length, so a long passphrase can
    contain what a worker with a short one absorbs, up to associated data that contain
    what comes behind the long one.  So on one core, for every passphrase, salt and
    time, there are associated data and another passphrase which make one hash,
    whatever the hash function is. *)
Theorem C50_other_lengths_refuted : forall cf domain kdf_salt hs pepper passphrase mb cpu tag_size now fresh,
  sound_config cf -> xof hs -> (0 < h_block_size hs < 2 ^ 56)%N -> length (PASSCRYPT_PAD cf) = 1%nat ->
  (blen domain < 2 ^ 56)%N -> (blen (PACKED_METADATA cf) < 2 ^ 56)%N -> (TIMESTAMP_BYTES cf < 2 ^ 56)%N ->
  (blen pepper < 2 ^ 56)%N -> (blen passphrase < 2 ^ 56)%N -> (blen fresh < 2 ^ 56)%N ->
  Z.max 1 (MIN_PASSPHRASE_BYTES cf) <= zlen passphrase -> in_limits cf mb cpu 1 tag_size (zlen fresh) -> tag_size < 2 ^ 63 ->
  0 <= clock_time (pc_clock cf) now < 256 ^ Z.of_N (TIMESTAMP_BYTES cf) ->
  exists passphrase' aad x, passphrase' <> passphrase /\ aad <> [] /\
    hash_passphrase cf domain kdf_salt hs pepper passphrase aad mb cpu 1 tag_size (zlen fresh) now fresh = Ok x /\
    hash_passphrase cf domain kdf_salt hs pepper passphrase' [] mb cpu 1 tag_size (zlen fresh) now fresh = Ok x /\
    forall ttl mb_allowed cpu_allowed cores_allowed later,
      fst (verify cf domain kdf_salt hs pepper x passphrase' [] ttl mb_allowed cpu_allowed cores_allowed later) =
      fst (verify cf domain kdf_salt hs pepper x passphrase aad ttl mb_allowed cpu_allowed cores_allowed later).
Proof.
  intros cf domain kdf_salt hs pepper passphrase mb0 cpu0 tag_size now fresh sc X HB P1 D M TB PB PPB FB PL L TS CT.
  destruct (z_to_bytes_field (TIMESTAMP_BYTES cf) (clock_time (pc_clock cf) now) CT) as (ts & ET & TL & _).
  destruct (new_confused cf sc domain kdf_salt hs X HB pepper passphrase P1 D M PB PPB PL fresh ts mb0 cpu0 tag_size) as (pw' & v & LP & V0 & E & tg & ETG & TZ);
    try assumption; [rewrite TL; exact TB|].
  exists pw', v.
  assert (exists x, hash_passphrase cf domain kdf_salt hs pepper passphrase v mb0 cpu0 1 tag_size (zlen fresh) now fresh = Ok x /\
    import_hash cf x = Ok {| timestamp := ts; mb := mb0; cpu := cpu0; cores := 1; salt := fresh; tag := tg |}) as (x & EX & IM).
  { unfold hash_passphrase. pose proof (proj2 (validate_ok _ _ _ _ _ _) L) as V. rewrite V. cbn [bind].
    unfold make_timestamp. rewrite ET. cbn [bind]. rewrite ETG. cbn [bind]. unfold make_phash. rewrite TZ, V. cbn [bind].
    match goal with |- exists x, export_hash cf ?h = _ /\ _ => destruct (C48_export_then_import cf h sc) as (x & EX & _ & IM) end; [cbn; now rewrite TZ|exact TL|]. eauto. }
  exists x. split; [intros ->; lia|]. split; [exact V0|]. split; [exact EX|]. split.
  { rewrite <- EX. unfold hash_passphrase, make_timestamp. rewrite ET. cbn [bind]. rewrite app_nil_r, <- E. reflexivity. }
  intros ttl ma ca coa later. unfold verify. rewrite IM. cbn [bind].
  match goal with |- fst (match ?m with _ => _ end) = _ => destruct m as [parts|e] eqn:EM end; [|reflexivity].
  apply bind_ok in EM as (_ & _ & EM). apply bind_ok in EM as (_ & _ & EM). apply bind_ok in EM as (_ & _ & EM). apply Ok_inj in EM. subst parts.
  cbn [timestamp mb cpu cores salt tag]. rewrite TZ, app_nil_r.
  destruct (new cf domain kdf_salt hs pepper passphrase fresh (ts ++ v) mb0 cpu0 1 tag_size) as [r1 ss1].
  destruct (new cf domain kdf_salt hs pepper pw' fresh ts mb0 cpu0 1 tag_size) as [r2 ss2]. cbn [fst] in *. subst r2. reflexivity.
Qed.
Print Assumptions C50_other_lengths_refuted.
(** Its hypotheses are met in the configuration of the package. *)
Example C50_confused_case : forall hs metadata domain kdf_salt, xof hs -> h_block_size hs = 168%N ->
  (blen domain < 2 ^ 56)%N -> (blen metadata < 2 ^ 56)%N ->
  exists passphrase' aad x, passphrase' <> repeat x61 12 /\ aad <> [] /\
    hash_passphrase (passcrypt_spec metadata) domain kdf_salt hs [] (repeat x61 12) aad 1 1 1 32 8 (EPOCH_NS + 5) (repeat x01 8) = Ok x /\
    hash_passphrase (passcrypt_spec metadata) domain kdf_salt hs [] passphrase' [] 1 1 1 32 8 (EPOCH_NS + 5) (repeat x01 8) = Ok x.
Proof.
  intros hs metadata domain kdf_salt X HB D M.
  destruct (C50_other_lengths_refuted (passcrypt_spec metadata) domain kdf_salt hs [] (repeat x61 12) 1 1 32 (EPOCH_NS + 5) (repeat x01 8) (spec_sound metadata) X)
    as (pw & aad & x & A & B & E1 & E2 & _); [rewrite HB; lia|reflexivity|exact D|exact M|reflexivity|reflexivity|reflexivity|reflexivity| | |reflexivity| |].
  - vm_compute. discriminate.
  - unfold in_limits. vm_compute. repeat split; discriminate.
  - vm_compute. split; [discriminate|reflexivity].
  - exists pw, aad, x. auto.
Qed.

(** A case for all of these: the configuration of the package, any hash function
    that has the shape of SHAKE-128, and a passphrase of 12 to 20 bytes. *)
Example C50_case : forall hs metadata domain kdf_salt passphrase passphrase', xof hs -> h_block_size hs = 168%N ->
  (blen domain < 2 ^ 60)%N -> (blen metadata < 2 ^ 60)%N -> 12 <= zlen passphrase <= 20 -> 12 <= zlen passphrase' <= 20 ->
  let cf := passcrypt_spec metadata in
  (exists x, hash_passphrase cf domain kdf_salt hs [] passphrase [] 1 1 2 32 8 (EPOCH_NS + 5) (repeat x01 8) = Ok x) /\
  member 1 (MB_RESOURCE_SAFETY_RANGE cf) /\ member 2 (CORES_RESOURCE_SAFETY_RANGE cf) /\
  blocks hs (key_size [] passphrase (repeat x01 8) [] + TIMESTAMP_BYTES cf) = blocks hs (key_size [] passphrase' (repeat x01 8) [] + TIMESTAMP_BYTES cf).
Proof.
  intros hs metadata domain kdf_salt pw pw' X HB D M L L' cf. split; [|split; [|split]].
  - apply (C50_hash_is_made cf domain kdf_salt hs [] pw [] 1 1 2 32 (EPOCH_NS + 5) (repeat x01 8) (spec_sound metadata) X); try assumption; try reflexivity; try (rewrite HB; lia); try (unfold zlen in *; lia).
    + change (MIN_PASSPHRASE_BYTES cf) with 12. lia.
    + unfold in_limits. vm_compute. repeat split; discriminate.
    + vm_compute. first [discriminate|split; [discriminate|reflexivity]].
  - exists 0. vm_compute. repeat split; discriminate.
  - exists 1. vm_compute. repeat split; discriminate.
  - unfold blocks, key_size, zlen in *. rewrite HB. change (blen (repeat x01 8)) with 8%N. change (blen (@nil byte)) with 0%N. change (TIMESTAMP_BYTES cf) with 8%N.
    assert (forall n, (12 <= n <= 20)%N -> ((n + 8 + (82 + 0 + 0) + 8 + 17 + 168 - 1) / 168 = 1)%N) as Q.
    { intros n Hn. symmetry. apply N.div_unique with (n + 8 + (82 + 0 + 0) + 8 + 17 + 168 - 1 - 168)%N; lia. }
    rewrite !Q by lia. reflexivity.
Qed.

(** Two limits of custom configurations.  Verification builds an instance with the
    default salt size of the package: if the configuration does not allow that size,
    no hash ever verifies. *)
Theorem C50_custom_salt_sizes_refuted : forall cf domain kdf_salt hs pepper x passphrase aad ttl mb_allowed cpu_allowed cores_allowed now,
  ~ MIN_SALT_SIZE cf <= 8 <= MAX_SALT_SIZE cf ->
  exists e, verify cf domain kdf_salt hs pepper x passphrase aad ttl mb_allowed cpu_allowed cores_allowed now = (Err e, []).
Proof.
  intros cf domain kdf_salt hs pepper x passphrase aad ttl ma ca coa now N.
  destruct (verify cf domain kdf_salt hs pepper x passphrase aad ttl ma ca coa now) as [r ss] eqn:E.
  destruct (verify_inv cf _ _ _ _ _ _ _ _ _ _ _ _ _ _ E) as [(h & _ & _ & _ & L)|(-> & e & ->)]; [|now exists e].
  destruct L as (_ & _ & _ & _ & L). now destruct N.
Qed.
Print Assumptions C50_custom_salt_sizes_refuted.
(** And if a core's share of the memory is below the least cost allowed, the
    settings are accepted but hashing raises a ValueError. *)
Theorem C50_custom_memory_refuted : forall cf domain kdf_salt hs pepper passphrase aad mb cpu cores tag_size now fresh x,
  sound_config cf -> in_limits cf mb cpu cores tag_size (zlen fresh) -> (mb + cores - 1) / cores < MIN_MB cf ->
  hash_passphrase cf domain kdf_salt hs pepper passphrase aad mb cpu cores tag_size (zlen fresh) now fresh <> Ok x.
Proof.
  intros cf domain kdf_salt hs pepper passphrase aad mb0 cpu0 cores0 tag_size now fresh x sc L M E. unfold hash_passphrase in E.
  apply bind_ok in E as ([] & _ & E). apply bind_ok in E as (ts & _ & E). apply bind_ok in E as (t & N & _).
  destruct (new cf domain kdf_salt hs pepper passphrase fresh (ts ++ aad) mb0 cpu0 cores0 tag_size) as [r ss] eqn:NE. cbn [fst] in N. subst r. apply new_ok in NE as (F & _).
  pose proof (sc_cores _ sc). pose proof (sc_mb _ sc). destruct L as (L1 & L2 & L3 & L4 & L5). destruct (upto_cons cores0 ltac:(lia)) as (l & U). rewrite U in F. destruct ss as [|s ss]; [now inversion F|]. assert (core_session cf passphrase fresh (ts ++ aad) pepper mb0 cpu0 cores0 tag_size 0 = Ok s) as C by now inversion F.
  apply (core_session_ok cf) in C as ((V & _) & MB & _). rewrite MB in V. rewrite core_mb_exact in V by lia. lia.
Qed.
Print Assumptions C50_custom_memory_refuted.

(** ** C51: the memory of a worker *)

(** Every worker started has settings in the documented limits. *)
Theorem C51_sessions_are_valid : forall cf passphrase salt aad mb cpu cores tag_size s,
  make_session cf passphrase salt aad mb cpu cores tag_size = Ok s -> valid_session cf s.
Proof. intros cf passphrase salt aad mb cpu cores tag_size s E. apply make_session_ok in E as (L & ->). exact L. Qed.
Print Assumptions C51_sessions_are_valid.

(** The memory is a grid of rows of 168 byte cells, at least as large as requested
    and less than one row larger. *)
Theorem C51_memory_size : forall cf s, sound_config cf -> valid_session cf s ->
  2 ^ 20 * s_mb s <= total_size cf s < 2 ^ 20 * s_mb s + row_size cf s /\
  total_size cf s = 168 * (2 * rounds cf s) * rows cf s /\ 1 <= rows cf s /\ 1 <= rounds cf s.
Proof.
  intros cf s sc V. split; [exact (total_bounds cf sc s V)|]. split; [unfold total_size, row_size; ring|]. split; [apply (total_big cf sc s V)|apply rounds_pos].
Qed.
Print Assumptions C51_memory_size.

(** A worker whose parameters can be hashed runs to the end: its assertion holds,
    every read and write is inside the memory, whose size does not change. *)
Theorem C51_worker_stays_inside : forall cf domain kdf_salt hs s parameters, sound_config cf -> xof hs -> valid_session cf s ->
  hash_session_parameters cf domain hs s = Ok parameters ->
  exists d st, passcrypt cf domain kdf_salt hs s = Ok (d, st) /\ zlen d = 168 /\ zlen (ram st) = total_size cf s /\
    Forall (inside (total_size cf s)) (accesses st).
Proof.
  intros cf domain kdf_salt hs s p sc X V P. destruct (passcrypt_runs cf sc domain kdf_salt hs X s p V P) as (d & st & al & E & D & R & _ & IA & A & _).
  exists d, st. split; [exact E|]. split; [exact D|]. split; [exact R|]. rewrite A. pose proof (total_big cf sc s V) as [B _]. pose proof (sc_cpu _ sc).
  apply Forall_app. split; [exact IA|]. apply Forall_app. split; [apply schedule_inside, rounds_pos|]. destruct V as (_ & C & _). apply scans_inside; lia.
Qed.
Print Assumptions C51_worker_stays_inside.

(** The accesses in order: reads while the memory is filled, the passes over the
    grid, and cpu + 2 scans of the whole memory. *)
Theorem C51_schedule : forall cf domain kdf_salt hs s d st, sound_config cf -> xof hs -> valid_session cf s ->
  passcrypt cf domain kdf_salt hs s = Ok (d, st) ->
  exists filling, Forall is_read filling /\
    accesses st = filling ++ schedule turn' (rounds cf s) (rows cf s) ++ flat_map (scan_accesses (total_size cf s)) (upto (s_cpu s + 2)).
Proof.
  intros cf domain kdf_salt hs s d st sc X V E. destruct (passcrypt_ok _ _ _ _ _ _ _ E) as (p & P).
  destruct (passcrypt_runs cf sc domain kdf_salt hs X s p V P) as (d' & st' & al & E' & _ & _ & RA & _ & A & _). exists al. split; [exact RA|]. congruence.
Qed.
Print Assumptions C51_schedule.

(** The diagram says that each row is hashed before its cell is overwritten.  That
    is [schedule turn]; no worker ever does it: when the index is in the first row,
    the slice of the mirrored row ends at 0 instead of the end and is empty. *)
Theorem C51_each_row_is_hashed_refuted : forall cf domain kdf_salt hs s d st, sound_config cf -> xof hs -> valid_session cf s ->
  passcrypt cf domain kdf_salt hs s = Ok (d, st) ->
  forall filling scans, Forall is_read filling ->
  accesses st = filling ++ schedule turn' (rounds cf s) (rows cf s) ++ scans ->
  accesses st <> filling ++ schedule turn (rounds cf s) (rows cf s) ++ scans.
Proof.
  intros cf domain kdf_salt hs s d st sc X V E fl scn RA A. rewrite A. intros C. apply app_inv_head in C.
  destruct (C51_memory_size cf s sc V) as (_ & _ & R1 & R2). destruct (upto_cons _ R1) as (l1 & U1). destruct (upto_cons _ R2) as (l2 & U2).
  unfold schedule in C. rewrite U2 in C. cbn [flat_map] in C. rewrite U1 in C. cbn [flat_map] in C. unfold turn', turn in C. cbn [Z.eqb app] in C.
  assert (exists k, k = 336 * rounds cf s) as (k & K) by eauto. rewrite <- K in C. injection C as C _. nia.
Qed.
Print Assumptions C51_each_row_is_hashed_refuted.

(** The result commits to what the memory is at the end: the last thing hashed is the whole of it. *)
Lemma scans_end : forall hs cpu st, 0 <= cpu -> exists x, absorbed (scans hs cpu st) = x ++ ram (scans hs cpu st).
Proof.
  intros hs cpu st C. unfold scans.
  assert (L : range0 (cpu + 2) 1 <> []).
  { unfold range0. replace ((cpu + 2 + 1 - 1) / 1) with (cpu + 2) by (rewrite Z.div_1_r; ring).
    destruct (Z.to_nat (cpu + 2)) eqn:E; [lia|]. discriminate. }
  destruct (exists_last L) as (l & i & ->). rewrite fold_left_app. cbn [fold_left]. cbv zeta.
  set (m := write_slice hs _ _ 84 _). exists (absorbed m). cbn [update_slice absorbed ram]. f_equal.
  unfold getslice, lower, upper, py_index. cbn [Z.ltb Z.compare].
  pose proof (zlen_nonneg (ram m)). rewrite Z.min_l by lia. cbn [Z.to_nat skipn]. rewrite Z.sub_0_r.
  rewrite zlen_length, Nat2Z.id. apply firstn_all.
Qed.
Theorem C51_the_final_memory_is_hashed : forall cf domain kdf_salt hs s d st, sound_config cf -> valid_session cf s ->
  passcrypt cf domain kdf_salt hs s = Ok (d, st) ->
  exists before, d = h_digest hs (before ++ ram st) 168.
Proof.
  intros cf domain kdf_salt hs s d st sc (_ & C & _) E. unfold passcrypt in E. apply bind_ok in E as (p & _ & E).
  unfold work_memory_prover in E. destruct (negb _); [discriminate E|]. injection E as <- <-.
  pose proof (sc_cpu _ sc).
  destruct (scans_end hs (s_cpu s) (passes hs (row_size cf s) (total_size cf s) (allocate_ram cf hs s {| ram := []; absorbed := kdf_salt ++ p; accesses := [] |})) ltac:(lia)) as (x & X).
  exists x. unfold digest. rewrite X. reflexivity.
Qed.
Print Assumptions C51_the_final_memory_is_hashed.

(** And everything that is read is hashed: beyond the salt and the parameters, as many bytes as
    all the reads together. *)
Lemma bytes_read_app : forall a b, bytes_read (a ++ b) = bytes_read a + bytes_read b.
Proof. induction a as [|[lo hi|lo hi n] a IH]; intro b; cbn [app bytes_read fold_right]; [reflexivity| |]; fold (bytes_read (a ++ b)) (bytes_read a); rewrite IH; ring. Qed.
Definition unread (st : machine) : Z := zlen (absorbed st) - bytes_read (accesses st).
Lemma unread_update : forall a b st, unread (update_slice a b st) = unread st.
Proof.
  intros a b st. unfold unread, update_slice. cbn [absorbed accesses]. rewrite zlen_app, bytes_read_app. cbn [bytes_read fold_right].
  assert (G : zlen (getslice (ram st) a b) = Z.max (lower (ram st) a) (upper (ram st) b) - lower (ram st) a).
  { unfold getslice. rewrite zlen_length, firstn_length, skipn_length.
    assert (0 <= lower (ram st) a <= zlen (ram st)) by (unfold lower, py_index; pose proof (zlen_nonneg (ram st)); destruct (a <? 0) eqn:?; lia).
    assert (upper (ram st) b <= zlen (ram st)) by (unfold upper, py_index; pose proof (zlen_nonneg (ram st)); destruct b as [i|]; [destruct (i <? 0) eqn:?|]; lia).
    rewrite zlen_length in *. lia. }
  rewrite G. ring.
Qed.
Lemma unread_write : forall hs a b n st, unread (write_slice hs a b n st) = unread st.
Proof. intros. unfold unread, write_slice. cbn [absorbed accesses]. rewrite bytes_read_app. cbn [bytes_read fold_right]. ring. Qed.
Lemma unread_fold : forall (A : Type) (f : machine -> A -> machine) l, (forall x st, unread (f st x) = unread st) ->
  forall st, unread (fold_left f l st) = unread st.
Proof. intros A f l H. induction l as [|x l IH]; intro st; [reflexivity|]. cbn [fold_left]. now rewrite IH, H. Qed.
Lemma unread_fill : forall hs fuel size st, unread (fill hs fuel size st) = unread st.
Proof.
  intros hs. assert (X : forall n st, unread (extend hs n st) = unread st).
  { intros n st. unfold extend. rewrite unread_update. reflexivity. }
  induction fuel as [|fuel IH]; intros size st; [reflexivity|]. cbn [fill].
  destruct (max_size <? size); [now rewrite IH, X|]. destruct (size =? 0); [reflexivity|apply X].
Qed.
Theorem C51_what_is_read_is_hashed : forall cf domain kdf_salt hs s d st parameters,
  hash_session_parameters cf domain hs s = Ok parameters ->
  passcrypt cf domain kdf_salt hs s = Ok (d, st) ->
  d = h_digest hs (absorbed st) 168 /\
  zlen (absorbed st) = zlen kdf_salt + zlen parameters + bytes_read (accesses st).
Proof.
  intros cf domain kdf_salt hs s d st p P E. unfold passcrypt in E. rewrite P in E. cbn [bind] in E.
  unfold work_memory_prover in E. destruct (negb _); [discriminate E|]. injection E as <- <-. split; [reflexivity|].
  match goal with |- zlen (absorbed ?m) = _ => assert (U : unread m = zlen kdf_salt + zlen p) end.
  { unfold scans. rewrite unread_fold by (intros; cbv zeta; now rewrite unread_update, unread_write).
    unfold passes. rewrite unread_fold.
    2:{ intros. rewrite unread_fold; [reflexivity|]. intros. unfold step. cbv zeta.
        now rewrite unread_write, unread_update, unread_write, unread_update. }
    unfold allocate_ram. rewrite unread_fill. unfold unread. cbn [absorbed accesses bytes_read fold_right].
    rewrite zlen_app. ring. }
  unfold unread in U. lia.
Qed.
Print Assumptions C51_what_is_read_is_hashed.

Definition a_session : session := {| s_passphrase := repeat x61 12; s_salt := repeat x01 8; s_aad := []; s_mb := 1; s_cpu := 2; s_cores := 1; s_tag_size := 32 |}.
Example C51_case : forall hs domain kdf_salt, xof hs -> h_block_size hs = 168%N -> (blen domain < 2 ^ 60)%N ->
  let cf := passcrypt_spec [x00] in
  valid_session cf a_session /\ rows cf a_session = 3121 /\ rounds cf a_session = 1 /\ total_size cf a_session = 1048656 /\
  exists d st, passcrypt cf domain kdf_salt hs a_session = Ok (d, st).
Proof.
  intros hs domain kdf_salt X HB D cf. pose proof (spec_sound [x00]) as sc. fold cf in sc.
  assert (valid_session cf a_session) as V by (unfold valid_session, in_limits; vm_compute; repeat split; discriminate).
  split; [exact V|]. split; [reflexivity|]. split; [reflexivity|]. split; [reflexivity|].
  assert (0 < h_block_size hs < 2 ^ 56)%N as HB' by (rewrite HB; lia).
  destruct (parameters_total cf sc domain hs X HB' [] (repeat x61 12) eq_refl D eq_refl eq_refl eq_refl ltac:(vm_compute; discriminate) a_session V eq_refl ltac:(discriminate) eq_refl eq_refl) as (p & P).
  destruct (passcrypt_runs cf sc domain kdf_salt hs X a_session p V P) as (d & st & al & E & _). now exists d, st.
Qed.

(** The body of the loops on a small grid of three rows of two cells, with a toy
    hash function: the accesses of the model are those of the schedule. *)
Definition toy_shake : hasher := {| h_block_size := 168; h_digest_size := 0; h_is_xof := true;
  h_digest := fun m n => repeat (byte_of (fold_left (fun a b => a + bval b)%N m 0%N mod 256)) (N.to_nat n) |}.
Example C51_small_case :
  let st := passes toy_shake 336 1008 {| ram := repeat x01 1008; absorbed := [x02]; accesses := [] |} in
  accesses st =
   [Read 0 336; Write 0 168 168; Read 672 672; Write 840 1008 168;
    Read 336 672; Write 336 504 168; Read 336 672; Write 504 672 168;
    Read 672 1008; Write 672 840 168; Read 0 336; Write 168 336 168].
Proof. vm_compute. reflexivity. Qed.

(** ** C62: the accesses do not depend on secrets *)

(** Two workers with the same memory and cpu cost make the same accesses, whatever
    their passphrases, salts, associated data, peppers, numbers of cores and tag
    sizes, and whatever the hash function returns. *)
Theorem C62_accesses_independent_of_secrets : forall cf domain kdf_salt hs s d st cf' domain' kdf_salt' hs' s' d' st',
  xof hs -> xof hs' -> CPU_TO_DIGEST_PAIRS_PER_ROW_RATIO cf = CPU_TO_DIGEST_PAIRS_PER_ROW_RATIO cf' -> s_mb s = s_mb s' -> s_cpu s = s_cpu s' ->
  sound_config cf -> valid_session cf s ->
  passcrypt cf domain kdf_salt hs s = Ok (d, st) -> passcrypt cf' domain' kdf_salt' hs' s' = Ok (d', st') -> accesses st = accesses st'.
Proof.
  intros cf domain kdf_salt hs s d st cf' domain' kdf_salt' hs' s' d' st' X X' R M C sc V E E'.
  unfold passcrypt in E, E'. apply bind_ok in E as (p & _ & E). apply bind_ok in E' as (p' & _ & E').
  unfold work_memory_prover in E, E'. destruct (negb _) in E; [discriminate|]. destruct (negb _) in E'; [discriminate|].
  apply Ok_inj in E. apply Ok_inj in E'. apply pair_equal_spec in E as [_ <-]. apply pair_equal_spec in E' as [_ <-].
  assert (row_size cf' s' = row_size cf s /\ total_size cf' s' = total_size cf s) as (-> & TE).
  { unfold total_size, rows, row_size, rounds. rewrite <- R, <- M, <- C. auto. }
  rewrite TE, <- C. apply similar_scans; [assumption..|]. apply similar_passes; [assumption..|]. unfold allocate_ram. rewrite TE.
  apply similar_fill; [assumption..| |split; reflexivity]. pose proof (total_big cf sc s V). lia.
Qed.
Print Assumptions C62_accesses_independent_of_secrets.
Example C62_case : forall hs domain kdf_salt, xof hs -> h_block_size hs = 168%N -> (blen domain < 2 ^ 60)%N ->
  let cf := passcrypt_spec [x00] in
  let other := {| s_passphrase := repeat x62 30; s_salt := repeat x05 9; s_aad := [x01]; s_mb := 1; s_cpu := 2; s_cores := 7; s_tag_size := 16 |} in
  exists d st d' st', passcrypt cf domain kdf_salt hs a_session = Ok (d, st) /\ passcrypt cf domain kdf_salt hs other = Ok (d', st').
Proof.
  intros hs domain kdf_salt X HB D cf other. destruct (C51_case hs domain kdf_salt X HB D) as (_ & _ & _ & _ & d & st & E). fold cf in E.
  pose proof (spec_sound [x00]) as sc. fold cf in sc.
  assert (valid_session cf other) as V by (unfold valid_session, in_limits; vm_compute; repeat split; discriminate).
  assert (0 < h_block_size hs < 2 ^ 56)%N as HB' by (rewrite HB; lia).
  destruct (parameters_total cf sc domain hs X HB' [] (repeat x62 30) eq_refl D eq_refl eq_refl eq_refl ltac:(vm_compute; discriminate) other V eq_refl ltac:(discriminate) eq_refl eq_refl) as (p & P).
  destruct (passcrypt_runs cf sc domain kdf_salt hs X other p V P) as (d' & st' & al & E' & _). now exists d, st, d', st'.
Qed.

(** ** C63: the whole memory is overwritten *)

(** Between the filling and the scans, every cell of 168 bytes is overwritten
    exactly once. *)
Theorem C63_every_cell_overwritten_once : forall cf domain kdf_salt hs s d st, sound_config cf -> xof hs -> valid_session cf s ->
  passcrypt cf domain kdf_salt hs s = Ok (d, st) ->
  exists filling passing scanning, accesses st = filling ++ passing ++ scanning /\ writes filling = [] /\
    Permutation (map (fun i => 168 * i) (upto (total_size cf s / 168))) (writes passing) /\
    Forall (fun a => match a with Write lo hi n => hi = lo + 168 /\ n = 168 | Read _ _ => True end) passing /\
    length scanning = Z.to_nat (2 * (s_cpu s + 2)).
Proof.
  intros cf domain kdf_salt hs s d st sc X V E. destruct (C51_schedule cf domain kdf_salt hs s d st sc X V E) as (fl & RA & A).
  destruct (C51_memory_size cf s sc V) as (_ & T & R1 & R2). eexists fl, _, _. split; [exact A|]. split; [|split; [|split]].
  - clear A. induction RA as [|a l R _ IH]; [reflexivity|]. destruct a; [exact IH|destruct R].
  - rewrite T. replace (168 * (2 * rounds cf s) * rows cf s) with (2 * rounds cf s * rows cf s * 168) by ring. rewrite Z.div_mul by lia. now apply schedule_covers.
  - unfold schedule. apply Forall_flat_map. intros c _. apply Forall_flat_map. intros r _. unfold turn'. destruct (r =? 0); unfold turn; repeat constructor.
  - rewrite (flat_map_length_const _ 2) by reflexivity. rewrite upto_length. pose proof (sc_cpu _ sc). destruct V as (_ & C & _). lia.
Qed.
Print Assumptions C63_every_cell_overwritten_once.
Example C63_case : writes (schedule turn' 2 2) = [0; 840; 672; 168; 336; 1176; 1008; 504].
Proof. reflexivity. Qed.
