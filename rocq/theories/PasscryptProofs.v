(** * Passcrypt: proofs *)
From Coq Require Import Lia Permutation.
From Verif Require Import Base BaseFacts CanonModel CanonSpec CanonProofs ClockModel ClockProofs PasscryptModel PasscryptSpec.
Local Open Scope Z_scope.

(** ** Arithmetic *)
Lemma ceil_truediv_exact a b : 0 <= a < 2 ^ 52 -> 0 < b <= 2 ^ 52 -> ceil_truediv a b = (a + b - 1) / b.
Proof.
  intros Ha Hb. unfold ceil_truediv.
  assert (exists k, float_exponent a b = - k /\ 0 < k /\ b <= 2 ^ k) as (k & -> & Kp & KB).
  { destruct (Z_lt_le_dec a b) as [L|L].
    - exists 53. unfold float_exponent. replace (a <? b) with true by lia. split; [reflexivity|]. split; lia.
    - pose proof (float_exponent_spec a b ltac:(lia) L) as (E1 & E2 & E3). cbv zeta in E1, E2, E3.
      set (e := float_exponent a b) in *. exists (- e). 
      assert (e < 0) as EN.
      { destruct (Z_lt_le_dec e 0) as [|G]; [assumption|exfalso]. assert (2 ^ 52 <= 2 ^ (e + 52)) by (apply Z.pow_le_mono_r; lia). nia. }
      split; [lia|]. split; [lia|].
      assert (2 ^ 52 = 2 ^ (e + 52) * 2 ^ (- e)) as P by (rewrite <- Z.pow_add_r by lia; f_equal; lia).
      assert (0 < 2 ^ (e + 52)) by (apply Z.pow_pos_nonneg; lia). nia. }
  replace (0 <=? - k) with false by lia. rewrite Z.opp_involutive. set (K := 2 ^ k) in *.
  assert (0 < K) by lia. assert (0 <= a / b) as Q0 by (apply Z.div_pos; lia). pose proof (Z.div_mod a b ltac:(lia)) as DM. pose proof (Z.mod_pos_bound a b ltac:(lia)) as MB.
  set (q := a / b) in *. set (r := a mod b) in *. clearbody q r.
  destruct (Z.eq_dec r 0) as [R|R].
  - assert (a = q * b) as E by lia. clear DM. subst a. replace (q * b * K) with (q * K * b) by ring. rewrite rhe_exact by nia.
    replace (q * K + K - 1) with (K - 1 + q * K) by ring. rewrite Z.div_add by lia. rewrite Z.div_small by lia.
    replace (q * b + b - 1) with (b - 1 + q * b) by ring. rewrite Z.div_add by lia. rewrite Z.div_small by lia. reflexivity.
  - assert (q * K + 1 <= round_half_even (a * K) b) as L by (apply rhe_lower; nia).
    assert (round_half_even (a * K) b <= (q + 1) * K) as U by (apply rhe_upper; nia).
    set (m := round_half_even (a * K) b) in *.
    assert ((m + K - 1) / K = q + 1) as ->. { symmetry. apply Z.div_unique with (m + K - 1 - K * (q + 1)); [nia|ring]. }
    apply Z.div_unique with (r - 1); [lia|]. lia.
Qed.
Lemma ceil_bounds a b : 0 < b -> a <= b * ((a + b - 1) / b) < a + b.
Proof. intros Hb. pose proof (Z.div_mod (a + b - 1) b ltac:(lia)). pose proof (Z.mod_pos_bound (a + b - 1) b Hb). nia. Qed.

Lemma zlen_app x y : zlen (x ++ y) = zlen x + zlen y.
Proof. unfold zlen. rewrite blen_app. lia. Qed.
Lemma zlen_nonneg x : 0 <= zlen x.
Proof. unfold zlen. lia. Qed.
Lemma zlen_length x : zlen x = Z.of_nat (length x).
Proof. unfold zlen, blen. lia. Qed.

Lemma validate_ok cf mb cpu cores tag_size salt_size :
  validate_settings cf mb cpu cores tag_size salt_size = Ok tt <-> in_limits cf mb cpu cores tag_size salt_size.
Proof.
  unfold validate_settings, in_limits, within.
  repeat match goal with |- context [negb ?b] => destruct b eqn:?; cbn [negb] end; (split; [intros H|intros H]); try reflexivity; try discriminate; lia.
Qed.
Lemma validate_err cf mb cpu cores tag_size salt_size :
  ~ in_limits cf mb cpu cores tag_size salt_size -> validate_settings cf mb cpu cores tag_size salt_size = Err ValueErr.
Proof.
  intros N. destruct (validate_settings cf mb cpu cores tag_size salt_size) as [[]|e] eqn:E; [apply validate_ok in E; contradiction|].
  revert E. unfold validate_settings. repeat match goal with |- context [negb ?b] => destruct b eqn:?; cbn [negb] end; congruence.
Qed.

(** ** The hash format *)
Lemma z_to_bytes_field w n : 0 <= n < 256 ^ Z.of_N w -> exists x, z_to_bytes w BigEndian n = Ok x /\ field w n x.
Proof.
  intros H. assert (Z.to_N n < 256 ^ w)%N as F.
  { apply N2Z.inj_lt. rewrite N2Z.inj_pow, Z2N.id by lia. exact (proj2 H). }
  unfold z_to_bytes. replace (n <? 0) with false by lia. rewrite to_bytes_be_fit by exact F. eexists. split; [reflexivity|].
  split.
  - rewrite blen_be_enc. lia.
  - rewrite be_int_be_enc, N2Nat.id, N.mod_small by exact F. lia.
Qed.
Lemma field_z_to_bytes w n x : field w n x -> z_to_bytes w BigEndian n = Ok x.
Proof.
  intros [L V]. unfold z_to_bytes. replace (n <? 0) with false by lia.
  rewrite <- V, N2Z.id, <- L. apply to_bytes_be_be_int.
Qed.
Lemma field_bound w n x : field w n x -> 0 <= n < 256 ^ Z.of_N w.
Proof.
  intros [L V]. pose proof (be_int_bound x) as B. rewrite L in B. apply N2Z.inj_lt in B. rewrite N2Z.inj_pow in B. lia.
Qed.

Lemma bio_read_ok n x : (n < 2 ^ 63)%N -> bio_read n x = Ok (take n x, drop n x).
Proof. intros H. unfold bio_read, ssize_limit. now replace (n <? 2 ^ 63)%N with true by lia. Qed.
Lemma bio_read_app n x y : (n < 2 ^ 63)%N -> blen x = n -> bio_read n (x ++ y) = Ok (x, y).
Proof. intros H L. rewrite bio_read_ok by exact H. now rewrite take_app, drop_app. Qed.

Section Format.
Variable cf : config.
Hypothesis sc : sound_config cf.

Lemma import_fields h x : format cf h x -> import_hash cf x = make_phash cf (timestamp h) (mb h) (cpu h) (cores h) (salt h) (tag h).
Proof.
  intros (m & c & co & sz & -> & T & [M1 M2] & [C1 C2] & [O1 O2] & [S1 S2]).
  pose proof (sc_widths _ sc) as (W1 & W2 & W3 & W4 & W5). unfold import_hash.
  rewrite bio_read_app by auto. cbn [bind]. rewrite bio_read_app by auto. cbn [bind]. rewrite bio_read_app by auto. cbn [bind].
  rewrite bio_read_app by auto. cbn [bind]. rewrite bio_read_app by auto. cbn [bind].
  pose proof (field_bound _ _ _ (conj S1 S2)) as B. pose proof (sc_salt _ sc) as (_ & _ & SB).
  rewrite bio_read_app; [|unfold zlen in *; lia|unfold zlen in *; lia]. cbn [bind].
  rewrite M2, C2, O2. replace (mb h - 1 + 1) with (mb h) by ring. replace (cpu h - 1 + 1) with (cpu h) by ring. replace (cores h - 1 + 1) with (cores h) by ring.
  reflexivity.
Qed.
Lemma import_format h x : format cf h x -> in_limits cf (mb h) (cpu h) (cores h) (zlen (tag h)) (zlen (salt h)) -> import_hash cf x = Ok h.
Proof.
  intros F L. rewrite (import_fields _ _ F). unfold make_phash. apply validate_ok in L. rewrite L. cbn. destruct h. reflexivity.
Qed.
Lemma export_format h x : salt h <> [] -> (export_hash cf h = Ok x /\ blen (timestamp h) = TIMESTAMP_BYTES cf <-> format cf h x).
Proof.
  intros NE. unfold export_hash, format. split.
  - intros [E T]. apply bind_ok in E as (m & M & E). apply bind_ok in E as (c & C & E). apply bind_ok in E as (co & CO & E). apply bind_ok in E as (sz & SZ & E).
    apply Ok_inj in E. subst x. exists m, c, co, sz. destruct (salt h) as [|s0 ss] eqn:S; [contradiction|].
    assert (forall w n y, z_to_bytes w BigEndian n = Ok y -> field w n y) as F.
    { intros w n y E. unfold z_to_bytes in E. destruct (n <? 0) eqn:Q; [discriminate|]. split; [eapply to_bytes_be_len; eauto|].
      apply to_bytes_be_int in E. lia. }
    repeat split; try (apply F; assumption); try apply (F _ _ _ M); try apply (F _ _ _ C); try apply (F _ _ _ CO); try apply (F _ _ _ SZ); auto.
  - intros (m & c & co & sz & E & T & M & C & CO & SZ). split; [|exact T].
    rewrite (field_z_to_bytes _ _ _ M), (field_z_to_bytes _ _ _ C), (field_z_to_bytes _ _ _ CO). cbn.
    destruct (salt h) as [|s0 ss] eqn:S; [contradiction|]. rewrite <- S in SZ. rewrite S in SZ. rewrite (field_z_to_bytes _ _ _ SZ). cbn. now subst x.
Qed.
Lemma limits_salt h : in_limits cf (mb h) (cpu h) (cores h) (zlen (tag h)) (zlen (salt h)) -> salt h <> [].
Proof.
  intros (_ & _ & _ & _ & S) E. rewrite E in S. change (zlen []) with 0 in S. pose proof (sc_salt _ sc). lia.
Qed.
Lemma import_ok x h : import_hash cf x = Ok h -> format cf h x /\ in_limits cf (mb h) (cpu h) (cores h) (zlen (tag h)) (zlen (salt h)).
Proof.
  intros E. unfold import_hash in E. pose proof (sc_widths _ sc) as (W1 & W2 & W3 & W4 & W5).
  rewrite bio_read_ok in E by exact W1. cbn [bind] in E. rewrite bio_read_ok in E by exact W2. cbn [bind] in E.
  rewrite bio_read_ok in E by exact W3. cbn [bind] in E. rewrite bio_read_ok in E by exact W4. cbn [bind] in E. rewrite bio_read_ok in E by exact W5. cbn [bind] in E.
  set (x1 := drop (TIMESTAMP_BYTES cf) x) in *. set (x2 := drop (MB_BYTES cf) x1) in *. set (x3 := drop (CPU_BYTES cf) x2) in *.
  set (x4 := drop (CORES_BYTES cf) x3) in *. set (x5 := drop (SALT_SIZE_BYTES cf) x4) in *.
  set (n := be_int (take (SALT_SIZE_BYTES cf) x4)) in *.
  assert (n + 1 < 2 ^ 63)%N as NB.
  { pose proof (be_int_bound (take (SALT_SIZE_BYTES cf) x4)) as B. fold n in B. rewrite blen_take in B.
    pose proof (sc_salt _ sc) as (_ & _ & SB). apply N2Z.inj_lt in B. rewrite N2Z.inj_pow in B.
    assert (Z.of_N 256 ^ Z.of_N (N.min (SALT_SIZE_BYTES cf) (blen x4)) <= 256 ^ Z.of_N (SALT_SIZE_BYTES cf)) by (apply Z.pow_le_mono_r; lia).
    lia. }
  rewrite bio_read_ok in E by exact NB. cbn [bind] in E. set (x6 := drop (n + 1) x5) in *.
  unfold make_phash in E. apply bind_ok in E as (u & V & E). destruct u. apply validate_ok in V. apply Ok_inj in E. subst h. cbn [mb cpu cores tag salt timestamp].
  split; [|exact V]. destruct V as (_ & _ & _ & TG & _). pose proof (sc_tag _ sc) as ST.
  assert (0 < blen x6)%N as P6 by (unfold zlen in TG; lia). unfold x6 in P6. rewrite blen_drop in P6.
  assert (0 < blen x5)%N as P5 by lia. pose proof P5 as P5'. unfold x5 in P5. rewrite blen_drop in P5.
  assert (0 < blen x4)%N as P4 by lia. pose proof P4 as P4'. unfold x4 in P4. rewrite blen_drop in P4.
  assert (0 < blen x3)%N as P3 by lia. pose proof P3 as P3'. unfold x3 in P3. rewrite blen_drop in P3.
  assert (0 < blen x2)%N as P2 by lia. pose proof P2 as P2'. unfold x2 in P2. rewrite blen_drop in P2.
  assert (0 < blen x1)%N as P1 by lia. pose proof P1 as P1'. unfold x1 in P1. rewrite blen_drop in P1.
  exists (take (MB_BYTES cf) x1), (take (CPU_BYTES cf) x2), (take (CORES_BYTES cf) x3), (take (SALT_SIZE_BYTES cf) x4). cbn [mb cpu cores tag salt timestamp].
  split; [|split; [|split; [|split; [|split]]]].
  - unfold x6, x5, x4, x3, x2, x1. now rewrite !take_drop.
  - rewrite blen_take. lia.
  - split; [rewrite blen_take; lia|lia].
  - split; [rewrite blen_take; lia|lia].
  - split; [rewrite blen_take; lia|lia].
  - split; [rewrite blen_take; lia|]. unfold zlen. rewrite blen_take. fold n. lia.
Qed.
End Format.

Lemma member_in_range n r : r_step r <> 0 -> (in_range n r = true <-> member n r).
Proof.
  intros NZ. unfold in_range, member. rewrite andb_true_iff, Z.eqb_eq. split.
  - intros [A B]. exists ((n - r_start r) / r_step r). pose proof (Z.div_mod (n - r_start r) (r_step r) NZ) as D. rewrite B in D.
    split; [lia|]. destruct (0 <? r_step r) eqn:P; apply andb_true_iff in A as [A1 A2]; (split; [|lia]).
    + apply Z.div_pos; lia.
    + set (q := (n - r_start r) / r_step r) in *. nia.
  - intros (k & E & K & L). assert ((n - r_start r) mod r_step r = 0) as M. { rewrite E. replace (r_start r + k * r_step r - r_start r) with (k * r_step r) by ring. now apply Z.mod_mul. }
    split; [|exact M]. destruct (0 <? r_step r) eqn:P; apply andb_true_iff; nia.
Qed.

(** ** The memory *)
Section Memory.
Variable h : hasher.
Hypothesis HX : xof h.

Notation digest := (digest h).
Notation write_slice := (write_slice h).
Notation step := (step h).
Notation passes := (passes h).
Notation scans := (scans h).
Notation extend := (extend h).
Notation fill := (fill h).

Lemma digest_len n st : 0 <= n -> zlen (digest n st) = n.
Proof. intros N. unfold PasscryptModel.digest, zlen. rewrite (proj2 HX). lia. Qed.

Lemma py_index_pos len i : 0 <= i <= len -> py_index len i = i.
Proof. intros H. unfold py_index. destruct (i <? 0) eqn:E; lia. Qed.
Lemma py_index_neg len i : - len <= i < 0 -> py_index len i = len + i.
Proof. intros H. unfold py_index. destruct (i <? 0) eqn:E; lia. Qed.
Lemma py_index_in len i : 0 <= len -> 0 <= py_index len i <= len.
Proof. intros H. unfold py_index. destruct (i <? 0) eqn:E; lia. Qed.

Lemma lower_in l a : 0 <= lower l a <= zlen l.
Proof. apply py_index_in, zlen_nonneg. Qed.
Lemma upper_in l a : 0 <= upper l a <= zlen l.
Proof. pose proof (zlen_nonneg l). destruct a; cbn; [now apply py_index_in|lia]. Qed.
Lemma setslice_len l a b data : zlen (setslice l a b data) = zlen l - (Z.max (lower l a) (upper l b) - lower l a) + zlen data.
Proof.
  unfold setslice. rewrite !zlen_app. pose proof (lower_in l a). pose proof (upper_in l b).
  assert (zlen (firstn (Z.to_nat (lower l a)) l) = lower l a) as ->. { rewrite zlen_length in *. rewrite firstn_length. lia. }
  assert (zlen (skipn (Z.to_nat (Z.max (lower l a) (upper l b))) l) = zlen l - Z.max (lower l a) (upper l b)) as ->; [|lia].
  rewrite !zlen_length in *. rewrite skipn_length. lia.
Qed.

(** What an operation does to the size and the accesses. *)
Lemma write_ok a b n st lo hi : 0 <= n -> lower (ram st) a = lo -> upper (ram st) b = hi -> hi = lo + n ->
  zlen (ram (write_slice a b n st)) = zlen (ram st) /\ accesses (write_slice a b n st) = accesses st ++ [Write lo (lo + n) n].
Proof.
  intros N A B E. cbn. rewrite setslice_len, digest_len, A, B by exact N. split; [lia|]. do 3 f_equal. lia.
Qed.

(** One turn of the loops. *)
Lemma step_turn rounds n c r st : 1 <= rounds -> 0 <= r < n -> 0 <= c < rounds -> zlen (ram st) = 336 * rounds * n ->
  zlen (ram (step (336 * rounds) (c * 336) (r * (336 * rounds)) st)) = 336 * rounds * n /\
  accesses (step (336 * rounds) (c * 336) (r * (336 * rounds)) st) = accesses st ++ turn' rounds n c r.
Proof.
  intros HR Hr Hc L. unfold PasscryptModel.step. cbv zeta.
  remember (336 * rounds) as row eqn:RE. assert (0 < row) as RP by lia. assert (0 <= r * row) by nia. assert (r * row + row <= row * n) by nia. assert (0 <= c * 336 /\ c * 336 + 336 <= row) as C2 by lia.
  set (st1 := update_slice (r * row) (Some (r * row + row)) st).
  assert (zlen (ram st1) = row * n /\ accesses st1 = accesses st ++ [Read (r * row) ((r + 1) * row)]) as (L1 & A1).
  { unfold st1. cbn. split; [exact L|]. unfold lower, upper. rewrite L.
    rewrite !py_index_pos by lia. do 3 f_equal. lia. }
  clearbody st1. set (st2 := write_slice (r * row + c * 336) (Some (r * row + c * 336 + 168)) 168 st1).
  assert (zlen (ram st2) = row * n /\ accesses st2 = accesses st1 ++ [Write (r * row + 168 * (2 * c)) (r * row + 168 * (2 * c) + 168) 168]) as (L2 & A2).
  { unfold st2. replace (r * row + 168 * (2 * c)) with (r * row + c * 336) by ring. rewrite <- L1. apply write_ok with (hi := r * row + c * 336 + 168); [lia| | |lia];
    unfold lower, upper; rewrite L1, py_index_pos by lia; reflexivity. }
  clearbody st2. set (st3 := update_slice (- (r * row) - row) (Some (- (r * row) - row + row)) st2).
  assert (zlen (ram st3) = row * n /\ accesses st3 = accesses st2 ++ [Read ((n - 1 - r) * row) (if r =? 0 then (n - 1 - r) * row else (n - 1 - r + 1) * row)]) as (L3 & A3).
  { unfold st3. cbn. split; [exact L2|]. unfold lower, upper. rewrite L2. rewrite (py_index_neg (row * n)) by lia.
    replace (- (r * row) - row + row) with (- (r * row)) by ring. do 3 f_equal; [ring|].
    destruct (r =? 0) eqn:R0.
    - assert (r = 0) as -> by lia. unfold py_index. replace (- (0 * row) <? 0) with false by lia. nia.
    - rewrite py_index_neg by nia. nia. }
  clearbody st3. 
  set (ref := - (r * row) - row + c * 336 + 168) in *.
  assert (lower (ram st3) ref = row * n + ref) as LO. { unfold lower. rewrite L3, py_index_neg by (unfold ref; nia). reflexivity. }
  assert (upper (ram st3) (if ref + 168 <? 0 then Some (ref + 168) else None) = row * n + ref + 168) as UP.
  { destruct (ref + 168 <? 0) eqn:Q; cbn; rewrite L3.
    - rewrite py_index_neg by (unfold ref in *; nia). ring.
    - unfold ref in *. nia. }
  destruct (write_ok ref _ 168 st3 _ _ ltac:(lia) LO UP ltac:(lia)) as (L4 & A4). split; [congruence|].
  rewrite A4, A3, A2, A1. unfold turn', turn. rewrite <- RE. rewrite <- !app_assoc. cbn [app].
  replace (row * n + ref) with ((n - 1 - r) * row + 168 * (2 * c + 1)) by (unfold ref; ring). destruct (r =? 0); reflexivity.
Qed.

Lemma range0_mul n s : 0 < s -> 0 <= n -> range0 (s * n) s = map (fun i => i * s) (upto n).
Proof.
  intros S N. unfold range0, upto. rewrite map_map. replace (s * n + s - 1) with (s - 1 + n * s) by ring.
  rewrite Z.div_add, Z.div_small by lia. reflexivity.
Qed.
Lemma in_upto n i : In i (upto n) <-> 0 <= i < n.
Proof.
  unfold upto. rewrite in_map_iff. split.
  - intros (k & <- & I). apply in_seq in I. lia.
  - intros H. exists (Z.to_nat i). split; [lia|]. apply in_seq. lia.
Qed.
Lemma fold_accesses {A} (f : machine -> A -> machine) (g : A -> list access) (total : Z) l :
  (forall x st, In x l -> zlen (ram st) = total -> zlen (ram (f st x)) = total /\ accesses (f st x) = accesses st ++ g x) ->
  forall st, zlen (ram st) = total -> zlen (ram (fold_left f l st)) = total /\ accesses (fold_left f l st) = accesses st ++ flat_map g l.
Proof.
  induction l as [|x l IH]; intros H st L; cbn; [split; [exact L|now rewrite app_nil_r]|].
  destruct (H x st (or_introl eq_refl) L) as (L1 & A1). destruct (IH (fun y s I => H y s (or_intror I)) (f st x) L1) as (L2 & A2).
  split; [exact L2|]. rewrite A2, A1, app_assoc. reflexivity.
Qed.
Lemma fold_left_map {A B C} (f : C -> B -> C) (g : A -> B) l : forall c, fold_left f (map g l) c = fold_left (fun c x => f c (g x)) l c.
Proof. induction l as [|x l IH]; intros c; [reflexivity|]. apply IH. Qed.

Theorem passes_schedule rounds n st : 1 <= rounds -> 1 <= n -> zlen (ram st) = 336 * rounds * n ->
  zlen (ram (passes (336 * rounds) (336 * rounds * n) st)) = 336 * rounds * n /\
  accesses (passes (336 * rounds) (336 * rounds * n) st) = accesses st ++ schedule turn' rounds n.
Proof.
  intros HR Hn L. unfold PasscryptModel.passes, schedule. rewrite (range0_mul rounds 336), (range0_mul n (336 * rounds)) by lia. rewrite fold_left_map.
  apply (fold_accesses _ (fun c => flat_map (turn' rounds n c) (upto n)) (336 * rounds * n)); [|exact L].
  intros c s Ic Ls. rewrite fold_left_map. apply (fold_accesses _ (turn' rounds n c) (336 * rounds * n)); [|exact Ls].
  intros r s' Ir Ls'. apply step_turn; auto; now apply in_upto.
Qed.

Theorem scans_schedule cpu total st : 0 <= cpu -> 168 * (cpu + 1) + 84 <= total -> zlen (ram st) = total ->
  zlen (ram (scans cpu st)) = total /\ accesses (scans cpu st) = accesses st ++ flat_map (scan_accesses total) (upto (cpu + 2)).
Proof.
  intros HC HT L. unfold PasscryptModel.scans. replace (range0 (cpu + 2) 1) with (upto (cpu + 2)).
  2:{ replace (cpu + 2) with (1 * (cpu + 2)) at 2 by ring. rewrite range0_mul by lia. unfold upto. rewrite map_map. apply map_ext. intros a. ring. }
  apply (fold_accesses _ (scan_accesses total) total); [|exact L]. intros i s Ii Ls. apply in_upto in Ii.
  set (s1 := write_slice (168 * i) (Some (168 * i + 84)) 84 s).
  assert (zlen (ram s1) = total /\ accesses s1 = accesses s ++ [Write (168 * i) (168 * i + 84) 84]) as (L1 & A1).
  { unfold s1. rewrite <- Ls. apply write_ok with (hi := 168 * i + 84); [lia| | |lia]; unfold lower, upper; rewrite Ls, py_index_pos by lia; reflexivity. }
  clearbody s1. cbn [ram accesses update_slice]. split; [exact L1|]. rewrite A1. cbn [upper]. unfold lower. rewrite L1. rewrite py_index_pos by lia.
  rewrite Z.max_r by lia. now rewrite <- app_assoc.
Qed.

Lemma extend_ok n st : 0 <= n -> zlen (ram (extend n st)) = zlen (ram st) + n /\
  accesses (extend n st) = accesses st ++ [Read (Z.max 0 (zlen (ram st) + n - 168)) (zlen (ram st) + n)].
Proof.
  intros N. unfold PasscryptModel.extend, update_slice. cbn [ram accesses]. rewrite zlen_app, digest_len by exact N. split; [reflexivity|].
  unfold lower, upper. rewrite zlen_app, digest_len by exact N. do 2 f_equal. pose proof (zlen_nonneg (ram st)).
  unfold py_index. replace (-168 <? 0) with true by lia. f_equal; lia.
Qed.
Lemma fill_ok total fuel : forall size st, 0 <= size -> size <= max_size * Z.of_nat fuel -> zlen (ram st) + size = total ->
  zlen (ram (fill fuel size st)) = total /\ exists l, accesses (fill fuel size st) = accesses st ++ l /\ Forall (inside total) l.
Proof.
  assert (0 < max_size) as MP by (vm_compute; reflexivity).
  induction fuel as [|fuel IH]; intros size st S F T; cbn [PasscryptModel.fill].
  - assert (size = 0) by lia. split; [lia|]. exists []. rewrite app_nil_r. auto.
  - destruct (max_size <? size) eqn:Q.
    + destruct (extend_ok max_size st) as (L1 & A1); [lia|]. destruct (IH (size - max_size) (extend max_size st)) as (L2 & l & A2 & F2); [lia|lia|lia|].
      split; [exact L2|]. eexists. split; [rewrite A2, A1, <- app_assoc; reflexivity|]. apply Forall_app. split; [|exact F2]. constructor; [|constructor].
      cbn [inside]. pose proof (zlen_nonneg (ram st)). lia.
    + destruct (size =? 0) eqn:Z0; [split; [lia|]; exists []; rewrite app_nil_r; auto|].
      destruct (extend_ok size st S) as (L1 & A1). split; [lia|]. eexists. split; [exact A1|]. constructor; [|constructor].
      cbn [inside]. pose proof (zlen_nonneg (ram st)). lia.
Qed.

(** The schedule stays inside. *)
Lemma turn_inside rounds n c r : 1 <= rounds -> 0 <= r < n -> 0 <= c < rounds -> Forall (inside (336 * rounds * n)) (turn' rounds n c r).
Proof.
  intros HR Hr Hc. assert (0 <= r * rounds /\ r * rounds + rounds <= rounds * n) as [A B] by nia.
  assert (0 <= (n - 1 - r) * rounds /\ (n - 1 - r) * rounds + rounds <= rounds * n) as [A' B'] by nia.
  assert (forall i, i * (336 * rounds) = 336 * (i * rounds)) as R by (intros; ring).
  unfold turn'. destruct (r =? 0) eqn:E; unfold turn; rewrite !R, ?Z.mul_add_distr_r, <- !Z.mul_assoc;
    repeat apply Forall_cons; try apply Forall_nil; cbn [inside]; lia.
Qed.
Lemma Forall_flat_map {A B} (P : B -> Prop) (f : A -> list B) l : (forall x, In x l -> Forall P (f x)) -> Forall P (flat_map f l).
Proof. induction l as [|x l IH]; intros H; cbn; [constructor|]. apply Forall_app. split; [apply H; now left|]. apply IH. intros y I. apply H. now right. Qed.
Lemma schedule_inside rounds n : 1 <= rounds -> Forall (inside (336 * rounds * n)) (schedule turn' rounds n).
Proof.
  intros HR. unfold schedule. apply Forall_flat_map. intros c Ic. apply Forall_flat_map. intros r Ir. apply in_upto in Ic, Ir. apply turn_inside; lia.
Qed.

(** Each cell is overwritten exactly once. *)
Lemma flat_map_length_const {A B} (f : A -> list B) k l : (forall x, In x l -> length (f x) = k) -> length (flat_map f l) = (length l * k)%nat.
Proof. induction l as [|x l IH]; intros H; cbn; [reflexivity|]. rewrite app_length, IH, (H x); [reflexivity|now left|]. intros y I. apply H. now right. Qed.
Lemma upto_length n : length (upto n) = Z.to_nat n.
Proof. unfold upto. now rewrite map_length, seq_length. Qed.
Lemma flat_map_flat_map {A B C} (f : A -> list B) (g : B -> list C) l : flat_map g (flat_map f l) = flat_map (fun x => flat_map g (f x)) l.
Proof. induction l as [|x l IH]; cbn; [reflexivity|]. now rewrite flat_map_app, IH. Qed.
Lemma writes_schedule rounds n : writes (schedule turn' rounds n) =
  flat_map (fun c => flat_map (fun r => [r * (336 * rounds) + 168 * (2 * c); (n - 1 - r) * (336 * rounds) + 168 * (2 * c + 1)]) (upto n)) (upto rounds).
Proof.
  unfold writes, schedule. rewrite flat_map_flat_map. apply flat_map_ext. intros c. rewrite flat_map_flat_map. apply flat_map_ext. intros r.
  unfold turn'. destruct (r =? 0); reflexivity.
Qed.
Theorem schedule_covers rounds n : 1 <= rounds -> 1 <= n ->
  Permutation (map (fun i => 168 * i) (upto (2 * rounds * n))) (writes (schedule turn' rounds n)).
Proof.
  intros HR Hn. rewrite writes_schedule. apply NoDup_Permutation_bis.
  - unfold upto. rewrite map_map. apply FinFun.Injective_map_NoDup; [|apply seq_NoDup]. intros a b E. lia.
  - rewrite map_length, upto_length. rewrite (flat_map_length_const _ (Z.to_nat n * 2)).
    + rewrite upto_length. nia.
    + intros c _. rewrite (flat_map_length_const _ 2); [now rewrite upto_length|reflexivity].
  - intros x I. apply in_map_iff in I as (i & <- & I). apply in_upto in I.
    pose proof (Z.div_mod i 2 ltac:(lia)) as D2. pose proof (Z.mod_pos_bound i 2 ltac:(lia)) as M2.
    set (j := i / 2) in *. assert (0 <= j < rounds * n) as J by nia.
    pose proof (Z.div_mod j rounds ltac:(lia)) as DJ. pose proof (Z.mod_pos_bound j rounds ltac:(lia)) as MJ.
    set (q := j / rounds) in *. set (c := j mod rounds) in *. assert (0 <= q < n) as Q by nia.
    apply in_flat_map. exists c. split; [apply in_upto; lia|]. apply in_flat_map.
    destruct (Z.eq_dec (i mod 2) 0) as [E|E].
    + exists q. split; [apply in_upto; lia|]. left. nia.
    + exists (n - 1 - q). split; [apply in_upto; lia|]. right. left. nia.
Qed.

(** ** What the accesses do not depend on *)
End Memory.

Definition similar (a b : machine) : Prop := zlen (ram a) = zlen (ram b) /\ accesses a = accesses b.
Section Similar.
Variables h h' : hasher.
Hypothesis HX : xof h.
Hypothesis HX' : xof h'.
Lemma similar_bounds l l' a b : zlen l = zlen l' -> lower l a = lower l' a /\ upper l b = upper l' b.
Proof. intros E. unfold lower, upper. now rewrite E. Qed.
Lemma similar_update a b st st' : similar st st' -> similar (update_slice a b st) (update_slice a b st').
Proof. intros [L A]. destruct (similar_bounds _ _ a b L) as [E1 E2]. split; cbn; [exact L|]. now rewrite A, E1, E2. Qed.
Lemma similar_write a b n st st' : 0 <= n -> similar st st' -> similar (write_slice h a b n st) (write_slice h' a b n st').
Proof.
  intros N [L A]. destruct (similar_bounds _ _ a b L) as [E1 E2]. split; cbn; [|now rewrite A, E1, E2].
  rewrite !setslice_len, E1, E2, L. rewrite (digest_len h HX), (digest_len h' HX') by exact N. reflexivity.
Qed.
Lemma similar_fold {A} (f g : machine -> A -> machine) l : (forall x a b, In x l -> similar a b -> similar (f a x) (g b x)) ->
  forall a b, similar a b -> similar (fold_left f l a) (fold_left g l b).
Proof. induction l as [|x l IH]; intros H a b S; cbn; [exact S|]. apply IH; [intros; apply H; [now right|assumption]|]. apply H; [now left|exact S]. Qed.
Lemma similar_step rs c r a b : similar a b -> similar (step h rs c r a) (step h' rs c r b).
Proof.
  intros S. unfold step. cbv zeta. apply similar_write; [lia|]. apply similar_update. apply similar_write; [lia|]. now apply similar_update.
Qed.
Lemma similar_passes rs total a b : similar a b -> similar (passes h rs total a) (passes h' rs total b).
Proof. intros S. apply similar_fold; [|exact S]. intros c x y _ S1. apply similar_fold; [|exact S1]. intros r x' y' _ S2. now apply similar_step. Qed.
Lemma similar_scans cpu a b : similar a b -> similar (scans h cpu a) (scans h' cpu b).
Proof. intros S. apply similar_fold; [|exact S]. intros i x y _ S1. apply similar_update. apply similar_write; [lia|exact S1]. Qed.
Lemma similar_extend n a b : 0 <= n -> similar a b -> similar (extend h n a) (extend h' n b).
Proof.
  intros N [L A]. apply similar_update. split; cbn; [|exact A]. rewrite !zlen_app, (digest_len h HX), (digest_len h' HX') by exact N. lia.
Qed.
Lemma similar_fill fuel : forall size a b, 0 <= size -> similar a b -> similar (fill h fuel size a) (fill h' fuel size b).
Proof.
  induction fuel as [|fuel IH]; intros size a b P S; cbn [fill]; [exact S|]. assert (0 < max_size) by (vm_compute; reflexivity).
  destruct (max_size <? size) eqn:Q; [apply IH; [lia|]; apply similar_extend; [lia|exact S]|]. destruct (size =? 0); [exact S|]. now apply similar_extend.
Qed.
End Similar.

(** ** A whole session *)
Section Whole.
Variable cf : config.
Hypothesis sc : sound_config cf.
Variables domain kdf_salt : bytes.
Variable h : hasher.
Hypothesis HX : xof h.

Notation fits := (valid_session cf).

Lemma rounds_pos s : 1 <= rounds cf s.
Proof. unfold rounds. lia. Qed.
Lemma rounds_bound s : fits s -> rounds cf s <= 4096.
Proof.
  intros (_ & C & _). pose proof (sc_cpu _ sc). pose proof (sc_ratio _ sc). unfold rounds.
  assert (s_cpu s / CPU_TO_DIGEST_PAIRS_PER_ROW_RATIO cf <= s_cpu s); [|lia]. apply Z.div_le_upper_bound; nia.
Qed.
Lemma rows_exact s : fits s -> rows cf s = (B_TO_MB_RATIO * s_mb s + row_size cf s - 1) / row_size cf s.
Proof.
  intros F. unfold rows, row_size. pose proof (rounds_bound s F). pose proof (rounds_pos s). destruct F as (M & _). pose proof (sc_mb _ sc).
  apply ceil_truediv_exact; unfold B_TO_MB_RATIO; lia.
Qed.
Lemma total_bounds s : fits s -> B_TO_MB_RATIO * s_mb s <= total_size cf s < B_TO_MB_RATIO * s_mb s + row_size cf s.
Proof.
  intros F. unfold total_size. rewrite rows_exact by exact F. apply ceil_bounds. unfold row_size. pose proof (rounds_pos s). lia.
Qed.
Lemma total_big s : fits s -> 2 ^ 20 <= total_size cf s /\ 1 <= rows cf s.
Proof.
  intros F. pose proof (total_bounds s F) as B. pose proof (sc_mb _ sc). destruct F as (M & F). unfold B_TO_MB_RATIO in B.
  assert (2 ^ 20 <= total_size cf s) by lia. split; [assumption|]. unfold total_size, row_size in *. pose proof (rounds_pos s). nia.
Qed.

Definition start (parameters : bytes) : machine := {| ram := []; absorbed := kdf_salt ++ parameters; accesses := [] |}.
Lemma allocate_ok s st : fits s -> ram st = [] -> zlen (ram (allocate_ram cf h s st)) = total_size cf s /\
  exists l, accesses (allocate_ram cf h s st) = accesses st ++ l /\ Forall (inside (total_size cf s)) l.
Proof.
  intros F E. assert (0 < max_size) as MP by (vm_compute; reflexivity). pose proof (total_big s F) as [B _].
  apply (fill_ok h HX).
  - lia.
  - pose proof (Z.div_mod (total_size cf s) max_size ltac:(lia)). pose proof (Z.mod_pos_bound (total_size cf s) max_size MP).
    assert (0 <= total_size cf s / max_size) by (apply Z.div_pos; lia). rewrite Nat2Z.inj_succ, Z2Nat.id by lia. lia.
  - rewrite E. unfold zlen, blen. cbn [length]. lia.
Qed.

Lemma writes_app a b : writes (a ++ b) = writes a ++ writes b.
Proof. unfold writes. apply flat_map_app. Qed.
Lemma fill_reads fuel : forall size st, Forall is_read (accesses st) -> Forall is_read (accesses (fill h fuel size st)).
Proof.
  induction fuel as [|fuel IH]; intros size st F; cbn [fill]; [exact F|].
  assert (forall n, Forall is_read (accesses (extend h n st))) as E. { intros n. unfold extend, update_slice. cbn [accesses]. apply Forall_app. split; [exact F|]. repeat constructor. }
  destruct (max_size <? size); [apply IH, E|]. destruct (size =? 0); [exact F|apply E].
Qed.

(** A session that starts runs to the end; its memory and its accesses. *)
Theorem passcrypt_runs s parameters : fits s -> hash_session_parameters cf domain h s = Ok parameters ->
  exists d st alloc, passcrypt cf domain kdf_salt h s = Ok (d, st) /\ zlen d = 168 /\ zlen (ram st) = total_size cf s /\
    Forall is_read alloc /\ Forall (inside (total_size cf s)) alloc /\
    accesses st = alloc ++ schedule turn' (rounds cf s) (rows cf s) ++ flat_map (scan_accesses (total_size cf s)) (upto (s_cpu s + 2)) /\
    d = h_digest h (absorbed st) 168.
Proof.
  intros F E. unfold passcrypt. rewrite E. cbn [bind]. fold (start parameters).
  destruct (allocate_ok s (start parameters) F eq_refl) as (L0 & alloc & A0 & I0).
  assert (Forall is_read alloc) as R0. { assert (Forall is_read (accesses (allocate_ram cf h s (start parameters)))) as R by (apply fill_reads; constructor). rewrite A0 in R. exact R. }
  set (st0 := allocate_ram cf h s (start parameters)) in *. clearbody st0. cbn [accesses start app] in A0.
  unfold work_memory_prover. rewrite L0. replace (total_size cf s =? total_size cf s) with true by lia. cbn [negb].
  pose proof (total_big s F) as [B1 B2]. pose proof (rounds_pos s) as RP. destruct (passes_schedule h HX (rounds cf s) (rows cf s) st0 RP B2 L0) as (L1 & A1).
  set (st1 := passes h (336 * rounds cf s) (336 * rounds cf s * rows cf s) st0) in *.
  change (passes h (row_size cf s) (total_size cf s) st0) with st1. clearbody st1. change (336 * rounds cf s * rows cf s) with (total_size cf s) in L1.
  assert (0 <= s_cpu s <= 4096) as CP. { destruct F as (_ & C & _). pose proof (sc_cpu _ sc). lia. }
  destruct (scans_schedule h HX (s_cpu s) (total_size cf s) st1) as (L2 & A2); [lia|lia|exact L1|].
  set (st2 := scans h (s_cpu s) st1) in *. clearbody st2.
  exists (digest h 168 st2), st2, alloc. split; [reflexivity|]. split; [apply (digest_len h HX); lia|]. split; [exact L2|]. split; [exact R0|]. split; [exact I0|].
  split; [|reflexivity]. rewrite A2, A1, A0, <- app_assoc. reflexivity.
Qed.
Lemma passcrypt_ok s d st : passcrypt cf domain kdf_salt h s = Ok (d, st) -> exists parameters, hash_session_parameters cf domain h s = Ok parameters.
Proof. intros E. unfold passcrypt in E. apply bind_ok in E as (p & P & _). now exists p. Qed.

Lemma scans_inside total cpu : 0 <= cpu -> 168 * (cpu + 1) + 84 <= total -> Forall (inside total) (flat_map (scan_accesses total) (upto (cpu + 2))).
Proof. intros C T. apply Forall_flat_map. intros i I. apply in_upto in I. unfold scan_accesses. repeat constructor; lia. Qed.

(** What is absorbed starts with the salt and the parameters. *)
Definition grows (a b : machine) : Prop := exists x, absorbed b = absorbed a ++ x.
Lemma grows_refl a : grows a a.
Proof. exists []. now rewrite app_nil_r. Qed.
Lemma grows_trans a b c : grows a b -> grows b c -> grows a c.
Proof. intros [x X] [y Y]. exists (x ++ y). now rewrite Y, X, app_assoc. Qed.
Lemma grows_update a b st : grows st (update_slice a b st).
Proof. eexists. reflexivity. Qed.
Lemma grows_write a b n st : grows st (write_slice h a b n st).
Proof. exists []. cbn. now rewrite app_nil_r. Qed.
Lemma grows_fold {A} (f : machine -> A -> machine) l : (forall x st, grows st (f st x)) -> forall st, grows st (fold_left f l st).
Proof. intros H. induction l as [|x l IH]; intros st; [apply grows_refl|]. cbn. eapply grows_trans; [apply H|apply IH]. Qed.
Lemma grows_step rs c r st : grows st (step h rs c r st).
Proof.
  unfold step. cbv zeta. eapply grows_trans; [|apply grows_write]. eapply grows_trans; [|apply grows_update].
  eapply grows_trans; [|apply grows_write]. apply grows_update.
Qed.
Lemma grows_extend n st : grows st (extend h n st).
Proof. unfold extend. eexists. reflexivity. Qed.
Lemma grows_fill fuel : forall size st, grows st (fill h fuel size st).
Proof.
  induction fuel as [|fuel IH]; intros size st; cbn [fill]; [apply grows_refl|].
  destruct (max_size <? size); [eapply grows_trans; [apply grows_extend|apply IH]|]. destruct (size =? 0); [apply grows_refl|apply grows_extend].
Qed.
Lemma passcrypt_grows s d st parameters : passcrypt cf domain kdf_salt h s = Ok (d, st) -> hash_session_parameters cf domain h s = Ok parameters ->
  (exists x, absorbed st = (kdf_salt ++ parameters) ++ x) /\ d = h_digest h (absorbed st) 168.
Proof.
  intros E P. unfold passcrypt in E. rewrite P in E. cbn [bind] in E. unfold work_memory_prover in E.
  destruct (negb _); [discriminate|]. apply Ok_inj in E. apply pair_equal_spec in E as [E1 E2]. split; [|subst d st; reflexivity].
  subst st. fold (start parameters). change (grows (start parameters) (scans h (s_cpu s) (passes h (row_size cf s) (total_size cf s) (allocate_ram cf h s (start parameters))))).
  eapply grows_trans; [apply grows_fill|]. apply grows_trans with (passes h (row_size cf s) (total_size cf s) (allocate_ram cf h s (start parameters))).
  - unfold passes. apply grows_fold. intros c x. apply grows_fold. intros r y. apply grows_step.
  - unfold scans. apply grows_fold. intros i x. eapply grows_trans; [apply grows_write|apply grows_update].
Qed.
Lemma hash_bytes_query c p n k d : (n <> 0)%N -> hash_bytes h c p (Some n) k = Ok d -> exists a, hash_bytes_absorbed h c p (Some n) k = Ok a /\ d = h_digest h a n.
Proof.
  intros N E. unfold hash_bytes in E. apply bind_ok in E as (a & A & E). exists a. split; [exact A|].
  unfold truthy_size, call_digest in E. replace (n =? 0)%N with false in E by lia. rewrite (proj1 HX) in E. now apply Ok_inj in E.
Qed.
Lemma parameters_query s p : hash_session_parameters cf domain h s = Ok p ->
  exists a, parameters_absorbed cf domain h s = Ok a /\ p = h_digest h a 336.
Proof.
  intros E. unfold hash_session_parameters in E. apply bind_ok in E as (l & L & E). apply hash_bytes_query in E as (a & A & ->); [|lia].
  exists a. split; [|reflexivity]. unfold parameters_absorbed. rewrite L. exact A.
Qed.

(** ** Spawning *)
Lemma spawn_all_ok make l : forall r ss, spawn_all make l = (r, ss) ->
  (length ss <= length l)%nat /\ (r = Ok tt -> Forall2 (fun c s => make c = Ok s) l ss) /\ (forall s, In s ss -> exists c, In c l /\ make c = Ok s).
Proof.
  induction l as [|c l IH]; intros r ss E; cbn in E.
  - apply pair_equal_spec in E as [<- <-]. split; [cbn; lia|]. split; [constructor|]. intros s [].
  - destruct (make c) as [s|e] eqn:M.
    + destruct (spawn_all make l) as [r' ss'] eqn:S. apply pair_equal_spec in E as [<- <-]. destruct (IH _ _ eq_refl) as (L & F & I).
      split; [cbn; lia|]. split; [intros R; constructor; auto|]. intros s' [<-|In']; [exists c; split; [now left|exact M]|].
      destruct (I s' In') as (c' & C1 & C2). exists c'. split; [now right|exact C2].
    + apply pair_equal_spec in E as [<- <-]. split; [cbn; lia|]. split; [discriminate|]. intros s [].
Qed.
Lemma range1 n : range0 n 1 = upto n.
Proof.
  unfold range0, upto. rewrite Z.div_1_r. replace (n + 1 - 1) with n by ring. apply map_ext. intros a. ring.
Qed.
Lemma make_session_ok passphrase salt aad mb cpu cores tag_size s : make_session cf passphrase salt aad mb cpu cores tag_size = Ok s ->
  in_limits cf mb cpu cores tag_size (zlen salt) /\ s = {| s_passphrase := passphrase; s_salt := salt; s_aad := aad; s_mb := mb; s_cpu := cpu; s_cores := cores; s_tag_size := tag_size |}.
Proof.
  intros E. unfold make_session in E. apply bind_ok in E as (u & _ & E). apply bind_ok in E as ([] & V & E). apply validate_ok in V. apply Ok_inj in E. auto.
Qed.
Lemma core_session_ok passphrase salt aad pepper mb cpu cores tag_size c s : core_session cf passphrase salt aad pepper mb cpu cores tag_size c = Ok s ->
  fits s /\ s_mb s = core_mb mb cores /\ s_cpu s = cpu /\ s_cores s = cores /\ s_tag_size s = tag_size /\ s_passphrase s = passphrase /\ s_salt s = salt /\
  exists blob total_mb, z_to_bytes 8 BigEndian c = Ok blob /\ z_to_bytes INT_BYTES BigEndian mb = Ok total_mb /\ canonical_pack [pepper; aad; blob; total_mb] 1 [x00] INT_BYTES = Ok (s_aad s).
Proof.
  intros E. unfold core_session in E. apply bind_ok in E as (t & T & E). apply bind_ok in E as (b & B & E). apply bind_ok in E as (a & A & E).
  apply make_session_ok in E as (L & ->). unfold fits. cbn. repeat (split; [first [assumption|reflexivity]|]). exists b, t. auto.
Qed.

Lemma new_sessions pepper passphrase salt aad mb cpu cores tag_size :
  snd (new cf domain kdf_salt h pepper passphrase salt aad mb cpu cores tag_size) = snd (spawn cf passphrase salt aad pepper mb cpu cores tag_size).
Proof. unfold new. now destruct (spawn cf passphrase salt aad pepper mb cpu cores tag_size). Qed.
Lemma new_ok pepper passphrase salt aad mb cpu cores tag_size t ss :
  new cf domain kdf_salt h pepper passphrase salt aad mb cpu cores tag_size = (Ok t, ss) ->
  Forall2 (fun c s => core_session cf passphrase salt aad pepper mb cpu cores tag_size c = Ok s) (upto cores) ss /\
  exists results first, mapM (fun s => x <- passcrypt cf domain kdf_salt h s ;; Ok (fst x)) ss = Ok results /\ hd_error results = Some first /\
    hash_bytes h results [x00] (Some (Z.to_N tag_size)) (Some first) = Ok t.
Proof.
  intros E. unfold new in E. destruct (spawn cf passphrase salt aad pepper mb cpu cores tag_size) as [r ss'] eqn:S.
  apply pair_equal_spec in E as [E <-]. apply bind_ok in E as ([] & -> & E). apply bind_ok in E as (rs & R & E).
  unfold spawn in S. rewrite range1 in S. apply spawn_all_ok in S as (_ & F & _). split; [now apply F|].
  destruct rs as [|first rs]; [discriminate|]. exists (first :: rs), first. auto.
Qed.

(** The size of the workers. *)
Lemma core_mb_exact mb cores : 1 <= mb <= 2 ^ 30 -> 1 <= cores <= 2 ^ 30 -> core_mb mb cores = (mb + cores - 1) / cores.
Proof. intros M C. unfold core_mb. apply ceil_truediv_exact; lia. Qed.
Lemma memory_bounds mb cpu ss : Forall (fun s => fits s /\ s_mb s = mb /\ s_cpu s = cpu) ss ->
  Z.of_nat (length ss) * (B_TO_MB_RATIO * mb) <= memory cf ss <= Z.of_nat (length ss) * (B_TO_MB_RATIO * mb + 336 * Z.max 1 (cpu / CPU_TO_DIGEST_PAIRS_PER_ROW_RATIO cf)).
Proof.
  induction 1 as [|s ss (F & M & C) _ IH]; [cbn; lia|]. unfold memory in *. cbn [map fold_right length].
  pose proof (total_bounds s F) as B. unfold row_size, rounds in B. rewrite M, C in B. rewrite Nat2Z.inj_succ. nia.
Qed.
End Whole.

(** ** What the tag binds *)
Lemma mapM_hd {A B} (f : A -> result B) a l ys : mapM f (a :: l) = Ok ys -> exists y ys', ys = y :: ys' /\ f a = Ok y.
Proof. cbn. intros E. apply bind_ok in E as (y & Y & E). apply bind_ok in E as (ys' & _ & E). apply Ok_inj in E. exists y, ys'. auto. Qed.
Lemma upto_cons n : 1 <= n -> exists l, upto n = 0 :: l.
Proof. intros N. unfold upto. destruct (Z.to_nat n) as [|k] eqn:E; [lia|]. cbn [seq map]. eexists. reflexivity. Qed.

Lemma framed_length w items body : framed w items body -> blen body = (fold_right N.add 0 (map (fun i => w + blen i) items))%N.
Proof. induction 1; cbn [map fold_right]; [reflexivity|]. rewrite !blen_app. lia. Qed.
Lemma pack1_length items x : canonical_pack items 1 [x00] INT_BYTES = Ok x -> blen x = (26 + fold_right N.add 0 (map (fun i => 8 + blen i) items) + 8)%N.
Proof.
  intros E. apply canonical_pack_layout in E as (p & k & blob & P & _ & (s & count & body & _ & CL & _ & F & ->) & BL & _ & K & _).
  apply framed_length in F. cbn [map fold_right] in F. assert (k = O) as -> by lia. cbn [repeat]. rewrite app_nil_r, blen_cons, blen_app, F, CL, BL.
  change (blen [p]) with 1%N. unfold INT_BYTES. lia.
Qed.
Lemma z_to_bytes_len w n x : z_to_bytes w BigEndian n = Ok x -> blen x = w.
Proof. intros E. unfold z_to_bytes in E. destruct (n <? 0); [discriminate|]. eapply to_bytes_be_len; eauto. Qed.
Lemma z_to_bytes_inj w a b x : z_to_bytes w BigEndian a = Ok x -> z_to_bytes w BigEndian b = Ok x -> a = b.
Proof.
  unfold z_to_bytes. destruct (Z.ltb_spec a 0); [discriminate|]. destruct (Z.ltb_spec b 0); [discriminate|].
  intros A B. apply to_bytes_be_int in A, B. lia.
Qed.

Section Binding.
Variable cf : config.
Hypothesis sc : sound_config cf.
Variables domain kdf_salt : bytes.
Variable h : hasher.
Hypothesis HX : xof h.
Hypothesis HB : (h_block_size h < 2 ^ 56)%N.

Definition first_key (passphrase salt : bytes) (core_aad : bytes) : bytes := passphrase ++ salt ++ core_aad.

Definition comparable_sessions (s1 s2 : session) : Prop :=
  keys_of_same_blocks (h_block_size h) (Some (s_passphrase s1 ++ s_salt s1 ++ s_aad s1)) (Some (s_passphrase s2 ++ s_salt s2 ++ s_aad s2)) \/
  (blen (s_salt s1) = blen (s_salt s2) /\ blen (s_aad s1) = blen (s_aad s2)).
Lemma session_bound s1 s2 d1 st1 d2 st2 :
  passcrypt cf domain kdf_salt h s1 = Ok (d1, st1) -> passcrypt cf domain kdf_salt h s2 = Ok (d2, st2) -> d1 = d2 ->
  comparable_sessions s1 s2 ->
  collision h (worker_queries cf domain kdf_salt h s1) (worker_queries cf domain kdf_salt h s2) \/ s1 = s2.
Proof.
  intros E1 E2 D K. destruct (passcrypt_ok _ _ _ _ _ _ _ E1) as (p1 & P1). destruct (passcrypt_ok _ _ _ _ _ _ _ E2) as (p2 & P2).
  destruct (passcrypt_grows _ _ _ _ _ _ _ _ E1 P1) as ((x1 & X1) & D1). destruct (passcrypt_grows _ _ _ _ _ _ _ _ E2 P2) as ((x2 & X2) & D2).
  destruct (parameters_query _ _ _ HX _ _ P1) as (a1 & A1 & Q1). destruct (parameters_query _ _ _ HX _ _ P2) as (a2 & A2 & Q2).
  assert (worker_queries cf domain kdf_salt h s1 = [(a1, 336%N); (absorbed st1, 168%N)]) as W1 by (unfold worker_queries; now rewrite A1, E1).
  assert (worker_queries cf domain kdf_salt h s2 = [(a2, 336%N); (absorbed st2, 168%N)]) as W2 by (unfold worker_queries; now rewrite A2, E2).
  destruct (list_eq_dec Byte.byte_eq_dec (absorbed st1) (absorbed st2)) as [EA|NA].
  2:{ left. exists (absorbed st1), (absorbed st2), 168%N. rewrite W1, W2. split; [right; now left|]. split; [right; now left|]. split; [exact NA|congruence]. }
  rewrite X1, X2, <- !app_assoc in EA. apply app_inv_head in EA. apply app_inj_len in EA as [EP _].
  2:{ subst p1 p2. pose proof (proj2 HX a1 336%N) as L1. pose proof (proj2 HX a2 336%N) as L2. unfold blen in L1, L2. lia. }
  destruct (list_eq_dec Byte.byte_eq_dec a1 a2) as [Ea|Na].
  2:{ left. exists a1, a2, 336%N. rewrite W1, W2. split; [now left|]. split; [now left|]. split; [exact Na|congruence]. }
  right. subst a2. unfold parameters_absorbed in A1, A2. apply bind_ok in A1 as (l1 & L1 & A1). apply bind_ok in A2 as (l2 & L2 & A2).
  unfold session_parameters in L1, L2.
  apply bind_ok in L1 as (m1 & M1 & L1). apply bind_ok in L1 as (c1 & C1 & L1). apply bind_ok in L1 as (o1 & O1 & L1). apply bind_ok in L1 as (t1 & T1 & L1).
  apply bind_ok in L2 as (m2 & M2 & L2). apply bind_ok in L2 as (c2 & C2 & L2). apply bind_ok in L2 as (o2 & O2 & L2). apply bind_ok in L2 as (t2 & T2 & L2).
  apply Ok_inj in L1. apply Ok_inj in L2.
  assert (l1 = l2 /\ s_passphrase s1 ++ s_salt s1 ++ s_aad s1 = s_passphrase s2 ++ s_salt s2 ++ s_aad s2) as (EL & EK).
  { destruct K as [K|(Ls & La)].
    - destruct (hash_absorbed_inj_blocks _ _ _ _ _ _ _ _ _ _ K HB A1 A2) as (EL & _ & EK & _). split; [exact EL|congruence].
    - assert (K : map blen l1 = map blen l2).
      { subst l1 l2. cbn [map]. rewrite Ls, La. do 4 f_equal.
        rewrite (z_to_bytes_len _ _ _ M1), (z_to_bytes_len _ _ _ M2), (z_to_bytes_len _ _ _ C1), (z_to_bytes_len _ _ _ C2), (z_to_bytes_len _ _ _ O1), (z_to_bytes_len _ _ _ O2), (z_to_bytes_len _ _ _ T1), (z_to_bytes_len _ _ _ T2). reflexivity. }
      destruct (hash_absorbed_inj_items _ _ _ _ _ _ _ _ _ _ K HB A1 A2) as (EL & _ & EK & _). split; [exact EL|congruence]. }
  rewrite <- L1, <- L2 in EL. injection EL as ES EA -> -> -> ->. rewrite ES, EA in EK. apply app_inv_tail in EK.
  destruct s1 as [pw1 sl1 ad1 mb1 cpu1 cores1 ts1], s2 as [pw2 sl2 ad2 mb2 cpu2 cores2 ts2]. cbn in M1, M2, C1, C2, O1, O2, T1, T2, ES, EA, EK. subst.
  rewrite (z_to_bytes_inj _ _ _ _ M1 M2), (z_to_bytes_inj _ _ _ _ C1 C2), (z_to_bytes_inj _ _ _ _ O1 O2), (z_to_bytes_inj _ _ _ _ T1 T2). reflexivity.
Qed.

Theorem tag_bound pepper1 passphrase1 salt1 aad1 mb1 cpu1 cores1 pepper2 passphrase2 salt2 aad2 mb2 cpu2 cores2 tag_size t ss1 ss2 :
  new cf domain kdf_salt h pepper1 passphrase1 salt1 aad1 mb1 cpu1 cores1 tag_size = (Ok t, ss1) ->
  new cf domain kdf_salt h pepper2 passphrase2 salt2 aad2 mb2 cpu2 cores2 tag_size = (Ok t, ss2) ->
  comparable_inputs h pepper1 passphrase1 salt1 aad1 pepper2 passphrase2 salt2 aad2 ->
  collision h (queries cf domain kdf_salt h tag_size ss1) (queries cf domain kdf_salt h tag_size ss2) \/
  ((pepper1, passphrase1, salt1, aad1) = (pepper2, passphrase2, salt2, aad2) /\ (mb1, cpu1, cores1) = (mb2, cpu2, cores2)).
Proof.
  intros E1 E2 K. destruct (new_ok _ _ _ _ _ _ _ _ _ _ _ _ _ _ E1) as (F1 & r1 & f1 & R1 & H1 & T1). destruct (new_ok _ _ _ _ _ _ _ _ _ _ _ _ _ _ E2) as (F2 & r2 & f2 & R2 & H2 & T2).
  assert (forall pepper passphrase salt aad mb cpu cores ss r f,
    Forall2 (fun c s => core_session cf passphrase salt aad pepper mb cpu cores tag_size c = Ok s) (upto cores) ss ->
    mapM (fun s => x <- passcrypt cf domain kdf_salt h s ;; Ok (fst x)) ss = Ok r -> hd_error r = Some f -> 1 <= cores) as CP.
  { intros pepper passphrase salt aad mb cpu cores ss r f F R HD. destruct r; [discriminate|]. destruct ss as [|s ss]; [discriminate R|]. inversion F as [|c0 ? ? ? C]; subst. apply (core_session_ok cf) in C as ((_ & _ & C & _) & _ & _ & CO & _).
    pose proof (sc_cores _ sc). rewrite CO in C. lia. }
  destruct (upto_cons cores1 (CP _ _ _ _ _ _ _ _ _ _ F1 R1 H1)) as (cl1 & UC1). destruct (upto_cons cores2 (CP _ _ _ _ _ _ _ _ _ _ F2 R2 H2)) as (cl2 & UC2). rewrite UC1 in F1. rewrite UC2 in F2.
  destruct ss1 as [|s1 ss1]; [now inversion F1|]. destruct ss2 as [|s2 ss2]; [now inversion F2|].
  assert (core_session cf passphrase1 salt1 aad1 pepper1 mb1 cpu1 cores1 tag_size 0 = Ok s1) as C1 by now inversion F1.
  assert (core_session cf passphrase2 salt2 aad2 pepper2 mb2 cpu2 cores2 tag_size 0 = Ok s2) as C2 by now inversion F2.
  apply (core_session_ok cf) in C1 as (L1 & MB1 & CP1 & CO1 & TS1 & PW1 & SA1 & b1 & m1 & B1 & M1 & A1).
  apply (core_session_ok cf) in C2 as (L2 & MB2 & CP2 & CO2 & TS2 & PW2 & SA2 & b2 & m2 & B2 & M2 & A2).
  assert (Z.to_N tag_size <> 0)%N as TN. { destruct L1 as (_ & _ & _ & TG & _). pose proof (sc_tag _ sc). lia. }
  destruct (hash_bytes_query h HX _ _ _ _ _ TN T1) as (q1 & Q1 & ->). destruct (hash_bytes_query h HX _ _ _ _ _ TN T2) as (q2 & Q2 & DE).
  destruct (mapM_hd _ _ _ _ R1) as (y1 & ys1 & -> & Y1). destruct (mapM_hd _ _ _ _ R2) as (y2 & ys2 & -> & Y2).
  injection H1 as <-. injection H2 as <-.
  apply bind_ok in Y1 as ((d1 & st1) & P1 & Y1). apply bind_ok in Y2 as ((d2 & st2) & P2 & Y2). apply Ok_inj in Y1. apply Ok_inj in Y2. cbn [fst] in Y1, Y2. subst d1 d2.
  destruct (list_eq_dec Byte.byte_eq_dec q1 q2) as [EQ|NQ].
  2:{ left. exists q1, q2, (Z.to_N tag_size). unfold queries, tag_queries. rewrite R1, R2, Q1, Q2.
      split; [apply in_or_app; right; now left|]. split; [apply in_or_app; right; now left|]. split; assumption. }
  subst q2. assert (keys_comparable (Some y1) (Some y2)) as KC.
  { destruct (passcrypt_ok _ _ _ _ _ _ _ P1) as (p1 & PP1). destruct (passcrypt_ok _ _ _ _ _ _ _ P2) as (p2 & PP2).
    destruct (passcrypt_grows _ _ _ _ _ _ _ _ P1 PP1) as (_ & ->). destruct (passcrypt_grows _ _ _ _ _ _ _ _ P2 PP2) as (_ & ->).
    cbn. pose proof (proj2 HX (absorbed st1) 168%N) as X1. pose proof (proj2 HX (absorbed st2) 168%N) as X2. unfold blen in X1, X2. lia. }
  destruct (hash_absorbed_inj _ _ _ _ _ _ _ _ _ _ KC HB Q1 Q2) as (EL & _). injection EL as EY _. 
  assert (comparable_sessions s1 s2) as K'.
  { pose proof (pack1_length _ _ A1) as Q1'. pose proof (pack1_length _ _ A2) as Q2'.
    pose proof (z_to_bytes_len _ _ _ B1). pose proof (z_to_bytes_len _ _ _ B2). pose proof (z_to_bytes_len _ _ _ M1). pose proof (z_to_bytes_len _ _ _ M2).
    cbn [map fold_right] in Q1', Q2'. destruct K as [K|(Ls & La)]; [left|right].
    - cbn. unfold key_blocks. unfold blocks, key_size in K. rewrite !blen_app, PW1, PW2, SA1, SA2. rewrite Q1', Q2'. unfold INT_BYTES in *.
      replace (blen passphrase1 + (blen salt1 + (26 + (8 + blen pepper1 + (8 + blen aad1 + (8 + blen b1 + (8 + blen m1 + 0)))) + 8)))%N with (blen passphrase1 + blen salt1 + (82 + blen pepper1 + blen aad1))%N by lia.
      replace (blen passphrase2 + (blen salt2 + (26 + (8 + blen pepper2 + (8 + blen aad2 + (8 + blen b2 + (8 + blen m2 + 0)))) + 8)))%N with (blen passphrase2 + blen salt2 + (82 + blen pepper2 + blen aad2))%N by lia.
      exact K.
    - rewrite SA1, SA2. split; [exact Ls|lia]. }
  destruct (session_bound _ _ _ _ _ _ P1 P2 EY) as [C|<-].
  - exact K'.
  - left. destruct C as (a & b & n & I1 & I2 & C). exists a, b, n. unfold queries. cbn [flat_map].
    split; [apply in_or_app; left; apply in_or_app; now left|]. split; [apply in_or_app; left; apply in_or_app; now left|]. exact C.
  - right. destruct (canonical_pack_inj _ _ _ _ _ _ _ _ _ A1 A2) as (EI & _). injection EI as EI1 EI2 _ EM. subst m2.
    pose proof (z_to_bytes_inj _ _ _ _ M1 M2). split; congruence.
Qed.
End Binding.

(** ** Verification *)
Section Verify.
Variable cf : config.
Hypothesis sc : sound_config cf.
Variables domain kdf_salt : bytes.
Variable h : hasher.
Hypothesis HX : xof h.

Definition ttl_units (ttl : option Z) : option Z :=
  match ttl with None => None | Some t => if t =? 0 then Some 0 else Some (floor_mul t (S_TO_TIME_UNIT_RATIO cf)) end.
Lemma ttl_test now ts ttl : test_timestamp (pc_clock cf) now ts (ttl_units ttl) BigEndian = Ok tt <-> fresh_enough cf now ts ttl.
Proof.
  unfold test_timestamp, ttl_units, fresh_enough, delta, read_timestamp. destruct ttl as [t|]; [|tauto].
  destruct (t =? 0) eqn:E.
  - match goal with |- context [?a >? ?b] => destruct (a >? b) eqn:Q end; split; try discriminate; try reflexivity; unfold lifetime; rewrite E; lia.
  - match goal with |- context [?a >? ?b] => destruct (a >? b) eqn:Q end; split; try discriminate; try reflexivity; unfold lifetime; rewrite E; lia.
Qed.
Definition admitted (x : bytes) (ttl : option Z) (ma ca coa : range) (now : Z) (p : phash) : Prop :=
  import_hash cf x = Ok p /\ test_timestamp (pc_clock cf) now (timestamp p) (ttl_units ttl) BigEndian = Ok tt /\
  in_allowed_ranges p ma ca coa = Ok tt /\ in_limits cf (mb p) (cpu p) (cores p) (zlen (tag p)) DEFAULT_SCHEMA_SALT_SIZE.
Lemma verify_admitted pepper x passphrase aad ttl ma ca coa now p : admitted x ttl ma ca coa now p ->
  verify cf domain kdf_salt h pepper x passphrase aad ttl ma ca coa now =
  let '(r, ss) := new cf domain kdf_salt h pepper passphrase (salt p) (timestamp p ++ aad) (mb p) (cpu p) (cores p) (zlen (tag p)) in
    (untrusted <- r ;; if bytes_eqb untrusted (tag p) then Ok tt else Err InvalidPassphrase, ss).
Proof.
  intros (I & T & R & L). unfold verify. rewrite I. cbn [bind]. unfold ttl_units in T. rewrite T. cbn [bind]. rewrite R. cbn [bind]. apply validate_ok in L. rewrite L. reflexivity.
Qed.
Lemma verify_inv pepper x passphrase aad ttl ma ca coa now r ss : verify cf domain kdf_salt h pepper x passphrase aad ttl ma ca coa now = (r, ss) ->
  (exists p, admitted x ttl ma ca coa now p) \/ (ss = [] /\ exists e, r = Err e).
Proof.
  intros E. unfold verify in E.
  match type of E with (match ?c with _ => _ end) = _ => destruct c as [p|e] eqn:C end.
  - left. apply bind_ok in C as (p' & I & C). apply bind_ok in C as ([] & T & C). apply bind_ok in C as ([] & R & C). apply bind_ok in C as ([] & V & C).
    apply Ok_inj in C. subst p'. exists p. apply validate_ok in V. repeat split; try assumption; apply V.
  - right. apply pair_equal_spec in E as [<- <-]. split; [reflexivity|]. now exists e.
Qed.
Lemma allowed_inv p ma ca coa : in_allowed_ranges p ma ca coa = Ok tt <-> in_range (mb p) ma = true /\ in_range (cpu p) ca = true /\ in_range (cores p) coa = true.
Proof.
  unfold in_allowed_ranges. destruct (in_range (mb p) ma), (in_range (cpu p) ca), (in_range (cores p) coa); cbn; split; try discriminate; try reflexivity; intuition discriminate.
Qed.
End Verify.

(** ** Everything succeeds on valid inputs *)
Lemma hash_bytes_total h c p n k : xof h -> (0 < h_block_size h < 2 ^ 56)%N -> (0 < n < 2 ^ 64)%N -> k <> [] -> (blen k < 2 ^ 64)%N ->
  Forall (fun i => blen i < 2 ^ 64)%N c -> (blen c < 2 ^ 60)%N -> exists d, hash_bytes h c [p] (Some n) (Some k) = Ok d /\ blen d = n.
Proof.
  intros X B N K1 K2 F L. unfold hash_bytes, hash_bytes_absorbed.
  destruct (encode_key_total k (h_block_size h) p K1 ltac:(lia) K2) as (pre & ->). cbn [bind].
  assert (size_or (Some n) (h_digest_size h) = n) as -> by (unfold size_or; now replace (n =? 0)%N with false by lia).
  rewrite to_bytes_be_fit by (change (256 ^ INT_BYTES)%N with (2 ^ 64)%N; lia). cbn [bind].
  destruct (canonical_pack_total (be_enc (N.to_nat INT_BYTES) n :: c) (h_block_size h) p INT_BYTES) as (pk & ->).
  { unfold CanonSpec.fits. change (256 ^ INT_BYTES)%N with (2 ^ 64)%N. split; [unfold INT_BYTES; lia|]. split; [lia|]. split; [rewrite blen_cons; clear - L; change (@blen (list byte) c) with (@blen bytes c) in *; lia|].
    constructor; [rewrite blen_be_enc; vm_compute; reflexivity|exact F]. }
  cbn [bind]. unfold truthy_size, call_digest. replace (n =? 0)%N with false by lia. rewrite (proj1 X). eexists. split; [reflexivity|]. apply (proj2 X).
Qed.

Section Total.
Variable cf : config.
Hypothesis sc : sound_config cf.
Variables domain kdf_salt : bytes.
Variable h : hasher.
Hypothesis HX : xof h.
Hypothesis HB : (0 < h_block_size h < 2 ^ 56)%N.
Variables pepper passphrase : bytes.
Hypothesis pad1 : length (PASSCRYPT_PAD cf) = 1%nat.
Hypothesis dsmall : (blen domain < 2 ^ 60)%N.
Hypothesis msmall : (blen (PACKED_METADATA cf) < 2 ^ 60)%N.
Hypothesis psmall : (blen pepper < 2 ^ 60)%N.
Hypothesis ppsmall : (blen passphrase < 2 ^ 60)%N.
Hypothesis pplong : MIN_PASSPHRASE_BYTES cf <= zlen passphrase.

Lemma core_session_total salt aad mb cpu cores tag_size c : (blen aad < 2 ^ 61)%N -> in_limits cf mb cpu cores tag_size (zlen salt) ->
  MIN_MB cf <= core_mb mb cores -> 0 <= c < cores ->
  exists s, core_session cf passphrase salt aad pepper mb cpu cores tag_size c = Ok s.
Proof.
  intros A L M C. unfold core_session. pose proof (sc_mb _ sc). pose proof (sc_cores _ sc). pose proof L as (L1 & L2 & L3 & L4 & L5).
  destruct (z_to_bytes_field INT_BYTES mb) as (t & -> & T & _); [unfold INT_BYTES; lia|]. cbn [bind].
  destruct (z_to_bytes_field 8 c) as (b & -> & B & _); [lia|]. cbn [bind].
  match goal with |- context [canonical_pack ?i ?n ?z ?w] => assert (exists pk, canonical_pack i n z w = Ok pk) as (pk & ->) end.
  { apply canonical_pack_total. unfold CanonSpec.fits. change (256 ^ INT_BYTES)%N with (2 ^ 64)%N. split; [unfold INT_BYTES; lia|]. split; [lia|]. split; [vm_compute; reflexivity|].
    repeat constructor; try lia; rewrite ?B, ?T; unfold INT_BYTES; lia. }
  cbn [bind]. unfold make_session, validate_inputs. replace (MIN_PASSPHRASE_BYTES cf <=? zlen passphrase) with true by lia. cbn [negb].
  replace (within (MIN_SALT_SIZE cf) (MAX_SALT_SIZE cf) (zlen salt)) with true by (unfold within; lia). cbn [negb bind].
  assert (in_limits cf (core_mb mb cores) cpu cores tag_size (zlen salt)) as LI.
  { split; [|auto]. split; [exact M|]. rewrite core_mb_exact by lia. pose proof (ceil_bounds mb cores ltac:(lia)).
    assert ((mb + cores - 1) / cores <= mb); [|lia]. apply Z.div_le_upper_bound; nia. }
  apply validate_ok in LI. rewrite LI. cbn [bind]. eauto.
Qed.
Lemma parameters_total s : valid_session cf s -> s_passphrase s = passphrase -> passphrase <> [] -> s_tag_size s < 2 ^ 63 -> (blen (s_aad s) < 2 ^ 63)%N ->
  exists p, hash_session_parameters cf domain h s = Ok p.
Proof.
  intros F P NE T A. pose proof (sc_mb _ sc). pose proof (sc_cores _ sc). pose proof (sc_cpu _ sc). pose proof (sc_salt _ sc). pose proof (sc_tag _ sc). pose proof F as (L1 & L2 & L3 & L4 & L5).
  assert (blen (s_salt s) < 2 ^ 62)%N as SB.
  { unfold zlen in L5. destruct (N.eq_dec (SALT_SIZE_BYTES cf) 0) as [E0|E0]; [rewrite E0 in *; cbn in *; lia|].
    destruct (Z_lt_le_dec (Z.of_N (SALT_SIZE_BYTES cf)) 8) as [Q|Q].
    - assert (256 ^ Z.of_N (SALT_SIZE_BYTES cf) <= 256 ^ 7) by (apply Z.pow_le_mono_r; lia). lia.
    - assert (256 ^ 8 <= 256 ^ Z.of_N (SALT_SIZE_BYTES cf)) by (apply Z.pow_le_mono_r; lia). lia. }
  unfold hash_session_parameters, session_parameters.
  destruct (z_to_bytes_field INT_BYTES (s_mb s)) as (b1 & -> & B1 & _); [unfold INT_BYTES; lia|].
  destruct (z_to_bytes_field INT_BYTES (s_cpu s)) as (b2 & -> & B2 & _); [unfold INT_BYTES; lia|].
  destruct (z_to_bytes_field INT_BYTES (s_cores s)) as (b3 & -> & B3 & _); [unfold INT_BYTES; lia|].
  destruct (z_to_bytes_field INT_BYTES (s_tag_size s)) as (b4 & -> & B4 & _); [unfold INT_BYTES; lia|]. cbn [bind].
  destruct (PASSCRYPT_PAD cf) as [|pd [|]]; try discriminate pad1.
  pose proof (hash_bytes_total h [domain; PACKED_METADATA cf; s_salt s; s_aad s; b1; b2; b3; b4] pd 336 (s_passphrase s ++ s_salt s ++ s_aad s) HX HB) as HT.
  match type of HT with _ -> _ -> _ -> _ -> _ -> ?C => assert C as (d & D & _); [apply HT|] end.
  - lia.
  - rewrite P. destruct passphrase; [contradiction|discriminate].
  - rewrite !blen_app, P. lia.
  - repeat constructor; rewrite ?B1, ?B2, ?B3, ?B4; unfold INT_BYTES; lia.
  - vm_compute. reflexivity.
  - exists d. exact D.
Qed.
Lemma mapM_total {A B} (f : A -> result B) (P : B -> Prop) l : (forall x, In x l -> exists y, f x = Ok y /\ P y) -> exists ys, mapM f l = Ok ys /\ Forall P ys.
Proof.
  induction l as [|x l IH]; intros H; [exists []; auto|]. cbn. destruct (H x (or_introl eq_refl)) as (y & -> & PY). destruct IH as (ys & -> & F); [intros; apply H; now right|].
  cbn. exists (y :: ys). auto.
Qed.
Lemma spawn_all_total make l : (forall c, In c l -> exists s, make c = Ok s) -> exists ss, spawn_all make l = (Ok tt, ss) /\ length ss = length l.
Proof.
  induction l as [|c l IH]; intros H; [now exists []|]. cbn. destruct (H c (or_introl eq_refl)) as (s & ->). destruct IH as (ss & -> & L); [intros; apply H; now right|].
  exists (s :: ss). cbn. auto.
Qed.
Lemma mapM_total' {A B} (f : A -> result B) (P : B -> Prop) l : (forall x, In x l -> exists y, f x = Ok y /\ P y) -> exists ys, mapM f l = Ok ys /\ Forall P ys /\ length ys = length l.
Proof.
  intros H. destruct (mapM_total f P l H) as (ys & E & F). exists ys. split; [exact E|]. split; [exact F|]. now apply mapM_ok_length in E.
Qed.
Lemma new_total salt aad mb cpu cores tag_size : (blen aad < 2 ^ 61)%N -> in_limits cf mb cpu cores tag_size (zlen salt) -> MIN_MB cf <= core_mb mb cores ->
  passphrase <> [] -> tag_size < 2 ^ 63 ->
  exists t ss, new cf domain kdf_salt h pepper passphrase salt aad mb cpu cores tag_size = (Ok t, ss) /\ zlen t = tag_size /\ Z.of_nat (length ss) = cores.
Proof.
  intros A L M NE T. pose proof (sc_cores _ sc). pose proof (sc_tag _ sc). pose proof L as (L1 & L2 & L3 & L4 & L5). unfold new, spawn. rewrite range1.
  destruct (spawn_all_total (core_session cf passphrase salt aad pepper mb cpu cores tag_size) (upto cores)) as (ss & SP & LS).
  { intros c I. apply in_upto in I. now apply core_session_total. }
  rewrite upto_length in LS. rewrite SP. cbn [bind]. pose proof (spawn_all_ok _ _ _ _ SP) as (_ & _ & SI).
  destruct (mapM_total' (fun s => x <- passcrypt cf domain kdf_salt h s ;; Ok (fst x)) (fun y => zlen y = 168) ss) as (rs & -> & RF & RL).
  { intros s I. destruct (SI s I) as (c & IC & CS). apply (core_session_ok cf) in CS as (F & _ & _ & _ & TS & PW & _ & b & m & B & MM & AA).
    destruct (parameters_total s F PW NE) as (p & PP); [lia| |].
    - apply pack1_length in AA. cbn [map fold_right] in AA. apply z_to_bytes_len in B, MM. rewrite B, MM in AA. unfold INT_BYTES in AA. lia.
    - destruct (passcrypt_runs cf sc domain kdf_salt h HX s p F PP) as (d & st & al & -> & D & _). exists d. auto. }
  cbn [bind]. destruct rs as [|r rs]; [exfalso; cbn in RL; lia|].
  assert (zlen r = 168) as RZ by now inversion RF.
  pose proof (hash_bytes_total h (r :: rs) x00 (Z.to_N tag_size) r HX HB) as HT.
  match type of HT with _ -> _ -> _ -> _ -> _ -> ?C => assert C as (t & D & TL); [apply HT|] end.
  - lia.
  - intros ->. discriminate RZ.
  - unfold zlen in RZ. lia.
  - eapply Forall_impl; [|exact RF]. intros y Y. unfold zlen in Y. lia.
  - clear - RL LS L3 H. unfold blen. cbn [length] in *. change (@length bytes rs) with (@length (list byte) rs) in *. lia.
  - exists t, ss. split; [now f_equal|]. split; [unfold zlen; lia|lia].
Qed.
End Total.

Lemma Forall2_len {A B} (R : A -> B -> Prop) l m : Forall2 R l m -> length l = length m.
Proof. induction 1; cbn; congruence. Qed.
