From Verif Require Import Base BaseFacts ClockModel.
Local Open Scope Z_scope.

Lemma rhe_bounds : forall a b, 0 <= a -> 0 < b ->
  a / b <= round_half_even a b <= a / b + 1 /\
  (round_half_even a b = a / b + 1 -> b <= 2 * (a mod b)) /\
  (round_half_even a b = a / b -> 2 * (a mod b) <= b).
Proof.
  intros a b Ha Hb. unfold round_half_even.
  pose proof (Z.mod_pos_bound a b Hb).
  destruct (2 * (a mod b) <? b) eqn:E1; [lia|].
  destruct (b <? 2 * (a mod b)) eqn:E2; [lia|].
  destruct (Z.even (a / b)); lia.
Qed.

Lemma rhe_mono : forall a a' b, 0 <= a <= a' -> 0 < b ->
  round_half_even a b <= round_half_even a' b.
Proof.
  intros a a' b Ha Hb.
  destruct (rhe_bounds a b ltac:(lia) Hb) as (B1 & B2 & B3).
  destruct (rhe_bounds a' b ltac:(lia) Hb) as (C1 & C2 & C3).
  pose proof (Z.div_le_mono a a' b Hb ltac:(lia)).
  destruct (Z.eq_dec (a / b) (a' / b)) as [E|N]; [|lia].
  destruct (Z.eq_dec (round_half_even a b) (a / b)) as [|N1]; [lia|].
  assert (A1 : round_half_even a b = a / b + 1) by lia.
  destruct (Z.eq_dec (round_half_even a' b) (a' / b)) as [E2|]; [|lia].
  specialize (B2 A1). specialize (C3 E2).
  pose proof (Z.div_mod a b ltac:(lia)). pose proof (Z.div_mod a' b ltac:(lia)).
  assert (a mod b = a' mod b) by nia.
  assert (a = a') by nia. subst a'. lia.
Qed.

Lemma rhe_exact : forall q b, 0 <= q -> 0 < b -> round_half_even (q * b) b = q.
Proof.
  intros q b Hq Hb. unfold round_half_even. rewrite Z.div_mul, Z.mod_mul by lia.
  replace (2 * 0 <? b) with true by lia. reflexivity.
Qed.

(** The exponent brackets the quotient. *)
Lemma float_exponent_spec : forall a b, 0 < b -> b <= a ->
  let e := float_exponent a b in
  -52 <= e /\ b * 2 ^ (e + 52) <= a < b * 2 ^ (e + 53).
Proof.
  intros a b Hb Hab. cbv zeta. unfold float_exponent.
  replace (a <? b) with false by lia.
  assert (1 <= a / b) by (apply Z.div_le_lower_bound; lia).
  pose proof (Z.log2_nonneg (a / b)).
  pose proof (Z.log2_spec (a / b) ltac:(lia)) as [L U].
  replace (Z.log2 (a / b) - 52 + 52) with (Z.log2 (a / b)) by lia.
  replace (Z.log2 (a / b) - 52 + 53) with (Z.succ (Z.log2 (a / b))) by lia.
  split; [lia|].
  pose proof (Z.div_mod a b ltac:(lia)). pose proof (Z.mod_pos_bound a b Hb).
  set (P := 2 ^ Z.log2 (a / b)) in *. set (Q := 2 ^ Z.succ (Z.log2 (a / b))) in *.
  split; nia.
Qed.

(** Bounds for the significand. *)
Lemma rhe_lower : forall a c lo, 0 < c -> 0 <= lo -> lo * c <= a -> lo <= round_half_even a c.
Proof.
  intros a c lo Hc Hlo L. rewrite <- (rhe_exact lo c Hlo Hc). apply rhe_mono; [nia|lia].
Qed.
Lemma rhe_upper : forall a c hi, 0 <= a -> 0 < c -> a <= hi * c -> round_half_even a c <= hi.
Proof.
  intros a c hi Ha Hc U. assert (0 <= hi) by nia.
  rewrite <- (rhe_exact hi c) by lia. apply rhe_mono; lia.
Qed.

Lemma pow_split : forall x y, 0 <= x -> 0 <= y -> 2 ^ (x + y) = 2 ^ x * 2 ^ y.
Proof. intros. apply Z.pow_add_r; assumption. Qed.

(** If a quotient is at least a power of two, so is the rounded one, and
    likewise from above. *)
Lemma trunc_ge_pow : forall a b k, 0 < b -> 0 <= k -> b * 2 ^ k <= a ->
  2 ^ k <= int_truediv_nonneg a b.
Proof.
  intros a b k Hb Hk H.
  assert (P : 0 < 2 ^ k) by (apply Z.pow_pos_nonneg; lia).
  assert (Hab : b <= a) by nia.
  destruct (float_exponent_spec a b Hb Hab) as (E0 & L & U).
  unfold int_truediv_nonneg. set (e := float_exponent a b) in *.
  assert (Ke : k < e + 53).
  { destruct (Z_lt_le_dec k (e + 53)) as [|G]; [assumption|exfalso].
    assert (2 ^ (e + 53) <= 2 ^ k) by (apply Z.pow_le_mono_r; lia). nia. }
  destruct (0 <=? e) eqn:Ee.
  - assert (Pe : 0 < 2 ^ e) by (apply Z.pow_pos_nonneg; lia).
    destruct (Z_le_gt_dec e k).
    + replace k with ((k - e) + e) in H |- * by lia. rewrite pow_split in H |- * by lia.
      apply Z.mul_le_mono_nonneg_r; [lia|].
      assert (0 < 2 ^ (k - e)) by (apply Z.pow_pos_nonneg; lia).
      apply rhe_lower; nia.
    + assert (2 ^ k <= 2 ^ e) by (apply Z.pow_le_mono_r; lia).
      assert (1 <= round_half_even a (b * 2 ^ e)); [|nia].
      rewrite pow_split in L by lia. 
      assert (1 <= 2 ^ 52) by lia.
      apply rhe_lower; nia.
  - assert (Pe : 0 < 2 ^ (- e)) by (apply Z.pow_pos_nonneg; lia).
    apply Z.div_le_lower_bound; [lia|].
    apply rhe_lower; nia.
Qed.

Lemma trunc_le_pow : forall a b k, 0 <= a -> 0 < b -> 0 <= k -> a <= b * 2 ^ k ->
  int_truediv_nonneg a b <= 2 ^ k.
Proof.
  intros a b k Ha Hb Hk H.
  assert (P : 0 < 2 ^ k) by (apply Z.pow_pos_nonneg; lia).
  unfold int_truediv_nonneg. set (e := float_exponent a b).
  destruct (0 <=? e) eqn:Ee.
  - assert (Hab : b <= a).
    { unfold e, float_exponent in Ee. destruct (a <? b) eqn:X; lia. }
    destruct (float_exponent_spec a b Hb Hab) as (E0 & L & U). fold e in L, U, E0.
    assert (Pe : 0 < 2 ^ e) by (apply Z.pow_pos_nonneg; lia).
    assert (e + 52 <= k).
    { destruct (Z_le_gt_dec (e + 52) k) as [|G]; [assumption|exfalso].
      assert (2 ^ k * 2 <= 2 ^ (e + 52)).
      { change 2 with (2 ^ 1) at 2. rewrite <- pow_split by lia. apply Z.pow_le_mono_r; lia. }
      nia. }
    replace k with ((k - e) + e) in H |- * by lia. rewrite pow_split in H |- * by lia.
    apply Z.mul_le_mono_nonneg_r; [lia|].
    apply rhe_upper; nia.
  - assert (Pe : 0 < 2 ^ (- e)) by (apply Z.pow_pos_nonneg; lia).
    apply Z.div_le_upper_bound; [lia|].
    apply rhe_upper; nia.
Qed.

Lemma float_exponent_mono : forall a a' b, 0 < b -> 0 <= a <= a' ->
  float_exponent a b <= float_exponent a' b.
Proof.
  intros a a' b Hb H. unfold float_exponent.
  destruct (a <? b) eqn:E1; destruct (a' <? b) eqn:E2; try lia.
  - pose proof (Z.log2_nonneg (a' / b)). lia.
  - assert (Z.log2 (a / b) <= Z.log2 (a' / b)); [|lia].
    apply Z.log2_le_mono. apply Z.div_le_mono; lia.
Qed.

Lemma int_truediv_nonneg_mono : forall a a' b, 0 < b -> 0 <= a <= a' ->
  int_truediv_nonneg a b <= int_truediv_nonneg a' b.
Proof.
  intros a a' b Hb H.
  pose proof (float_exponent_mono a a' b Hb H) as M.
  destruct (Z.eq_dec (float_exponent a b) (float_exponent a' b)) as [E|N].
  - unfold int_truediv_nonneg. rewrite E. set (e := float_exponent a' b).
    destruct (0 <=? e) eqn:Ee.
    + assert (Pe : 0 < 2 ^ e) by (apply Z.pow_pos_nonneg; lia).
      apply Z.mul_le_mono_nonneg_r; [lia|]. apply rhe_mono; [lia|nia].
    + assert (Pe : 0 < 2 ^ (- e)) by (apply Z.pow_pos_nonneg; lia).
      apply Z.div_le_mono; [lia|]. apply rhe_mono; [nia|lia].
  - (* a power of two separates the quotients *)
    assert (Hab' : b <= a').
    { unfold float_exponent in *. destruct (a' <? b) eqn:X; [|lia].
      destruct (a <? b) eqn:Y; lia. }
    destruct (float_exponent_spec a' b Hb Hab') as (E0 & L & U).
    set (k := float_exponent a' b + 52) in *.
    apply Z.le_trans with (2 ^ k).
    + apply trunc_le_pow; [lia|lia|lia|].
      destruct (Z_lt_le_dec a b) as [Lt|Ge].
      * assert (2 ^ 0 <= 2 ^ k) by (apply Z.pow_le_mono_r; lia). change (2 ^ 0) with 1 in *. nia.
      * destruct (float_exponent_spec a b Hb Ge) as (F0 & FL & FU).
        assert (2 ^ (float_exponent a b + 53) <= 2 ^ k) by (apply Z.pow_le_mono_r; lia). nia.
    + apply trunc_ge_pow; lia.
Qed.

Lemma int_truediv_nonneg_pos : forall a b, 0 <= a -> 0 < b -> 0 <= int_truediv_nonneg a b.
Proof.
  intros a b Ha Hb. unfold int_truediv_nonneg. set (e := float_exponent a b).
  destruct (0 <=? e) eqn:Ee.
  - assert (Pe : 0 < 2 ^ e) by (apply Z.pow_pos_nonneg; lia).
    destruct (rhe_bounds a (b * 2 ^ e) Ha ltac:(nia)) as (B & _).
    pose proof (Z.div_pos a (b * 2 ^ e) Ha ltac:(nia)). nia.
  - assert (Pe : 0 < 2 ^ (- e)) by (apply Z.pow_pos_nonneg; lia).
    apply Z.div_pos; [|lia].
    destruct (rhe_bounds (a * 2 ^ (- e)) b ltac:(nia) Hb) as (B & _).
    pose proof (Z.div_pos (a * 2 ^ (- e)) b ltac:(nia) Hb). lia.
Qed.

Lemma int_truediv_mono : forall a a' b, 0 < b -> a <= a' -> int_truediv a b <= int_truediv a' b.
Proof.
  intros a a' b Hb H. unfold int_truediv.
  destruct (a <? 0) eqn:E1; destruct (a' <? 0) eqn:E2; try lia.
  - pose proof (int_truediv_nonneg_mono (- a') (- a) b Hb ltac:(lia)). lia.
  - pose proof (int_truediv_nonneg_pos (- a) b ltac:(lia) Hb).
    pose proof (int_truediv_nonneg_pos a' b ltac:(lia) Hb). lia.
  - apply int_truediv_nonneg_mono; lia.
Qed.

(** Below 2^53 whole numbers of units are represented exactly. *)
Lemma int_truediv_exact : forall n b, 0 < b -> 0 <= n <= 2 ^ 53 ->
  int_truediv_nonneg (n * b) b = n.
Proof.
  intros n b Hb Hn. unfold int_truediv_nonneg.
  destruct (Z_lt_le_dec (n * b) b) as [L|G].
  - assert (n = 0) by nia. subst n. unfold float_exponent.
    replace (0 * b <? b) with true by lia. cbn [Z.leb Z.compare Z.opp].
    replace (0 * b * 2 ^ 53) with (0 * b) by ring. rewrite rhe_exact by lia. reflexivity.
  - destruct (float_exponent_spec (n * b) b Hb G) as (E0 & L & U).
    set (e := float_exponent (n * b) b) in *.
    assert (Hn' : 2 ^ (e + 52) <= n < 2 ^ (e + 53)) by nia.
    destruct (0 <=? e) eqn:Ee.
    + assert (e <= 1).
      { destruct (Z_le_gt_dec e 1) as [|Q]; [assumption|exfalso].
        assert (2 ^ 54 <= 2 ^ (e + 52)) by (apply Z.pow_le_mono_r; lia).
        change (2 ^ 54) with (2 * 2 ^ 53) in *. lia. }
      assert (C : e = 0 \/ e = 1) by lia. destruct C as [C|C]; rewrite C in *.
      * change (2 ^ 0) with 1. rewrite !Z.mul_1_r. apply rhe_exact; lia.
      * change (2 ^ (1 + 52)) with (2 ^ 53) in Hn'. assert (n = 2 ^ 53) by lia. subst n.
        change (2 ^ 1) with 2. change (2 ^ 53) with (2 ^ 52 * 2) at 1.
        rewrite <- Z.mul_assoc, (Z.mul_comm 2 b), rhe_exact by lia. reflexivity.
    + assert (Pe : 0 < 2 ^ (- e)) by (apply Z.pow_pos_nonneg; lia).
      replace (n * b * 2 ^ (- e)) with (n * 2 ^ (- e) * b) by ring.
      rewrite rhe_exact by nia. apply Z.div_mul. lia.
Qed.

(** The reading is the exact floor or one more. *)
Lemma int_truediv_floor : forall a b, 0 < b -> 0 <= a -> a / b < 2 ^ 53 ->
  a / b <= int_truediv_nonneg a b <= a / b + 1.
Proof.
  intros a b Hb Ha Hq.
  pose proof (Z.div_pos a b Ha Hb). pose proof (Z.div_mod a b ltac:(lia)).
  pose proof (Z.mod_pos_bound a b Hb).
  split.
  - rewrite <- (int_truediv_exact (a / b) b Hb ltac:(lia)) at 1.
    apply int_truediv_nonneg_mono; [exact Hb|nia].
  - rewrite <- (int_truediv_exact (a / b + 1) b Hb ltac:(lia)).
    apply int_truediv_nonneg_mono; [exact Hb|nia].
Qed.

(** It is exact unless the next whole unit is closer than the float spacing. *)
Lemma int_truediv_floor_exact : forall a b, 0 < b -> 0 <= a ->
  (a / b + 1) * b <= 2 ^ 52 * (b - a mod b) ->
  int_truediv_nonneg a b = a / b.
Proof.
  intros a b Hb Ha H.
  pose proof (Z.div_pos a b Ha Hb) as Q. pose proof (Z.div_mod a b ltac:(lia)) as D.
  pose proof (Z.mod_pos_bound a b Hb) as M.
  assert (Hq : a / b < 2 ^ 52) by nia.
  assert (LB : a / b <= int_truediv_nonneg a b) by (apply int_truediv_floor; [assumption|assumption|lia]).
  cut (int_truediv_nonneg a b < a / b + 1); [lia|].
  unfold int_truediv_nonneg. set (e := float_exponent a b) in *.
  destruct (Z_lt_le_dec a b) as [Lt|Ge].
  - assert (Ee : e = -53) by (unfold e, float_exponent; replace (a <? b) with true by lia; reflexivity).
    rewrite Ee. cbn [Z.leb Z.compare Z.opp]. rewrite (Z.div_small a b) in * by lia.
    rewrite (Z.mod_small a b) in * by lia.
    apply Z.div_lt_upper_bound; [lia|].
    assert (R : round_half_even (a * 2 ^ 53) b <= 2 ^ 53 - 1) by (apply rhe_upper; lia).
    lia.
  - destruct (float_exponent_spec a b Hb Ge) as (E0 & L & U). fold e in E0, L, U.
    assert (En : e < 0).
    { destruct (Z_lt_le_dec e 0) as [|G]; [assumption|exfalso].
      assert (2 ^ 52 <= 2 ^ (e + 52)) by (apply Z.pow_le_mono_r; lia). nia. }
    replace (0 <=? e) with false by lia.
    set (s := 2 ^ (- e)). assert (Ps : 0 < s) by (apply Z.pow_pos_nonneg; lia).
    apply Z.div_lt_upper_bound; [exact Ps|].
    assert (KS : 2 ^ (e + 52) * s = 2 ^ 52).
    { unfold s. rewrite <- pow_split by lia. f_equal. lia. }
    set (k := 2 ^ (e + 52)) in *.
    assert (Pk : 0 < k) by (apply Z.pow_pos_nonneg; lia).
    assert (kq : k <= a / b) by (apply Z.div_le_lower_bound; lia).
    rewrite <- KS in H.
    assert (B : b <= s * (b - a mod b)).
    { apply (Z.mul_le_mono_pos_l _ _ k Pk).
      apply Z.le_trans with ((a / b + 1) * b); [nia|]. lia. }
    assert (R : round_half_even (a * s) b <= s * (a / b + 1) - 1).
    { apply rhe_upper; [nia|lia|]. nia. }
    lia.
Qed.

(** *** Integers made floats *)
Lemma to_float_nonneg : forall a, 0 <= a -> to_float a = int_truediv_nonneg a 1.
Proof. intros a H. unfold to_float, int_truediv. now replace (a <? 0) with false by lia. Qed.
Lemma to_float_opp : forall a, to_float (- a) = - to_float a.
Proof.
  intros a. unfold to_float, int_truediv.
  destruct (Z_lt_le_dec a 0); [|destruct (Z.eq_dec a 0) as [->|]; [vm_compute; reflexivity|]].
  - replace (- a <? 0) with false by lia. replace (a <? 0) with true by lia. lia.
  - replace (- a <? 0) with true by lia. replace (a <? 0) with false by lia. now rewrite Z.opp_involutive.
Qed.

(** The relative error. *)
Lemma to_float_error : forall a, 0 <= a -> 2 ^ 53 * Z.abs (to_float a - a) <= a.
Proof.
  intros a Ha. rewrite to_float_nonneg by assumption.
  destruct (Z_le_gt_dec a (2 ^ 53)) as [S|G].
  - rewrite <- (Z.mul_1_r a) at 1. rewrite int_truediv_exact by lia. lia.
  - destruct (float_exponent_spec a 1 ltac:(lia) ltac:(lia)) as (E0 & L & U).
    unfold int_truediv_nonneg. set (e := float_exponent a 1) in *.
    rewrite Z.mul_1_l in L, U.
    assert (Ee : 0 <= e).
    { destruct (Z_le_gt_dec 0 e) as [|N]; [assumption|exfalso].
      assert (2 ^ (e + 53) <= 2 ^ 53) by (apply Z.pow_le_mono_r; lia). lia. }
    replace (0 <=? e) with true by lia. rewrite Z.mul_1_l.
    rewrite pow_split in L by lia.
    assert (Pe : 0 < 2 ^ e) by (apply Z.pow_pos_nonneg; lia). set (P := 2 ^ e) in *.
    destruct (rhe_bounds a P Ha Pe) as (B1 & B2 & B3).
    pose proof (Z.div_mod a P ltac:(lia)) as D. pose proof (Z.mod_pos_bound a P Pe) as M.
    change (2 ^ 53) with (2 * 2 ^ 52).
    assert (K : 2 * Z.abs (round_half_even a P * P - a) <= P).
    { destruct (Z.eq_dec (round_half_even a P) (a / P)) as [X|X].
      - specialize (B3 X). rewrite X. nia.
      - assert (Y : round_half_even a P = a / P + 1) by lia. specialize (B2 Y). rewrite Y. nia. }
    nia.
Qed.
(** Multiples of 512 up to 2^62 are floats. *)
Lemma to_float_exact : forall m, 0 <= m -> m * 512 < 2 ^ 62 -> to_float (m * 512) = m * 512.
Proof.
  intros m Hm U0. rewrite to_float_nonneg by lia.
  destruct (Z_le_gt_dec (m * 512) (2 ^ 53)) as [S|G].
  - rewrite <- (Z.mul_1_r (m * 512)) at 1. apply int_truediv_exact; lia.
  - set (a := m * 512) in *. assert (Ha : 1 <= a) by lia.
    destruct (float_exponent_spec a 1 ltac:(lia) ltac:(lia)) as (E0 & L & U).
    unfold int_truediv_nonneg. set (e := float_exponent a 1) in *. rewrite Z.mul_1_l in L, U.
    assert (Ee : 0 <= e).
    { destruct (Z_le_gt_dec 0 e) as [|N]; [assumption|exfalso].
      assert (2 ^ (e + 53) <= 2 ^ 53) by (apply Z.pow_le_mono_r; lia). lia. }
    assert (Eu : e <= 9).
    { destruct (Z_le_gt_dec e 9) as [|N]; [assumption|exfalso].
      assert (2 ^ 62 <= 2 ^ (e + 52)) by (apply Z.pow_le_mono_r; lia). lia. }
    replace (0 <=? e) with true by lia. rewrite Z.mul_1_l.
    assert (Q : a = (m * 2 ^ (9 - e)) * 2 ^ e).
    { unfold a. rewrite <- Z.mul_assoc, <- pow_split by lia. now replace (9 - e + e) with 9 by lia. }
    assert (0 < 2 ^ e) by (apply Z.pow_pos_nonneg; lia).
    assert (0 < 2 ^ (9 - e)) by (apply Z.pow_pos_nonneg; lia).
    rewrite Q at 1. rewrite rhe_exact by nia. now symmetry.
Qed.
Lemma to_float_mono : forall a b, a <= b -> to_float a <= to_float b.
Proof. intros a b H. apply int_truediv_mono; lia. Qed.
Lemma to_float_pos : forall a, 0 <= a -> 0 <= to_float a.
Proof. intros a H. rewrite to_float_nonneg by assumption. apply int_truediv_nonneg_pos; lia. Qed.

Lemma unit_pos : forall u, 0 < as_ns u.
Proof. intros u. destruct u; reflexivity. Qed.
Lemma unit_512 : forall u, float_unit u = true -> exists m, as_ns u = m * 512 /\ 2 ^ 42 <= m.
Proof.
  intros u H. destruct u; try discriminate.
  - exists 5136219140625. split; [reflexivity|lia].
  - exists 61634629687500. split; [reflexivity|lia].
Qed.

(** The float lies in the same unit or at the start of the next. *)
Lemma float_same_unit : forall u a, float_unit u = true -> 0 <= a < 2 ^ 62 ->
  a / as_ns u * as_ns u <= to_float a <= (a / as_ns u + 1) * as_ns u.
Proof.
  intros u a Hu [H0 H1]. destruct (unit_512 u Hu) as (m & Em & Hm). pose proof (unit_pos u) as P.
  pose proof (Z.div_mod a (as_ns u) ltac:(lia)) as D. pose proof (Z.mod_pos_bound a (as_ns u) P) as M.
  pose proof (Z.div_pos a (as_ns u) H0 P) as Q. set (q := a / as_ns u) in *.
  assert (R : forall k, 0 <= k -> k * as_ns u < 2 ^ 62 -> to_float (k * as_ns u) = k * as_ns u).
  { intros k Hk Hl. rewrite Em in *. rewrite Z.mul_assoc in *. apply to_float_exact; nia. }
  split.
  - rewrite <- (R q) by nia. apply to_float_mono. nia.
  - destruct (Z_lt_le_dec ((q + 1) * as_ns u) (2 ^ 62)) as [L|G].
    + rewrite <- (R (q + 1)) by nia. apply to_float_mono. nia.
    + apply Z.le_trans with (2 ^ 62); [|exact G].
      rewrite to_float_nonneg by lia. apply trunc_le_pow; lia.
Qed.

(** *** Readings *)
Definition reading (u : time_unit) (a : Z) : Z := int_truediv (if float_unit u then to_float a else a) (as_ns u).

Lemma reading_floor : forall u a, 0 <= a -> a / as_ns u < 2 ^ 53 -> (float_unit u = true -> a < 2 ^ 62) ->
  a / as_ns u <= reading u a <= a / as_ns u + 1.
Proof.
  intros u a H L F. pose proof (unit_pos u) as P. unfold reading, int_truediv.
  destruct (float_unit u) eqn:E.
  - specialize (F eq_refl). destruct (float_same_unit u a E (conj H F)) as [B1 B2].
    pose proof (to_float_pos a H). replace (to_float a <? 0) with false by lia.
    pose proof (Z.div_pos a (as_ns u) H P).
    split.
    + rewrite <- (int_truediv_exact (a / as_ns u) (as_ns u) P ltac:(lia)) at 1.
      apply int_truediv_nonneg_mono; [exact P|nia].
    + rewrite <- (int_truediv_exact (a / as_ns u + 1) (as_ns u) P ltac:(lia)).
      apply int_truediv_nonneg_mono; [exact P|lia].
  - replace (a <? 0) with false by lia. apply int_truediv_floor; assumption.
Qed.

(** If the float lies well within a unit the reading is that unit. *)
Lemma reading_within : forall u a q, float_unit u = true -> 0 <= a -> 0 <= q ->
  q * as_ns u <= to_float a -> (q + 1) * as_ns u <= 2 ^ 52 * ((q + 1) * as_ns u - to_float a) -> reading u a = q.
Proof.
  intros u a q E H Hq L U. pose proof (unit_pos u) as P. unfold reading, int_truediv. rewrite E.
  pose proof (to_float_pos a H). replace (to_float a <? 0) with false by lia.
  assert (X : to_float a / as_ns u = q /\ to_float a mod as_ns u = to_float a - q * as_ns u).
  { assert (to_float a < (q + 1) * as_ns u) by nia.
    assert (D : to_float a / as_ns u = q) by (symmetry; apply (Z.div_unique _ _ q (to_float a - q * as_ns u)); nia).
    split; [exact D|]. rewrite Z.mod_eq by lia. rewrite D. lia. }
  destruct X as [X Y].
  rewrite int_truediv_floor_exact; [exact X|exact P|lia|]. rewrite X, Y. lia.
Qed.

Lemma reading_exact : forall u a, 0 <= a ->
  (a / as_ns u + 1) * as_ns u <= 2 ^ 52 * (as_ns u - a mod as_ns u) ->
  (float_unit u = true -> a < 2 ^ 62 /\ 2048 <= as_ns u - a mod as_ns u) ->
  reading u a = a / as_ns u.
Proof.
  intros u a H L F. pose proof (unit_pos u) as P. destruct (float_unit u) eqn:E.
  - destruct (F eq_refl) as [F1 F2]. destruct (float_same_unit u a E (conj H F1)) as [B1 B2].
    pose proof (Z.div_pos a (as_ns u) H P) as Q. pose proof (to_float_error a H) as R.
    pose proof (Z.div_mod a (as_ns u) ltac:(lia)) as D.
    assert (as_ns u <= 2 ^ 55) by (destruct u; try discriminate; vm_compute; discriminate).
    apply reading_within; [exact E|exact H|exact Q|exact B1|].
    assert (to_float a <= a + 512) by lia.
    assert ((a / as_ns u + 1) * as_ns u <= 2 ^ 62 + 2 ^ 55) by nia.
    assert (1536 <= (a / as_ns u + 1) * as_ns u - to_float a) by nia.
    lia.
  - unfold reading, int_truediv. rewrite E. replace (a <? 0) with false by lia.
    apply int_truediv_floor_exact; assumption.
Qed.

(** Every number of units is shown at some moment. *)
Lemma reading_reach : forall u t, 0 <= t <= (if float_unit u then 2 ^ 50 else 2 ^ 53) -> exists a, reading u a = t.
Proof.
  intros u t H. pose proof (unit_pos u) as P. destruct (float_unit u) eqn:E.
  - destruct (unit_512 u E) as (m & Em & Hm).
    set (a := t * as_ns u + m * 256). assert (Ha : 0 <= a) by (unfold a; nia).
    exists a. pose proof (to_float_error a Ha) as R.
    assert (A : a <= (2 ^ 50 + 1) * as_ns u) by (unfold a; nia).
    assert (B : 7 * Z.abs (to_float a - a) <= as_ns u) by nia.
    apply reading_within; [exact E|exact Ha|lia| |].
    + unfold a in *. nia.
    + assert (3 * ((t + 1) * as_ns u - to_float a) >= as_ns u) by (unfold a in *; nia). nia.
  - exists (t * as_ns u). unfold reading, int_truediv. rewrite E. replace (t * as_ns u <? 0) with false by nia.
    now apply int_truediv_exact.
Qed.

Lemma z_to_bytes_ok : forall size o v ts, z_to_bytes size o v = Ok ts ->
  read_timestamp ts o = v /\ blen ts = size /\ 0 <= v < 256 ^ Z.of_N size.
Proof.
  intros size o v ts H. unfold z_to_bytes in H. destruct (v <? 0) eqn:E; [discriminate|].
  assert (B : forall w, (w < 256 ^ size)%N -> Z.of_N w < 256 ^ Z.of_N size).
  { intros w Hw. change 256 with (Z.of_N 256). rewrite <- N2Z.inj_pow. lia. }
  destruct o; cbn [read_timestamp].
  - pose proof (to_bytes_be_len _ _ _ H). pose proof (to_bytes_be_int _ _ _ H) as I.
    rewrite I. split; [lia|]. split; [assumption|]. split; [lia|].
    apply to_bytes_be_ok in H. destruct H as [H _]. specialize (B _ H). lia.
  - apply to_bytes_le_ok in H. destruct H as [H ->].
    rewrite le_int_le_enc, N2Nat.id, N.mod_small by exact H.
    rewrite blen_le_enc, N2Nat.id. specialize (B _ H). lia.
Qed.

Lemma z_to_bytes_fit : forall size o v, 0 <= v < 256 ^ Z.of_N size ->
  exists ts, z_to_bytes size o v = Ok ts.
Proof.
  intros size o v [L U]. unfold z_to_bytes. replace (v <? 0) with false by lia.
  assert (Z.to_N v < 256 ^ size)%N.
  { apply N2Z.inj_lt. rewrite N2Z.inj_pow. change (Z.of_N 256) with 256. lia. }
  destruct o; eexists; [apply to_bytes_be_fit|apply to_bytes_le_fit]; assumption.
Qed.
