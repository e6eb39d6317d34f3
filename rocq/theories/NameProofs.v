From Verif Require Import Base BaseFacts CanonModel TransformModel TransformSpec TransformProofs GentoolsModel GentoolsSpec GentoolsProofs NameModel NameSpec.
Local Open Scope N_scope.

(** ** XOR of numbers and of byte strings *)

Lemma lxor_lt n a b : a < 2 ^ n -> b < 2 ^ n -> N.lxor a b < 2 ^ n.
Proof.
  intros A B. destruct (N.eq_dec (N.lxor a b) 0) as [->|NZ]; [pose proof (N.pow_nonzero 2 n); lia|].
  apply N.log2_lt_pow2; [lia|]. pose proof (N.log2_lxor a b) as L.
  destruct (N.eq_dec a 0) as [->|A0].
  - rewrite N.lxor_0_l in *. apply N.log2_lt_pow2; lia.
  - destruct (N.eq_dec b 0) as [->|B0].
    + rewrite N.lxor_0_r in *. apply N.log2_lt_pow2; lia.
    + assert (N.log2 a < n) by (apply N.log2_lt_pow2; lia).
      assert (N.log2 b < n) by (apply N.log2_lt_pow2; lia). lia.
Qed.

Lemma lxor_lt256 k a b : a < 256 ^ k -> b < 256 ^ k -> N.lxor a b < 256 ^ k.
Proof. rewrite pow256. apply lxor_lt. Qed.

Definition mix (l : list bytes) : N := fold_left (fun result chunk => N.lxor result (be_int chunk)) l 0.

Lemma mix_from l : forall a, fold_left (fun result chunk => N.lxor result (be_int chunk)) l a = N.lxor a (mix l).
Proof.
  unfold mix. induction l as [|b l IH]; intros a; cbn [fold_left].
  - now rewrite N.lxor_0_r.
  - rewrite IH, (IH (N.lxor 0 (be_int b))), N.lxor_0_l. now rewrite N.lxor_assoc.
Qed.

Lemma mix_app a b : mix (a ++ b) = N.lxor (mix a) (mix b).
Proof. unfold mix at 1. rewrite fold_left_app. apply mix_from. Qed.

Lemma mix_cons a b : mix (a :: b) = N.lxor (be_int a) (mix b).
Proof. unfold mix at 1. cbn [fold_left]. rewrite mix_from. now rewrite N.lxor_0_l. Qed.

Lemma mix_bound size l : Forall (fun b => blen b <= size) l -> mix l < 256 ^ size.
Proof.
  induction 1 as [|b l Hb H IH].
  - unfold mix. cbn. pose proof (N.pow_nonzero 256 size). lia.
  - rewrite mix_cons. apply lxor_lt256; [|exact IH]. eapply N.lt_le_trans; [apply be_int_bound|].
    apply N.pow_le_mono_r; lia.
Qed.

Lemma chunk_sizes size l cs : @chunked byte size l cs -> Forall (fun b => blen b <= size) cs.
Proof. induction 1 as [|l H|b l cs H NE C IH]; repeat constructor; try lia; auto. Qed.

Lemma batch_sizes size l : 0 < size -> Forall (fun b => blen b <= size) (batch l size).
Proof. intros S0. eapply chunk_sizes. now apply batch_chunked. Qed.

Lemma xi_mix_ok size x : 0 < size -> xi_mix x size = Ok (be_enc (N.to_nat size) (mix (batch x size))).
Proof.
  intros S0. unfold xi_mix. fold (mix (batch x size)). apply to_bytes_be_fit. apply mix_bound. now apply batch_sizes.
Qed.

Lemma xi_mix_len size x y : xi_mix x size = Ok y -> blen y = size.
Proof. unfold xi_mix. apply to_bytes_be_len. Qed.

Lemma be_int_xor : forall a b, length a = length b -> be_int (xor_bytes a b) = N.lxor (be_int a) (be_int b).
Proof.
  induction a as [|x a IH]; intros [|y b] L; cbn in L; try discriminate; [reflexivity|].
  injection L as L. cbn [xor_bytes]. rewrite !be_int_cons, (IH b L), bval_bxor.
  assert (E : blen (xor_bytes a b) = blen a) by (unfold blen; rewrite xor_bytes_length; lia).
  assert (E2 : blen b = blen a) by (unfold blen; lia). rewrite E, E2.
  set (k := blen a). rewrite pow256.
  pose proof (be_int_bound a) as Ba. pose proof (be_int_bound b) as Bb. rewrite E2 in Bb. fold k in Ba, Bb.
  rewrite pow256 in Ba, Bb. set (u := be_int a) in *. set (v := be_int b) in *.
  assert (Z : forall q i, q < 2 ^ (8 * k) -> 8 * k <= i -> N.testbit q i = false).
  { intros q i Q I. destruct (N.eq_dec q 0) as [->|]; [apply N.bits_0|]. apply N.bits_above_log2.
    assert (N.log2 q < 8 * k) by (apply N.log2_lt_pow2; lia). lia. }
  assert (D : forall p q, q < 2 ^ (8 * k) -> 2 ^ (8 * k) * p + q = N.lor (N.shiftl p (8 * k)) q).
  { intros p q Q. rewrite N.mul_comm, <- N.shiftl_mul_pow2.
    assert (J : N.land (N.shiftl p (8 * k)) q = 0).
    { apply N.bits_inj. intros i. rewrite N.land_spec, N.bits_0. destruct (N.lt_ge_cases i (8 * k)) as [I|I].
      - now rewrite N.shiftl_spec_low.
      - rewrite (Z q i Q I). apply andb_false_r. }
    rewrite N.add_nocarry_lxor by exact J. now apply N.lxor_lor. }
  rewrite !D; try assumption; [|now apply lxor_lt].
  apply N.bits_inj. intros i. rewrite N.lxor_spec, !N.lor_spec.
  destruct (N.lt_ge_cases i (8 * k)) as [I|I].
  - rewrite !N.shiftl_spec_low by exact I. cbn [orb]. now rewrite N.lxor_spec.
  - rewrite !N.shiftl_spec_high' by exact I. rewrite (Z u i Ba I), (Z v i Bb I), (Z _ i (lxor_lt _ _ _ Ba Bb) I), !orb_false_r.
    now rewrite N.lxor_spec.
Qed.

Lemma be_int_zeros n : be_int (repeat x00 n) = 0.
Proof. induction n as [|n IH]; [reflexivity|]. cbn [repeat]. rewrite be_int_cons, IH. change (bval x00) with 0. lia. Qed.

Lemma xor_blocks_len size bs : Forall (fun b => blen b = size) bs -> blen (xor_blocks size bs) = size.
Proof.
  induction 1 as [|b bs Hb H IH]; cbn [xor_blocks]; [rewrite blen_repeat; lia|].
  unfold blen in *. rewrite xor_bytes_length. lia.
Qed.

Lemma xor_blocks_int size bs : Forall (fun b => blen b = size) bs -> be_int (xor_blocks size bs) = mix bs.
Proof.
  induction 1 as [|b bs Hb H IH]; cbn [xor_blocks]; [apply be_int_zeros|].
  rewrite be_int_xor, IH, mix_cons; [reflexivity|]. pose proof (xor_blocks_len size bs H). unfold blen in *. lia.
Qed.

Lemma enc_int size x : blen x = size -> be_enc (N.to_nat size) (be_int x) = x.
Proof. intros E. replace (N.to_nat size) with (length x) by (unfold blen in E; lia). apply be_enc_be_int. Qed.

Lemma xi_mix_blocks size bs : 0 < size -> Forall (fun b => blen b = size) bs ->
  xi_mix (concat bs) size = Ok (xor_blocks size bs).
Proof.
  intros S0 H. rewrite xi_mix_ok by exact S0. rewrite batch_blocks by assumption.
  rewrite <- (xor_blocks_int size bs H). f_equal. apply enc_int. now apply xor_blocks_len.
Qed.

Lemma xi_mix_last size bs l : 0 < size -> Forall (fun b => blen b = size) bs -> 0 < blen l <= size ->
  xi_mix (concat bs ++ l) size = Ok (xor_blocks size (bs ++ [repeat x00 (N.to_nat (size - blen l)) ++ l])).
Proof.
  intros S0 H L. rewrite xi_mix_ok by exact S0.
  set (p := repeat x00 _ ++ l).
  assert (P : blen p = size) by (unfold p; rewrite blen_app, blen_repeat; lia).
  assert (F : Forall (fun b => blen b = size) (bs ++ [p])) by (apply Forall_app; auto).
  assert (B : batch (concat bs ++ l) size = bs ++ [l]).
  { clear F. induction H as [|b bs Hb H IH]; cbn [concat app]; [now apply batch_last|].
    rewrite <- app_assoc, batch_cons by assumption. now rewrite IH. }
  rewrite B. rewrite <- (enc_int size (xor_blocks size (bs ++ [p]))) by now apply xor_blocks_len.
  rewrite xor_blocks_int by exact F. rewrite !mix_app, !mix_cons. unfold p. rewrite be_int_app, be_int_zeros.
  rewrite N.mul_0_r. reflexivity.
Qed.

(** Any condensed value can be reached by choosing one block. *)
Lemma xi_mix_forge size (a b target : bytes) : 0 < size -> blen a mod size = 0 -> blen target = size ->
  exists block, blen block = size /\ forall block', blen block' = size ->
    (xi_mix (a ++ block' ++ b) size = Ok target <-> block' = block).
Proof.
  intros S0 A T.
  assert (BA : mix (batch a size) < 256 ^ size) by (apply mix_bound, batch_sizes; exact S0).
  assert (BB : mix (batch b size) < 256 ^ size) by (apply mix_bound, batch_sizes; exact S0).
  assert (BT : be_int target < 256 ^ size) by (rewrite <- T; apply be_int_bound).
  set (v := N.lxor (N.lxor (mix (batch a size)) (mix (batch b size))) (be_int target)).
  assert (BV : v < 256 ^ size) by (unfold v; repeat apply lxor_lt256; assumption).
  exists (be_enc (N.to_nat size) v). split; [rewrite blen_be_enc; lia|].
  intros block' L. rewrite xi_mix_ok by exact S0. rewrite batch_app, batch_cons by assumption.
  rewrite mix_app, mix_cons.
  assert (BL : be_int block' < 256 ^ size) by (rewrite <- L; apply be_int_bound).
  assert (X : forall p q r t, N.lxor p (N.lxor q r) = t <-> q = N.lxor (N.lxor p r) t).
  { intros p q r t. split; [intros <-|intros ->].
    - apply N.bits_inj. intros i. rewrite !N.lxor_spec. destruct (N.testbit p i), (N.testbit q i), (N.testbit r i); reflexivity.
    - apply N.bits_inj. intros i. rewrite !N.lxor_spec. destruct (N.testbit p i), (N.testbit t i), (N.testbit r i); reflexivity. }
  split.
  - intros E. apply Ok_inj in E. apply (f_equal be_int) in E. rewrite be_int_be_enc, N2Nat.id in E.
    rewrite N.mod_small in E by (repeat apply lxor_lt256; assumption).
    apply X in E. fold v in E. rewrite <- E. symmetry. now apply enc_int.
  - intros ->. rewrite be_int_be_enc, N2Nat.id, N.mod_small by exact BV.
    rewrite (proj2 (X _ v _ (be_int target)) eq_refl). f_equal. now apply enc_int.
Qed.

(** ** Characters and lengths of names *)

Lemma base38_safe c : In c BASE_38 -> safe_char c.
Proof.
  unfold safe_char. intros H.
  assert (B : forallb (fun c => (97 <=? bval c) && (bval c <=? 122) || (48 <=? bval c) && (bval c <=? 57) || byte_eqb c x2d || byte_eqb c x5f) BASE_38 = true) by reflexivity.
  rewrite forallb_forall in B. specialize (B c H).
  apply orb_prop in B as [B|B]; [|apply byte_eqb_eq in B; tauto].
  apply orb_prop in B as [B|B]; [|apply byte_eqb_eq in B; tauto].
  apply orb_prop in B as [B|B]; apply andb_prop in B as [B1 B2]; apply N.leb_le in B1, B2; tauto.
Qed.

Lemma digits_in base table : forall ds v, digits_value base table ds v -> Forall (fun c => In c table) ds.
Proof.
  induction ds as [|d ds IH]; intros v V; [constructor|]. destruct V as (i & w & Hi & _ & Hw & _).
  constructor; [eapply nth_error_In; eauto|eauto].
Qed.

Lemma filename_shape v : exists f, bytes_to_filename v = Ok f /\ f <> [] /\ Forall safe_char f /\
  (38 ^ (blen f - 1) <= be_int v \/ (be_int v = 0 /\ f = [x2d])).
Proof.
  unfold bytes_to_filename, int_as_base. destruct (N.eqb_spec (be_int v) 0) as [E|E].
  - exists [x2d]. split; [reflexivity|]. split; [discriminate|]. split; [|tauto]. constructor; [|constructor]. unfold safe_char. tauto.
  - change (base_or (Some 38) BASE_38) with 38. change (take 38 BASE_38) with BASE_38.
    destruct (int_as_base_loop_value (N.size_nat (be_int v)) (be_int v) 38 BASE_38) as (ds & -> & V & Hz & _); [lia|vm_compute; discriminate|lia|].
    cbn [bind]. exists (rev ds). split; [reflexivity|].
    destruct (Hz E) as (init & d & i & -> & Hd & Hi & Hib). split; [|split; [|left]].
    + rewrite rev_app_distr. discriminate.
    + apply Forall_rev. eapply Forall_impl; [|eapply digits_in; exact V]. exact base38_safe.
    + rewrite blen_rev, blen_app, blen_cons, (@blen_nil byte).
      replace (blen init + (1 + 0) - 1) with (blen init) by lia.
      apply (digits_value_lower 38 BASE_38 init d i); [reflexivity|exact Hd|apply base38_valid|exact Hi|exact V].
Qed.

Lemma filename_len24 v f : blen v = 24 -> bytes_to_filename v = Ok f -> 1 <= blen f <= 37.
Proof.
  intros L E. destruct (filename_shape v) as (f' & E' & NE & _ & S0).
  assert (f' = f) as -> by congruence.
  assert (1 <= blen f).
  { destruct f; [congruence|]. rewrite blen_cons. lia. }
  split; [assumption|]. destruct S0 as [S0|[_ ->]]; [|vm_compute; discriminate].
  pose proof (be_int_bound v) as B. rewrite L in B.
  destruct (N.le_gt_cases (blen f) 37) as [G|G]; [exact G|exfalso].
  assert (38 ^ 37 <= 38 ^ (blen f - 1)) by (apply N.pow_le_mono_r; lia).
  assert (256 ^ 24 < 38 ^ 37) by reflexivity. lia.
Qed.

(** ** Deniable names *)

Section Deniable.
Variable sha3_256 : bytes -> bytes.
Notation name := (deniable_filename sha3_256).

Lemma name_cases key size :
  (1 <= size <= 16)%Z /\ (2 * size <= Z.of_N (blen key))%Z /\
    name key size = (m <- xi_mix key (Z.to_N size) ;; bytes_to_filename (take 24 (sha3_256 m))) \/
  (~ ((1 <= size <= 16)%Z /\ (2 * size <= Z.of_N (blen key))%Z)) /\ name key size = Err ValueErr.
Proof.
  unfold deniable_filename. destruct (Z.leb_spec size 16); [|right; split; [lia|reflexivity]].
  destruct (Z.leb_spec 1 size); [|right; split; [lia|reflexivity]]. cbn [andb negb].
  destruct (Z.leb_spec (2 * size) (Z.of_N (blen key))); cbn [negb]; [left|right; split; [lia|reflexivity]].
  split; [lia|]. split; [lia|]. reflexivity.
Qed.

Lemma name_ok key size : (1 <= size <= 16)%Z -> (2 * size <= Z.of_N (blen key))%Z ->
  exists m f, xi_mix key (Z.to_N size) = Ok m /\ bytes_to_filename (take 24 (sha3_256 m)) = Ok f /\ name key size = Ok f /\ f <> [] /\ Forall safe_char f.
Proof.
  intros S1 S2. destruct (name_cases key size) as [(_ & _ & E)|[C _]]; [|exfalso; tauto].
  rewrite E. rewrite xi_mix_ok by lia. cbn [bind].
  destruct (filename_shape (take 24 (sha3_256 (be_enc (N.to_nat (Z.to_N size)) (mix (batch key (Z.to_N size))))))) as (f & F & NE & SC & _).
  eexists _, f. split; [reflexivity|]. auto.
Qed.

Lemma name_inv key size f : name key size = Ok f ->
  (1 <= size <= 16)%Z /\ (2 * size <= Z.of_N (blen key))%Z /\
  exists m, xi_mix key (Z.to_N size) = Ok m /\ bytes_to_filename (take 24 (sha3_256 m)) = Ok f.
Proof.
  intros E. destruct (name_cases key size) as [(S1 & S2 & E')|[_ C]]; [|congruence].
  split; [exact S1|]. split; [exact S2|]. destruct (name_ok key size S1 S2) as (m & f' & M & F & N1 & _).
  exists m. split; [exact M|congruence].
Qed.

Lemma name_forge key size f (a b : bytes) : name key size = Ok f ->
  blen a mod Z.to_N size = 0 -> Z.to_N size <= blen a + blen b ->
  exists block, blen block = Z.to_N size /\ name (a ++ block ++ b) size = Ok f.
Proof.
  intros E A L. destruct (name_inv _ _ _ E) as (S1 & S2 & m & M & F).
  destruct (xi_mix_forge (Z.to_N size) a b m) as (block & B1 & B2); [lia|exact A|eapply xi_mix_len; eauto|].
  exists block. split; [exact B1|].
  assert (X : xi_mix (a ++ block ++ b) (Z.to_N size) = Ok m) by now apply B2.
  destruct (name_ok (a ++ block ++ b) size S1) as (m' & f' & M' & F' & -> & _).
  { rewrite !blen_app. lia. }
  congruence.
Qed.

Lemma name_collision k1 s1 k2 s2 f : (forall x, blen (sha3_256 x) = 32) ->
  name k1 s1 = Ok f -> name k2 s2 = Ok f ->
  exists m1 m2, xi_mix k1 (Z.to_N s1) = Ok m1 /\ xi_mix k2 (Z.to_N s2) = Ok m2 /\ take 24 (sha3_256 m1) = take 24 (sha3_256 m2).
Proof.
  intros HL E1 E2. destruct (name_inv _ _ _ E1) as (_ & _ & m1 & M1 & F1). destruct (name_inv _ _ _ E2) as (_ & _ & m2 & M2 & F2).
  exists m1, m2. split; [exact M1|]. split; [exact M2|]. eapply filename_inj; [|exact F1|exact F2].
  assert (Q : forall m, length (take 24 (sha3_256 m)) = 24%nat).
  { intros m. pose proof (blen_take 24 (sha3_256 m)) as B. rewrite HL in B. unfold blen in B. lia. }
  now rewrite !Q.
Qed.

Lemma name_short key size f : (forall x, blen (sha3_256 x) = 32) -> name key size = Ok f -> 1 <= blen f <= 37.
Proof.
  intros HL E. destruct (name_inv _ _ _ E) as (_ & _ & m & _ & F). eapply filename_len24; [|exact F].
  rewrite blen_take, HL. reflexivity.
Qed.
End Deniable.
