From Verif Require Import Base BaseFacts PermModel PermSpec.
From Coq Require Import Znumtheory Zpow_facts.
Local Open Scope Z_scope.

(** ** Modular inverse *)
Lemma egcd_gcd : forall k r0 r1 s0 s1 fuel,
  (2 * k + 1 <= fuel)%nat -> 0 <= r1 <= r0 -> r1 < 2 ^ Z.of_nat k ->
  fst (egcd fuel r0 r1 s0 s1) = Z.gcd r0 r1.
Proof.
  induction k as [|k IH]; intros r0 r1 s0 s1 fuel Hf Hr Hk.
  - destruct fuel as [|fuel]; [lia|]. cbn in Hk. assert (r1 = 0) by lia. subst r1.
    cbn [egcd]. cbn [Z.eqb fst]. rewrite Z.gcd_0_r. lia.
  - destruct fuel as [|[|fuel]]; [lia|lia|]. cbn [egcd].
    destruct (r1 =? 0) eqn:E.
    { apply Z.eqb_eq in E. subst r1. cbn [fst]. rewrite Z.gcd_0_r. lia. }
    apply Z.eqb_neq in E.
    pose proof (Z.mod_pos_bound r0 r1 ltac:(lia)) as B.
    assert (G : Z.gcd r0 r1 = Z.gcd r1 (r0 mod r1)).
    { rewrite (Z.gcd_comm r1 (r0 mod r1)), Z.gcd_mod by lia. apply Z.gcd_comm. }
    rewrite G.
    destruct (r0 mod r1 =? 0) eqn:E2.
    { apply Z.eqb_eq in E2. rewrite E2. cbn [fst]. rewrite Z.gcd_0_r. lia. }
    apply Z.eqb_neq in E2.
    set (r2 := r0 mod r1) in *.
    pose proof (Z.mod_pos_bound r1 r2 ltac:(lia)) as B2.
    assert (G2 : Z.gcd r1 r2 = Z.gcd r2 (r1 mod r2)).
    { rewrite (Z.gcd_comm r2 (r1 mod r2)), Z.gcd_mod by lia. apply Z.gcd_comm. }
    rewrite G2. apply IH; [lia|lia|].
    rewrite Nat2Z.inj_succ, Z.pow_succ_r in Hk by lia.
    (* r1 mod r2 < r1 / 2 *)
    assert (2 * (r1 mod r2) < r1 + 1); [|lia].
    pose proof (Z.div_mod r1 r2 ltac:(lia)) as D.
    assert (1 <= r1 / r2) by (apply Z.div_le_lower_bound; lia).
    nia.
Qed.

Definition bez (a m r s : Z) : Prop := (s * a) mod m = r mod m.
Lemma egcd_bez : forall a m fuel r0 r1 s0 s1, 0 < m ->
  bez a m r0 s0 -> bez a m r1 s1 ->
  let '(g, s) := egcd fuel r0 r1 s0 s1 in bez a m g s.
Proof.
  intros a m fuel. induction fuel as [|fuel IH]; intros r0 r1 s0 s1 Hm H0 H1; cbn [egcd]; [exact H0|].
  destruct (r1 =? 0) eqn:E; [exact H0|].
  apply Z.eqb_neq in E.
  apply IH; [exact Hm|exact H1|].
  unfold bez in *.
  replace ((s0 - r0 / r1 * s1) * a) with (s0 * a - r0 / r1 * (s1 * a)) by ring.
  rewrite Zminus_mod, (Zmult_mod (r0 / r1)), H0, H1, <- Zmult_mod, <- Zminus_mod.
  f_equal. rewrite Z.mod_eq by exact E. ring.
Qed.

Lemma pow_inverse_ok : forall a m i, 1 < m -> pow_inverse a m = Ok i ->
  0 <= i < m /\ (a * i) mod m = 1.
Proof.
  intros a m i Hm H. unfold pow_inverse in H.
  destruct (egcd _ _ _ _ _) as [g s].
  destruct (_ && _) eqn:E; [|discriminate].
  apply Ok_inj in H. subst i.
  apply andb_prop in E. destruct E as [_ E]. apply Z.eqb_eq in E.
  split; [apply Z.mod_pos_bound; lia|]. rewrite E. apply Z.mod_small. lia.
Qed.

Lemma pow_inverse_total : forall a m, 1 < m -> Z.gcd a m = 1 ->
  exists i, pow_inverse a m = Ok i.
Proof.
  intros a m Hm Hg. unfold pow_inverse.
  set (fuel := (2 * Z.to_nat (Z.log2_up m) + 2)%nat).
  assert (F : fst (egcd fuel m (a mod m) 0 1) = 1).
  { pose proof (Z.mod_pos_bound a m ltac:(lia)).
    rewrite (egcd_gcd (Z.to_nat (Z.log2_up m))); [|lia|lia|].
    - rewrite Z.gcd_comm, Z.gcd_mod by lia. rewrite Z.gcd_comm. exact Hg.
    - rewrite Z2Nat.id by apply Z.log2_up_nonneg.
      pose proof (Z.log2_up_spec m Hm). lia. }
  assert (Bz : let '(g, s) := egcd fuel m (a mod m) 0 1 in bez a m g s).
  { apply egcd_bez; unfold bez; [lia| |].
    - rewrite Z.mul_0_l, Z.mod_same, Z.mod_0_l by lia. reflexivity.
    - rewrite Z.mul_1_l, Z.mod_mod by lia. reflexivity. }
  destruct (egcd fuel m (a mod m) 0 1) as [g s]. cbn [fst] in F. subst g.
  unfold bez in Bz.
  assert (E : (a * (s mod m)) mod m = 1 mod m).
  { rewrite Zmult_mod_idemp_r, Z.mul_comm. exact Bz. }
  rewrite E, !Z.eqb_refl. cbn [andb]. eexists. reflexivity.
Qed.

(** ** The shipped primes *)
Lemma shipped_cases : forall size, shipped_size size ->
  exists off, prime_offset size = Some off.
Proof.
  intros size H. unfold shipped_size in H.
  assert (E : In size (map Z.of_nat (seq 1 32) ++ [48; 64; 128; 192; 256])).
  { apply in_or_app. destruct H as [H|H].
    - left. apply in_map_iff. exists (Z.to_nat size). split; [lia|]. apply in_seq. lia.
    - right. cbn. lia. }
  cbn [map seq app Z.of_nat] in E.
  repeat (destruct E as [E|E]; [subst size; eexists; vm_compute; reflexivity|]).
  destruct E.
Qed.

Lemma prime_offset_spec : forall size off, prime_offset size = Some off ->
  shipped_size size /\ 0 < off < 1000.
Proof.
  intros size off H. unfold shipped_size.
  destruct size as [|p|p]; [discriminate| |discriminate].
  do 9 (try destruct p as [p|p|]); cbn in H; try discriminate H;
    injection H as <-; lia.
Qed.

(** ** Well-formed configurations *)
Record wf_aff_config (c : aff_config) : Prop := {
  wfc_size : 0 < ac_size c;
  wfc_key : ac_key_size c = 2 * ac_size c;
  wfc_max : ac_max c = 256 ^ ac_size c - 1;
  wfc_prime : ac_max c + 1 < ac_prime c;
  wfc_inv : (ac_mult c * ac_inv c) mod ac_prime c = 1;
}.

Lemma pow256 : forall s, 0 <= s -> 2 ^ (8 * s) = 256 ^ s.
Proof. intros. rewrite Z.pow_mul_r by lia. reflexivity. Qed.
Lemma pow256_pos : forall s, 0 <= s -> 0 < 256 ^ s.
Proof. intros. apply Z.pow_pos_nonneg; lia. Qed.

Lemma make_aff_config_wf : forall size mult c, make_aff_config size mult = Ok c ->
  wf_aff_config c /\ ac_size c = size /\ ac_mult c = mult /\ shipped_size size.
Proof.
  intros size mult c H. unfold make_aff_config, process_size, prime_of in H.
  destruct (_ && _) eqn:E in H; [|discriminate]. cbn [bind] in H.
  destruct (prime_offset size) as [off|] eqn:P; [|discriminate]. cbn [bind] in H.
  destruct (prime_offset_spec _ _ P) as [S O].
  assert (0 < size) by (unfold shipped_size in S; lia).
  assert (P2 : 0 < 256 ^ size) by (apply pow256_pos; lia).
  assert (Q : 256 ^ 1 <= 256 ^ size) by (apply Z.pow_le_mono_r; lia).
  change (256 ^ 1) with 256 in Q.
  rewrite pow256 in H by lia.
  destruct (pow_inverse mult (256 ^ size + off)) as [i|] eqn:I; [|discriminate].
  cbn [bind] in H. apply Ok_inj in H. subst c.
  apply pow_inverse_ok in I; [|lia].
  split; [|cbn; auto].
  constructor; cbn [ac_size ac_key_size ac_max ac_prime ac_mult ac_inv]; try lia.
  - rewrite Z.shiftl_1_l, pow256 by lia. reflexivity.
  - rewrite Z.shiftl_1_l, pow256 by lia. lia.
Qed.

Lemma make_aff_config_total : forall size mult off,
  shipped_size size -> prime_offset size = Some off ->
  Z.gcd mult (256 ^ size + off) = 1 ->
  exists c, make_aff_config size mult = Ok c.
Proof.
  intros size mult off S P G. unfold make_aff_config, process_size, prime_of.
  assert (0 < size <= 256) by (unfold shipped_size in S; lia).
  assert (P2 : 0 < 256 ^ size) by (apply pow256_pos; lia).
  destruct (prime_offset_spec _ _ P) as [_ O].
  replace (4096 >=? size) with true by lia. replace (size >? 0) with true by lia.
  cbn [andb bind]. rewrite P. cbn [bind]. rewrite pow256 by lia.
  destruct (pow_inverse_total mult (256 ^ size + off)) as [i I]; [lia|exact G|].
  rewrite I. cbn [bind]. eexists. reflexivity.
Qed.

(** ** Cycle walking *)
Section Walk.
  Variables (f g : Z -> Z) (P max : Z).
  Hypothesis Hmax : 0 <= max < P.
  Hypothesis f_range : forall x, 0 <= f x < P.
  Hypothesis g_range : forall x, 0 <= g x < P.
  Hypothesis gf : forall x, 0 <= x < P -> g (f x) = x.
  Hypothesis fg : forall x, 0 <= x < P -> f (g x) = x.

  Definition it (h : Z -> Z) (n : nat) (x : Z) : Z := Nat.iter n h x.

  Lemma it_S : forall h n x, it h (S n) x = h (it h n x).
  Proof. reflexivity. Qed.
  Lemma it_Sr : forall h n x, it h (S n) x = it h n (h x).
  Proof.
    intros h n x. induction n as [|n IH]; [reflexivity|]. rewrite it_S, IH. reflexivity.
  Qed.

  Lemma walk_steps : forall h n fuel v, (n <= fuel)%nat ->
    (forall j, (j < n)%nat -> it h j v > max) -> it h n v <= max ->
    walk fuel h max v = Ok (it h n v).
  Proof.
    intros h n. induction n as [|n IH]; intros fuel v Hf Hj Hn.
    - unfold it in *; cbn in Hn |- *. destruct fuel; cbn [walk];
      (replace (v >? max) with false by lia; reflexivity).
    - destruct fuel as [|fuel]; [lia|]. cbn [walk].
      pose proof (Hj O ltac:(lia)) as H0. unfold it in H0; cbn in H0.
      replace (v >? max) with true by lia.
      rewrite it_Sr in Hn |- *. apply IH; [lia| |exact Hn].
      intros j L. rewrite <- it_Sr. apply Hj. lia.
  Qed.

  Lemma it_range : forall n x, 0 <= x < P -> 0 <= it f n x < P.
  Proof. intros [|n] x H; [exact H|]. rewrite it_S. apply f_range. Qed.

  Lemma f_inj : forall x y, 0 <= x < P -> 0 <= y < P -> f x = f y -> x = y.
  Proof. intros x y Hx Hy H. rewrite <- (gf x Hx), <- (gf y Hy), H. reflexivity. Qed.

  Lemma it_inj : forall i d x, 0 <= x < P ->
    it f i x = it f (i + d) x -> it f d x = x.
  Proof.
    induction i as [|i IH]; intros d x Hx H.
    - symmetry. exact H.
    - apply IH; [exact Hx|]. cbn [Nat.add] in H. rewrite !it_S in H.
      apply f_inj in H; [exact H| |]; apply it_range; exact Hx.
  Qed.

  (** From inside the domain the walk returns to the domain. *)
  Lemma returns : forall x, 0 <= x <= max ->
    exists n, (0 < n <= Z.to_nat (P - max))%nat /\ it f n x <= max /\
      forall j, (0 < j < n)%nat -> it f j x > max.
  Proof.
    intros x Hx.
    set (N := Z.to_nat (P - max)).
    assert (D : forall n, (exists k, (0 < k <= n)%nat /\ it f k x <= max /\
                 forall j, (0 < j < k)%nat -> it f j x > max) \/
               (forall j, (0 < j <= n)%nat -> it f j x > max)).
    { induction n as [|n [IH|IH]].
      - right. intros; lia.
      - left. destruct IH as [k (A & B & C)]. exists k. split; [lia|]. auto.
      - destruct (Z_le_gt_dec (it f (S n) x) max) as [L|G].
        + left. exists (S n). split; [lia|]. split; [exact L|]. intros; apply IH; lia.
        + right. intros j Hj. destruct (Nat.eq_dec j (S n)) as [->|]; [exact G|].
          apply IH; lia. }
    destruct (D N) as [H|H]; [exact H|exfalso].
    (* pigeonhole *)
    set (l := map (fun i => it f i x) (seq 1 N)).
    set (r := map (fun i => max + 1 + Z.of_nat i) (seq 0 (Z.to_nat (P - max - 1)))).
    assert (ND : NoDup l).
    { assert (Hin : forall a b, In a (seq 1 N) -> In b (seq 1 N) ->
                it f a x = it f b x -> a = b).
      { assert (W : forall a d, (0 < a)%nat -> (a + S d <= N)%nat ->
                it f a x <> it f (a + S d) x).
        { intros a d Ha Hd E. apply it_inj in E; [|lia].
          specialize (H (S d) ltac:(lia)). lia. }
        intros a b Ha Hb E. apply in_seq in Ha. apply in_seq in Hb.
        destruct (Nat.lt_trichotomy a b) as [L|[L|L]]; [exfalso|exact L|exfalso].
        - apply (W a (b - a - 1)%nat); [lia|lia|]. rewrite E. f_equal. lia.
        - apply (W b (a - b - 1)%nat); [lia|lia|]. rewrite <- E. f_equal. lia. }
      unfold l. clear - Hin. revert Hin. generalize (seq_NoDup N 1).
      generalize (seq 1 N) as q. induction q as [|a q IH]; intros Hnd Hin; cbn; [constructor|].
      inversion Hnd as [|? ? N1 N2]; subst. constructor.
      - rewrite in_map_iff. intros (b & E & Hb).
        apply N1. rewrite (Hin a b); cbn; auto.
      - apply IH; [exact N2|]. intros; apply Hin; cbn; auto. }
    assert (I : incl l r).
    { intros v Hv. unfold l in Hv. apply in_map_iff in Hv. destruct Hv as (i & <- & Hi).
      apply in_seq in Hi. specialize (H i ltac:(lia)).
      pose proof (it_range i x ltac:(lia)).
      unfold r. apply in_map_iff. exists (Z.to_nat (it f i x - max - 1)).
      split; [lia|]. apply in_seq. lia. }
    pose proof (NoDup_incl_length ND I) as L.
    unfold l, r in L. rewrite !map_length, !seq_length in L. lia.
  Qed.

  Lemma it_back : forall n x k, 0 <= x < P -> (k <= n)%nat ->
    it g k (it f n x) = it f (n - k) x.
  Proof.
    intros n x k Hx. induction k as [|k IH]; intros Hk.
    - rewrite Nat.sub_0_r. reflexivity.
    - rewrite it_S, IH by lia.
      replace (n - k)%nat with (S (n - S k)) by lia. rewrite it_S.
      apply gf. apply it_range. exact Hx.
  Qed.

  Lemma walk_bijection : forall x, 0 <= x <= max ->
    exists y, walk (Z.to_nat (P - max)) f max (f x) = Ok y /\ 0 <= y <= max /\
      walk (Z.to_nat (P - max)) g max (g y) = Ok x.
  Proof.
    intros x Hx. destruct (returns x Hx) as (n & Hn & Hle & Hgt).
    destruct n as [|n]; [lia|].
    exists (it f (S n) x).
    pose proof (it_range (S n) x ltac:(lia)) as R.
    assert (W1 : walk (Z.to_nat (P - max)) f max (f x) = Ok (it f (S n) x)).
    { rewrite it_Sr. apply walk_steps; [lia| |rewrite <- it_Sr; exact Hle].
      intros j Hj. rewrite <- it_Sr. apply Hgt. lia. }
    split; [exact W1|]. split; [lia|].
    assert (E : it g n (g (it f (S n) x)) = x).
    { rewrite <- it_Sr, it_back by lia. rewrite Nat.sub_diag. reflexivity. }
    transitivity (Ok (it g n (g (it f (S n) x)))); [|f_equal; exact E].
    apply walk_steps; [lia| |lia].
    intros j Hj. rewrite <- it_Sr, it_back by lia. apply Hgt. lia.
  Qed.
End Walk.

(** ** Affine permutation *)
Record wf_aff (size : Z) (a : aff) : Prop := {
  wfa_config : wf_aff_config (af_config a);
  wfa_size : ac_size (af_config a) = size;
}.

Section Aff.
  Variables (size : Z) (a : aff).
  Hypothesis W : wf_aff size a.
  Let P := ac_prime (af_config a).

  Lemma aff_P : 0 < size /\ 0 < P /\ ac_max (af_config a) = 256 ^ size - 1 /\ 0 < 256 ^ size < P.
  Proof.
    destruct W as [[W1 W2 W3 W4 W5] <-]. unfold P.
    pose proof (pow256_pos (ac_size (af_config a)) ltac:(lia)). lia.
  Qed.

  Lemma unround_round : forall x, 0 <= x < P -> aff_unround a (aff_round a x) = x.
  Proof.
    intros x Hx. unfold aff_unround, aff_round. fold P.
    destruct aff_P as (S & HP & _).
    rewrite Zmult_mod, Zminus_mod, Z.mod_mod, <- Zminus_mod, <- Zmult_mod by lia.
    replace (ac_inv (af_config a) * (ac_mult (af_config a) * x + af_add a - af_add a))
      with ((ac_mult (af_config a) * ac_inv (af_config a)) * x) by ring.
    rewrite Zmult_mod. unfold P. rewrite (wfc_inv _ (wfa_config _ _ W)). fold P.
    rewrite Z.mul_1_l, Z.mod_mod by lia. apply Z.mod_small. exact Hx.
  Qed.

  Lemma round_unround : forall x, 0 <= x < P -> aff_round a (aff_unround a x) = x.
  Proof.
    intros x Hx. unfold aff_unround, aff_round. fold P.
    destruct aff_P as (S & HP & _).
    rewrite Zplus_mod, Zmult_mod, Z.mod_mod, <- Zmult_mod, <- Zplus_mod by lia.
    replace (ac_mult (af_config a) * (ac_inv (af_config a) * (x - af_add a)) + af_add a)
      with ((ac_mult (af_config a) * ac_inv (af_config a)) * (x - af_add a) + af_add a) by ring.
    rewrite Zplus_mod, Zmult_mod. unfold P. rewrite (wfc_inv _ (wfa_config _ _ W)). fold P.
    rewrite Z.mul_1_l, Z.mod_mod, <- Zplus_mod by lia.
    replace (x - af_add a + af_add a) with x by ring. apply Z.mod_small. exact Hx.
  Qed.

  Lemma aff_inverse : inverse_bijections size (aff_permute a) (aff_invert a).
  Proof.
    destruct aff_P as (S & HP & HM & HQ).
    assert (R1 : forall x, 0 <= aff_round a x < P) by (intro; apply Z.mod_pos_bound; exact HP).
    assert (R2 : forall x, 0 <= aff_unround a x < P) by (intro; apply Z.mod_pos_bound; exact HP).
    assert (B : 0 <= ac_max (af_config a) < P) by lia.
    unfold inverse_bijections, in_domain, aff_permute, aff_invert, walk_fuel. fold P.
    split; intros v Hv.
    - destruct (walk_bijection _ _ P _ B R1 R2 unround_round round_unround v ltac:(lia)) as (y & A & C & D).
      exists y. rewrite A. split; [reflexivity|]. split; [lia|exact D].
    - destruct (walk_bijection _ _ P _ B R2 R1 round_unround unround_round v ltac:(lia)) as (y & A & C & D).
      exists y. rewrite A. split; [reflexivity|]. split; [lia|exact D].
  Qed.
End Aff.

Lemma inverse_bijections_comp : forall size f g f' g',
  inverse_bijections size f g -> inverse_bijections size f' g' ->
  inverse_bijections size (fun v => x <- f v ;; f' x) (fun w => y <- g' w ;; g y).
Proof.
  intros size f g f' g' [F1 F2] [G1 G2]. split.
  - intros v Hv. destruct (F1 v Hv) as (x & A & B & C).
    destruct (G1 x B) as (y & A' & B' & C').
    exists y. rewrite A. cbn [bind]. rewrite A', C'. cbn [bind]. auto.
  - intros v Hv. destruct (G2 v Hv) as (x & A & B & C).
    destruct (F2 x B) as (y & A' & B' & C').
    exists y. rewrite A. cbn [bind]. rewrite A', C'. cbn [bind]. auto.
Qed.

Lemma inverse_bijections_ext : forall size f g f' g',
  inverse_bijections size f g ->
  (forall v, in_domain size v -> f v = f' v) ->
  (forall v, in_domain size v -> g v = g' v) -> inverse_bijections size f' g'.
Proof.
  intros size f g f' g' [F1 F2] Ef Eg. split.
  - intros v Hv. destruct (F1 v Hv) as (x & A & B & C). exists x.
    rewrite <- Ef, <- Eg; auto.
  - intros v Hv. destruct (F2 v Hv) as (x & A & B & C). exists x.
    rewrite <- Ef, <- Eg; auto.
Qed.

Lemma inverse_bijections_inj : forall size f g, inverse_bijections size f g ->
  forall v w y, in_domain size v -> in_domain size w -> f v = Ok y -> f w = Ok y -> v = w.
Proof.
  intros size f g [F _] v w y Hv Hw E1 E2.
  destruct (F v Hv) as (a & A1 & _ & A2). destruct (F w Hw) as (b & B1 & _ & B2).
  rewrite E1 in A1. rewrite E2 in B1. apply Ok_inj in A1, B1. subst a b.
  rewrite A2 in B2. apply Ok_inj in B2. exact B2.
Qed.

(** ** Exclusive or on a byte domain *)
Lemma lxor_domain : forall size a b, 0 <= size ->
  in_domain size a -> in_domain size b -> in_domain size (Z.lxor a b).
Proof.
  intros size a b Hs [A1 A2] [B1 B2].
  unfold in_domain. split; [apply Z.lxor_nonneg; tauto|].
  rewrite <- pow256 in * by lia.
  destruct (Z.eq_dec (Z.lxor a b) 0) as [->|N]; [apply Z.pow_pos_nonneg; lia|].
  assert (0 <= Z.lxor a b) by (apply Z.lxor_nonneg; tauto).
  apply Z.log2_lt_pow2; [lia|].
  eapply Z.le_lt_trans; [apply Z.log2_lxor; assumption|].
  destruct (Z.eq_dec size 0) as [->|].
  { change (2 ^ (8 * 0)) with 1 in *. assert (a = 0) by lia. assert (b = 0) by lia.
    subst. cbn in N. congruence. }
  apply Z.max_lub_lt.
  - destruct (Z.eq_dec a 0) as [->|]; [change (Z.log2 0) with 0; lia|]. apply Z.log2_lt_pow2; lia.
  - destruct (Z.eq_dec b 0) as [->|]; [change (Z.log2 0) with 0; lia|]. apply Z.log2_lt_pow2; lia.
Qed.

Lemma lxor_cancel : forall a b, Z.lxor (Z.lxor a b) b = a.
Proof. intros. rewrite Z.lxor_assoc, Z.lxor_nilpotent, Z.lxor_0_r. reflexivity. Qed.

Lemma lxor_inverse : forall size k, 0 <= size -> in_domain size k ->
  inverse_bijections size (fun v => Ok (Z.lxor v k)) (fun v => Ok (Z.lxor v k)).
Proof.
  intros size k Hs Hk. split; intros v Hv; exists (Z.lxor v k);
    (split; [reflexivity|]; split; [apply lxor_domain; assumption|]; rewrite lxor_cancel; reflexivity).
Qed.

(** ** Xor chain *)
Record wf_chain (s : chain) : Prop := {
  wfh_size : 0 < cc_size (ch_config s);
  wfh_dom : cc_domain (ch_config s) = 256 ^ cc_size (ch_config s);
  wfh_in : in_domain (cc_size (ch_config s)) (ch_in_key s);
  wfh_inm : in_domain (cc_size (ch_config s)) (ch_in_mid_key s);
  wfh_outm : in_domain (cc_size (ch_config s)) (ch_out_mid_key s);
  wfh_out : in_domain (cc_size (ch_config s)) (ch_out_key s);
  wfh_inc : in_domain (cc_size (ch_config s)) (ch_increment s);
  wfh_odd : Z.odd (ch_increment s) = true;
  wfh_a1 : wf_aff (cc_size (ch_config s)) (ch_aff_in s);
  wfh_a2 : wf_aff (cc_size (ch_config s)) (ch_aff_mid s);
  wfh_a3 : wf_aff (cc_size (ch_config s)) (ch_aff_out s);
}.

Lemma chain_uncapped_inverse : forall s, wf_chain s ->
  inverse_bijections (cc_size (ch_config s)) (chain_uncapped_permute s) (chain_uncapped_invert s).
Proof.
  intros s W. pose proof (wfh_size s W).
  pose proof (aff_inverse _ _ (wfh_a1 s W)) as I1.
  pose proof (aff_inverse _ _ (wfh_a2 s W)) as I2.
  pose proof (aff_inverse _ _ (wfh_a3 s W)) as I3.
  pose proof (lxor_inverse (cc_size (ch_config s)) _ ltac:(lia) (wfh_inm s W)) as K1.
  pose proof (lxor_inverse (cc_size (ch_config s)) _ ltac:(lia) (wfh_outm s W)) as K2.
  pose proof (inverse_bijections_comp _ _ _ _ _ I1
    (inverse_bijections_comp _ _ _ _ _ K1
      (inverse_bijections_comp _ _ _ _ _ I2
        (inverse_bijections_comp _ _ _ _ _ K2 I3)))) as C.
  eapply inverse_bijections_ext; [exact C| |]; intros v Hv; cbn beta.
  - reflexivity.
  - unfold chain_uncapped_invert. destruct (aff_invert (ch_aff_out s) v); [|reflexivity].
    cbn [bind]. destruct (aff_invert (ch_aff_mid s) _); reflexivity.
Qed.

Lemma chain_permute_uncapped : forall s v,
  chain_permute s v =
  (z <- chain_uncapped_permute s (Z.lxor v (ch_in_key s)) ;; Ok (Z.lxor z (ch_out_key s))).
Proof.
  intros. unfold chain_permute, chain_uncapped_permute.
  destruct (aff_permute (ch_aff_in s) _); [|reflexivity]. cbn [bind].
  destruct (aff_permute (ch_aff_mid s) _); reflexivity.
Qed.
Lemma chain_invert_uncapped : forall s v,
  chain_invert s v =
  (z <- chain_uncapped_invert s (Z.lxor v (ch_out_key s)) ;; Ok (Z.lxor z (ch_in_key s))).
Proof.
  intros. unfold chain_invert, chain_uncapped_invert.
  destruct (aff_invert (ch_aff_out s) _); [|reflexivity]. cbn [bind].
  destruct (aff_invert (ch_aff_mid s) _); reflexivity.
Qed.

Lemma chain_inverse : forall s, wf_chain s ->
  inverse_bijections (cc_size (ch_config s)) (chain_permute s) (chain_invert s).
Proof.
  intros s W. pose proof (wfh_size s W).
  pose proof (lxor_inverse (cc_size (ch_config s)) _ ltac:(lia) (wfh_in s W)) as K1.
  pose proof (lxor_inverse (cc_size (ch_config s)) _ ltac:(lia) (wfh_out s W)) as K2.
  pose proof (chain_uncapped_inverse s W) as U.
  pose proof (inverse_bijections_comp _ _ _ _ _ K1
    (inverse_bijections_comp _ _ _ _ _ U K2)) as C.
  eapply inverse_bijections_ext; [exact C| |]; intros v Hv; cbn beta.
  - rewrite chain_permute_uncapped. reflexivity.
  - rewrite chain_invert_uncapped. reflexivity.
Qed.

(** *** Construction *)
Lemma be_z_bound : forall l, 0 <= be_z l < 256 ^ zlen l.
Proof.
  intro l. unfold be_z, zlen. pose proof (be_int_bound l) as B. unfold blen in B.
  rewrite <- nat_N_Z. change 256 with (Z.of_N 256). rewrite <- N2Z.inj_pow. lia.
Qed.
Lemma be_z_domain : forall size l, zlen l = size -> in_domain size (be_z l).
Proof. intros size l <-. apply be_z_bound. Qed.

Lemma repeat_hex_domain : forall size b, 0 <= size -> in_domain size (repeat_hex size b).
Proof.
  intros size b H. unfold repeat_hex. apply be_z_domain. unfold zlen.
  rewrite repeat_length. lia.
Qed.

Lemma be_int_snoc : forall l b, be_int (l ++ [b]) = (256 * be_int l + bval b)%N.
Proof.
  intros. unfold be_int. rewrite fold_left_app. reflexivity.
Qed.

Lemma repeat_hex_odd : forall size b, 0 < size -> N.odd (bval b) = true ->
  Z.odd (repeat_hex size b) = true.
Proof.
  intros size b H O. unfold repeat_hex, be_z.
  destruct (Z.to_nat size) as [|n] eqn:E; [lia|].
  cbn [repeat]. rewrite repeat_cons, be_int_snoc.
  rewrite N2Z.inj_add, N2Z.inj_mul. change (Z.of_N 256) with (2 * 128).
  rewrite <- Z.mul_assoc, Z.add_comm, Z.odd_add_mul_2.
  destruct (bval b) as [|[p|p|]]; cbn in *; auto.
Qed.

Lemma make_aff_ok : forall c key a, make_aff c key = Ok a ->
  af_config a = c /\ af_add a = be_z key /\ zlen key = ac_key_size c.
Proof.
  intros c key a H. unfold make_aff in H. destruct (_ =? _) eqn:E; [|discriminate].
  apply Ok_inj in H. subst a. apply Z.eqb_eq in E. auto.
Qed.

Lemma make_chain_config_ok : forall k size mult c, make_chain_config k size mult = Ok c ->
  exists p, make_aff_config size mult = Ok p /\ cc_perm c = p /\ cc_kind c = k /\
    cc_size c = size /\ 0 < size /\ cc_domain c = 256 ^ size /\
    cc_ipad c = repeat_hex size xa3 /\ cc_opad c = repeat_hex size x1b /\
    cc_xpad c = repeat_hex size x8d /\
    cc_key_size c = (match k with DefaultChain => 9 | FastChain => 5 end) * size /\
    cc_add_key_size c = 2 * size /\ cc_xor_key_size c = size.
Proof.
  intros k size mult c H. unfold make_chain_config, process_size in H.
  destruct (_ && _) eqn:E in H; [|discriminate]. cbn [bind] in H.
  destruct (make_aff_config size mult) as [p|] eqn:Ep; [|discriminate].
  cbn [bind] in H. apply Ok_inj in H. subst c. exists p.
  split; [reflexivity|].
  cbn [cc_perm cc_kind cc_size cc_domain cc_ipad cc_opad cc_xpad cc_key_size
       cc_add_key_size cc_xor_key_size].
  assert (0 < size) by lia.
  rewrite Z.shiftl_1_l, pow256 by lia.
  destruct k; cbn [key_multiples fold_right]; repeat split; lia.
Qed.

Lemma zlen_take : forall n (l : bytes), 0 <= n <= zlen l -> zlen (take (Z.to_N n) l) = n.
Proof.
  intros n l H. unfold zlen in *. rewrite take_firstn, firstn_length. lia.
Qed.
Lemma zlen_drop : forall n (l : bytes), 0 <= n <= zlen l -> zlen (drop (Z.to_N n) l) = zlen l - n.
Proof.
  intros n l H. unfold zlen in *. rewrite drop_skipn, skipn_length. lia.
Qed.

Lemma make_chain_wf : forall k size mult c key,
  make_chain_config k size mult = Ok c -> zlen key = cc_key_size c ->
  exists s, make_chain c key = Ok s /\ wf_chain s /\ ch_config s = c /\
    ch_increment s = cc_xpad c.
Proof.
  intros k size mult c key Hc Hk.
  destruct (make_chain_config_ok _ _ _ _ Hc) as
    (p & Hp & Ep & Ek & Es & Ps & Ed & Ei & Eo & Ex & EK & Ea & Exo).
  destruct (make_aff_config_wf _ _ _ Hp) as (Wp & Sp & _ & _).
  unfold make_chain. rewrite Hk, Z.eqb_refl. cbn [negb].
  unfold process_xor_key, process_mid_key, read_z. rewrite Exo.
  set (D := drop (Z.to_N size)). set (T := take (Z.to_N size)).
  assert (L0 : 5 * size <= zlen key) by (rewrite Hk, EK; destruct k; lia).
  assert (L1 : zlen (D key) = zlen key - size) by (apply zlen_drop; lia).
  assert (L2 : zlen (D (D key)) = zlen key - 2 * size) by (unfold D; rewrite zlen_drop; fold D; lia).
  assert (L3 : zlen (D (D (D key))) = zlen key - 3 * size) by (unfold D at 1; rewrite zlen_drop; lia).
  assert (T0 : zlen (T key) = size) by (apply zlen_take; lia).
  assert (T1 : zlen (T (D key)) = size) by (apply zlen_take; lia).
  assert (T2 : zlen (T (D (D key))) = size) by (apply zlen_take; lia).
  rewrite T0, Z.eqb_refl. cbn [bind]. rewrite T1, Z.eqb_refl. cbn [bind].
  rewrite T2, Z.eqb_refl. cbn [bind].
  set (rem := D (D (D key))) in *.
  assert (Iw : exists a1 a2 a3, initialize_permutations c (cc_add_key_size c) rem = Ok (a1, a2, a3)
     /\ af_config a1 = p /\ af_config a2 = p /\ af_config a3 = p).
  { assert (mk : forall key0, zlen key0 = 2 * size ->
        make_aff (cc_perm c) key0 = Ok {| af_config := p; af_add := be_z key0 |}).
    { intros key0 H0. unfold make_aff. rewrite Ep, (wfc_key _ Wp), Sp, H0, Z.eqb_refl. reflexivity. }
    unfold initialize_permutations, read_z. rewrite Ek, Ea.
    assert (A1 : zlen (take (Z.to_N (2 * size)) rem) = 2 * size) by (apply zlen_take; lia).
    destruct k.
    - assert (EL : zlen key = 9 * size) by (rewrite Hk, EK; reflexivity).
      assert (L4 : zlen (drop (Z.to_N (2 * size)) rem) = 4 * size) by (rewrite zlen_drop; lia).
      assert (A2 : zlen (take (Z.to_N (2 * size)) (drop (Z.to_N (2 * size)) rem)) = 2 * size)
        by (apply zlen_take; lia).
      assert (A3 : zlen (drop (Z.to_N (2 * size)) (drop (Z.to_N (2 * size)) rem)) = 2 * size)
        by (rewrite zlen_drop; lia).
      rewrite (mk _ A1). cbn [bind]. rewrite (mk _ A2). cbn [bind]. rewrite (mk _ A3). cbn [bind].
      do 3 eexists. split; [reflexivity|]. auto.
    - rewrite (mk _ A1). cbn [bind]. do 3 eexists. split; [reflexivity|]. auto. }
  destruct Iw as (a1 & a2 & a3 & EI & C1 & C2 & C3).
  rewrite EI. cbn [bind]. eexists. split; [reflexivity|].
  split; [|split; reflexivity].
  assert (wa : forall a, af_config a = p -> wf_aff size a)
    by (intros a Ha; constructor; rewrite Ha; assumption).
  constructor;
    cbn [ch_config ch_in_key ch_in_mid_key ch_out_mid_key ch_out_key ch_increment ch_aff_in ch_aff_mid ch_aff_out];
    rewrite ?Es; auto.
  - apply be_z_domain; assumption.
  - apply lxor_domain; [lia|apply be_z_domain; assumption|rewrite Ei; apply repeat_hex_domain; lia].
  - apply lxor_domain; [lia|apply be_z_domain; assumption|rewrite Eo; apply repeat_hex_domain; lia].
  - apply be_z_domain; assumption.
  - rewrite Ex. apply repeat_hex_domain; lia.
  - rewrite Ex. apply repeat_hex_odd; [lia|reflexivity].
Qed.

Lemma make_chain_len : forall c key s, make_chain c key = Ok s -> zlen key = cc_key_size c.
Proof.
  intros c key s H. unfold make_chain in H. destruct (_ =? _) eqn:E in H; [|discriminate].
  apply Z.eqb_eq in E. exact E.
Qed.

(** *** Tweaks preserve well-formedness *)
Lemma lor_domain : forall size a b, 0 < size ->
  in_domain size a -> in_domain size b -> in_domain size (Z.lor a b).
Proof.
  intros size a b Hs [A1 A2] [B1 B2].
  unfold in_domain. split; [apply Z.lor_nonneg; tauto|].
  rewrite <- pow256 in * by lia.
  destruct (Z.eq_dec (Z.lor a b) 0) as [->|N]; [apply Z.pow_pos_nonneg; lia|].
  assert (0 <= Z.lor a b) by (apply Z.lor_nonneg; tauto).
  apply Z.log2_lt_pow2; [lia|].
  rewrite Z.log2_lor by assumption.
  apply Z.max_lub_lt.
  - destruct (Z.eq_dec a 0) as [->|]; [change (Z.log2 0) with 0; lia|]. apply Z.log2_lt_pow2; lia.
  - destruct (Z.eq_dec b 0) as [->|]; [change (Z.log2 0) with 0; lia|]. apply Z.log2_lt_pow2; lia.
Qed.

Lemma chain_step_wf : forall s, wf_chain s -> wf_chain (chain_step s).
Proof.
  intros s W. destruct W. constructor; unfold chain_step, set_in_key;
    cbn [ch_config ch_in_key ch_in_mid_key ch_out_mid_key ch_out_key ch_increment ch_aff_in ch_aff_mid ch_aff_out];
    auto.
  unfold in_domain. rewrite wfh_dom0. apply Z.mod_pos_bound. apply pow256_pos. lia.
Qed.

Lemma chain_update_wf : forall s v s', wf_chain s -> chain_update_increment s v = Ok s' ->
  wf_chain s' /\ 0 < v < cc_domain (ch_config s).
Proof.
  intros s v s' W H. unfold chain_update_increment in H.
  destruct (_ && _) eqn:E in H; [|discriminate]. apply Ok_inj in H. subst s'.
  split; [|lia].
  destruct W. constructor; unfold set_increment;
    cbn [ch_config ch_in_key ch_in_mid_key ch_out_mid_key ch_out_key ch_increment ch_aff_in ch_aff_mid ch_aff_out];
    auto.
  - apply lor_domain; [lia| |].
    + apply lxor_domain; [lia|assumption|]. unfold in_domain. lia.
    + unfold in_domain. pose proof (Z.pow_gt_1 256 (cc_size (ch_config s))). lia.
  - rewrite <- Z.bit0_odd, Z.lor_spec. rewrite Bool.orb_true_r. reflexivity.
Qed.

Lemma chain_do_wf : forall s o, wf_chain s -> wf_chain (chain_do s o).
Proof.
  intros s [|v] W; cbn [chain_do]; [apply chain_step_wf; exact W|].
  destruct (chain_update_increment s v) as [s'|] eqn:E; [|exact W].
  apply (chain_update_wf s v s' W E).
Qed.
Lemma chain_do_config : forall s o, ch_config (chain_do s o) = ch_config s.
Proof.
  intros s [|v]; cbn [chain_do]; [reflexivity|].
  unfold chain_update_increment. destruct (_ && _); reflexivity.
Qed.
Lemma after_wf : forall ops s, wf_chain s -> wf_chain (after s ops).
Proof.
  unfold after. induction ops as [|o ops IH]; intros s W; cbn [fold_left]; [exact W|].
  apply IH. apply chain_do_wf. exact W.
Qed.
Lemma after_config : forall ops s, ch_config (after s ops) = ch_config s.
Proof.
  unfold after. induction ops as [|o ops IH]; intros s; cbn [fold_left]; [reflexivity|].
  rewrite IH. apply chain_do_config.
Qed.

(** *** Two parties *)
Lemma lock_step : forall h s, wf_chain s ->
  Forall (in_domain (cc_size (ch_config s))) (transferred h) ->
  receiver s h (sender s h) = map Ok (transferred h).
Proof.
  induction h as [|[o|v] h IH]; intros s W F; cbn [sender receiver transferred flat_map app map].
  - reflexivity.
  - apply IH; [apply chain_do_wf; exact W|]. rewrite chain_do_config. exact F.
  - cbn [transferred flat_map app] in F. inversion F as [|? ? F1 F2]; subst.
    destruct (chain_inverse s W) as [I _]. destruct (I v F1) as (w & A & _ & B).
    rewrite A. cbn [bind]. rewrite B. f_equal. apply IH; assumption.
Qed.

(** *** Latin square *)
Lemma stepped_in_key : forall n s, wf_chain s ->
  ch_in_key (stepped s n) = (ch_in_key s + Z.of_nat n * ch_increment s) mod cc_domain (ch_config s) /\
  ch_increment (stepped s n) = ch_increment s /\
  ch_in_mid_key (stepped s n) = ch_in_mid_key s /\ ch_out_mid_key (stepped s n) = ch_out_mid_key s /\
  ch_out_key (stepped s n) = ch_out_key s /\ ch_aff_in (stepped s n) = ch_aff_in s /\
  ch_aff_mid (stepped s n) = ch_aff_mid s /\ ch_aff_out (stepped s n) = ch_aff_out s.
Proof.
  unfold stepped, after. induction n as [|n IH]; intros s W.
  - cbn [repeat fold_left]. rewrite Z.mul_0_l, Z.add_0_r.
    split; [|auto 10]. rewrite (wfh_dom s W). symmetry. apply Z.mod_small. apply (wfh_in s W).
  - cbn [repeat fold_left chain_do].
    destruct (IH (chain_step s) (chain_step_wf s W)) as (A & B & C & D & E & F & G & H).
    rewrite A, B, C, D, E, F, G, H.
    unfold chain_step, set_in_key;
    cbn [ch_config ch_in_key ch_in_mid_key ch_out_mid_key ch_out_key ch_increment ch_aff_in ch_aff_mid ch_aff_out].
    split; [|auto 10]. rewrite Zplus_mod_idemp_l. f_equal. lia.
Qed.

Lemma odd_mult_inj : forall k inc i j x, 0 < k -> Z.odd inc = true ->
  0 <= i < 2 ^ k -> 0 <= j < 2 ^ k ->
  (x + i * inc) mod 2 ^ k = (x + j * inc) mod 2 ^ k -> i = j.
Proof.
  intros k inc i j x Hk O Hi Hj E.
  assert (P : 0 < 2 ^ k) by (apply Z.pow_pos_nonneg; lia).
  assert (D : (2 ^ k | inc * (i - j))).
  { apply Z.mod_divide; [lia|].
    replace (inc * (i - j)) with ((x + i * inc) - (x + j * inc)) by ring.
    rewrite Zminus_mod, E, Z.sub_diag. apply Z.mod_0_l. lia. }
  apply Gauss in D.
  - destruct D as [q Q]. assert (q = 0) by nia. nia.
  - apply rel_prime_sym. apply rel_prime_Zpower_r; [lia|].
    apply rel_prime_sym. apply prime_rel_prime; [apply prime_2|].
    intros [q Q]. rewrite Q in O. rewrite Z.mul_comm, Z.odd_mul in O. discriminate.
Qed.

Lemma lxor_inj_r : forall v a b, Z.lxor v a = Z.lxor v b -> a = b.
Proof.
  intros v a b H. rewrite <- (lxor_cancel a v), <- (lxor_cancel b v).
  rewrite (Z.lxor_comm a v), (Z.lxor_comm b v), H. reflexivity.
Qed.
Lemma lxor_inj_l : forall v a b, Z.lxor a v = Z.lxor b v -> a = b.
Proof. intros v a b H. rewrite !(Z.lxor_comm _ v) in H. apply lxor_inj_r in H. exact H. Qed.

Lemma latin_column : forall s v i j y, wf_chain s ->
  in_domain (cc_size (ch_config s)) v ->
  Z.of_nat i < 256 ^ cc_size (ch_config s) -> Z.of_nat j < 256 ^ cc_size (ch_config s) ->
  chain_permute (stepped s i) v = Ok y -> chain_permute (stepped s j) v = Ok y -> i = j.
Proof.
  intros s v i j y W Hv Hi Hj Ei Ej.
  pose proof (wfh_size s W) as Ps.
  pose proof (stepped_in_key i s W) as Ki. pose proof (stepped_in_key j s W) as Kj.
  assert (Wi : wf_chain (stepped s i)) by (apply after_wf; exact W).
  assert (Wj : wf_chain (stepped s j)) by (apply after_wf; exact W).
  assert (Ci : ch_config (stepped s i) = ch_config s) by apply after_config.
  assert (Cj : ch_config (stepped s j) = ch_config s) by apply after_config.
  rewrite chain_permute_uncapped in Ei, Ej.
  destruct Ki as (Ki & _ & Ki3 & Ki4 & Ki5 & Ki6 & Ki7 & Ki8).
  destruct Kj as (Kj & _ & Kj3 & Kj4 & Kj5 & Kj6 & Kj7 & Kj8).
  unfold chain_uncapped_permute in Ei, Ej.
  rewrite Ki3, Ki4, Ki5, Ki6, Ki7, Ki8 in Ei.
  rewrite Kj3, Kj4, Kj5, Kj6, Kj7, Kj8 in Ej.
  fold (chain_uncapped_permute s (Z.lxor v (ch_in_key (stepped s i)))) in Ei.
  fold (chain_uncapped_permute s (Z.lxor v (ch_in_key (stepped s j)))) in Ej.
  pose proof (wfh_in _ Wi) as Di. pose proof (wfh_in _ Wj) as Dj.
  rewrite Ci in Di. rewrite Cj in Dj.
  assert (Vi : in_domain (cc_size (ch_config s)) (Z.lxor v (ch_in_key (stepped s i))))
    by (apply lxor_domain; [lia|assumption|assumption]).
  assert (Vj : in_domain (cc_size (ch_config s)) (Z.lxor v (ch_in_key (stepped s j))))
    by (apply lxor_domain; [lia|assumption|assumption]).
  pose proof (chain_uncapped_inverse s W) as U.
  destruct (proj1 U _ Vi) as (zi & Zi & _ & _). destruct (proj1 U _ Vj) as (zj & Zj & _ & _).
  rewrite Zi in Ei. rewrite Zj in Ej. cbn [bind] in Ei, Ej. apply Ok_inj in Ei, Ej.
  assert (zi = zj) by (apply (lxor_inj_l (ch_out_key s)); congruence). subst zj.
  pose proof (inverse_bijections_inj _ _ _ U _ _ _ Vi Vj Zi Zj) as X.
  apply lxor_inj_r in X. rewrite Ki, Kj, (wfh_dom s W) in X.
  rewrite <- !pow256 in * by lia.
  apply odd_mult_inj in X; [lia|lia|apply (wfh_odd s W)|lia|lia].
Qed.

(** A full period brings the instance back to where it was. *)
Lemma period : forall s, wf_chain s ->
  stepped s (Z.to_nat (256 ^ cc_size (ch_config s))) = s.
Proof.
  intros s W. pose proof (stepped_in_key (Z.to_nat (256 ^ cc_size (ch_config s))) s W) as K.
  pose proof (after_config (repeat OpStep (Z.to_nat (256 ^ cc_size (ch_config s)))) s) as C.
  fold (stepped s (Z.to_nat (256 ^ cc_size (ch_config s)))) in C.
  pose proof (pow256_pos (cc_size (ch_config s)) ltac:(pose proof (wfh_size s W); lia)) as PP.
  destruct (stepped s _) as [c inc ik im om ok a1 a2 a3].
  cbn [ch_config ch_in_key ch_in_mid_key ch_out_mid_key ch_out_key ch_increment ch_aff_in ch_aff_mid ch_aff_out] in K, C.
  destruct K as (K & -> & -> & -> & -> & -> & -> & ->). subst c.
  rewrite Z2Nat.id in K by lia. rewrite (wfh_dom s W) in K.
  rewrite Z.mul_comm, Z.mod_add in K by lia.
  rewrite Z.mod_small in K by apply (wfh_in s W). subst ik. destruct s; reflexivity.
Qed.

Lemma odd_mult_solve : forall k inc x t, 0 < k -> Z.odd inc = true ->
  exists i, 0 <= i < 2 ^ k /\ (x + i * inc) mod 2 ^ k = t mod 2 ^ k.
Proof.
  intros k inc x t Hk O.
  assert (P : 0 < 2 ^ k) by (apply Z.pow_pos_nonneg; lia).
  assert (R : rel_prime inc (2 ^ k)).
  { apply rel_prime_Zpower_r; [lia|]. apply rel_prime_sym. apply prime_rel_prime; [apply prime_2|].
    intros [q Q]. rewrite Q in O. rewrite Z.mul_comm, Z.odd_mul in O. discriminate. }
  apply rel_prime_bezout in R. destruct R as [u v H].
  exists (((t - x) * u) mod 2 ^ k). split; [apply Z.mod_pos_bound; exact P|].
  rewrite Zplus_mod, Zmult_mod_idemp_l, <- Zplus_mod.
  replace (x + (t - x) * u * inc) with (t + (- (t - x) * v) * 2 ^ k).
  - apply Z.mod_add. lia.
  - assert (u * inc = 1 - v * 2 ^ k) as E by lia.
    replace ((t - x) * u * inc) with ((t - x) * (u * inc)) by ring. rewrite E. ring.
Qed.

Lemma latin_column_cover : forall s v y, wf_chain s ->
  in_domain (cc_size (ch_config s)) v -> in_domain (cc_size (ch_config s)) y ->
  exists i, Z.of_nat i < 256 ^ cc_size (ch_config s) /\
    chain_permute (stepped s i) v = Ok y.
Proof.
  intros s v y W Hv Hy.
  pose proof (wfh_size s W) as Ps.
  pose proof (chain_uncapped_inverse s W) as U.
  assert (Hy' : in_domain (cc_size (ch_config s)) (Z.lxor y (ch_out_key s)))
    by (apply lxor_domain; [lia|assumption|apply (wfh_out s W)]).
  destruct (proj2 U _ Hy') as (x & _ & Dx & Ex).
  set (t := Z.lxor x v).
  assert (Dt : in_domain (cc_size (ch_config s)) t) by (apply lxor_domain; [lia|assumption|assumption]).
  destruct (odd_mult_solve (8 * cc_size (ch_config s)) (ch_increment s) (ch_in_key s) t
    ltac:(lia) (wfh_odd s W)) as (i & Hi & Ei).
  rewrite pow256 in * by lia.
  exists (Z.to_nat i). split; [lia|].
  destruct (stepped_in_key (Z.to_nat i) s W) as (K & _ & K3 & K4 & K5 & K6 & K7 & K8).
  rewrite chain_permute_uncapped. unfold chain_uncapped_permute.
  rewrite K3, K4, K5, K6, K7, K8.
  fold (chain_uncapped_permute s (Z.lxor v (ch_in_key (stepped s (Z.to_nat i))))).
  rewrite K, Z2Nat.id, (wfh_dom s W), Ei by lia.
  rewrite Z.mod_small by exact Dt. unfold t.
  rewrite (Z.lxor_comm v), lxor_cancel, Ex. cbn [bind].
  rewrite lxor_cancel. reflexivity.
Qed.

(** ** Outside the domain *)
Lemma walk_fixpoint : forall f max v fuel, f v = v -> v > max -> walk fuel f max v = Err Diverges.
Proof.
  intros f max v fuel E H. induction fuel as [|fuel IH]; cbn [walk];
    replace (v >? max) with true by lia; [reflexivity|]. rewrite E. exact IH.
Qed.
