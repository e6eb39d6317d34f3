(** * C11 - C14: keyed permutations.

    [make_aff_config size mult = Ok c] and [make_chain_config k size mult = Ok c]
    say that c is the configuration which the library builds for that byte size
    and multiplier; [make_aff c key = Ok a] and [make_chain c key = Ok s] that
    the instance was created from [key]. *)
From Verif Require Import Base BaseFacts PermModel PermSpec PermProofs.
Local Open Scope Z_scope.

(** Prove a conjunction of closed equations from left to right. *)
Ltac ex_split := repeat (refine (conj _ _); [vm_compute; reflexivity|]); vm_compute; reflexivity.

(** ** C11 *)
Theorem C11_affine_bijection : forall size mult c key a,
  make_aff_config size mult = Ok c -> make_aff c key = Ok a ->
  inverse_bijections size (aff_permute a) (aff_invert a).
Proof.
  intros size mult c key a Hc Ha.
  destruct (make_aff_config_wf _ _ _ Hc) as (W & S & _).
  apply make_aff_ok in Ha. destruct Ha as (E & _).
  apply aff_inverse. constructor; rewrite E; assumption.
Qed.
Print Assumptions C11_affine_bijection.

Theorem C11_affine_injective : forall size mult c key a v w y,
  make_aff_config size mult = Ok c -> make_aff c key = Ok a ->
  in_domain size v -> in_domain size w ->
  aff_permute a v = Ok y -> aff_permute a w = Ok y -> v = w.
Proof.
  intros size mult c key a v w y Hc Ha.
  exact (inverse_bijections_inj _ _ _ (C11_affine_bijection _ _ _ _ _ Hc Ha) v w y).
Qed.
Print Assumptions C11_affine_injective.

(** Every registered size has a configuration for every multiplier that is
    coprime to the modulus. *)
Theorem C11_affine_exists : forall size,
  shipped_size size ->
  exists prime, 256 ^ size < prime < 256 ^ size + 1000 /\
  forall mult key, Z.gcd mult prime = 1 -> zlen key = 2 * size ->
  exists c a, make_aff_config size mult = Ok c /\ ac_prime c = prime /\ make_aff c key = Ok a.
Proof.
  intros size S. destruct (shipped_cases size S) as [off P].
  destruct (prime_offset_spec _ _ P) as [_ B].
  exists (256 ^ size + off). split; [lia|]. intros mult key G L.
  destruct (make_aff_config_total size mult off S P G) as [c C]. exists c.
  destruct (make_aff_config_wf _ _ _ C) as (W & Es & _).
  eexists. split; [exact C|]. split.
  - unfold make_aff_config, process_size, prime_of in C.
    destruct (_ && _) in C; [|discriminate C]. cbn [bind] in C. rewrite P in C. cbn [bind] in C.
    rewrite pow256 in C by (unfold shipped_size in S; lia).
    destruct (pow_inverse _ _) in C; [|discriminate C]. cbn [bind] in C.
    apply Ok_inj in C. subst c. reflexivity.
  - unfold make_aff. rewrite (wfc_key _ W), Es, L, Z.eqb_refl. reflexivity.
Qed.
Print Assumptions C11_affine_exists.

(** A size that is not between 1 and 4096 is refused as a bad value, for both permutations. *)
Theorem C11_sizes_refused : forall size mult k, ~ 1 <= size <= 4096 ->
  make_aff_config size mult = Err ValueErr /\ make_chain_config k size mult = Err ValueErr.
Proof.
  intros size mult k N. unfold make_aff_config, make_chain_config, process_size.
  destruct (Z.geb_spec 4096 size); destruct (Z.gtb_spec size 0); cbn [andb bind]; try (split; reflexivity). lia.
Qed.
Print Assumptions C11_sizes_refused.

Example C11_case : exists c a,
  make_aff_config 1 37 = Ok c /\ make_aff c [x01; x05] = Ok a /\
  aff_permute a 7 = Ok 6 /\ aff_invert a 6 = Ok 7 /\ in_domain 1 7.
Proof.
  do 2 eexists. split; [vm_compute; reflexivity|]. split; [vm_compute; reflexivity|].
  split; [vm_compute; reflexivity|]. split; [vm_compute; reflexivity|]. unfold in_domain; lia.
Qed.
(** A value for which the walk leaves the domain and comes back:
    37 * v + 0 = 256 modulo 257 for v = 125. *)
Example C11_walk_case : exists c a,
  make_aff_config 1 37 = Ok c /\ make_aff c [x00; x00] = Ok a /\
  aff_round a 125 = 256 /\ aff_permute a 125 = Ok 220 /\ aff_invert a 220 = Ok 125.
Proof. do 2 eexists. ex_split. Qed.

(** Values outside the domain are not refused: they collide with values inside,
    and for some keys the call never returns, however many rounds are run. *)
Theorem C11_affine_out_of_domain_refuted :
  exists c a, make_aff_config 1 37 = Ok c /\ make_aff c [x00; x24] = Ok a /\
    aff_permute a 260 = aff_permute a 3 /\
    (forall fuel, walk fuel (aff_round a) (ac_max c) (aff_round a 256) = Err Diverges).
Proof.
  do 2 eexists. split; [vm_compute; reflexivity|]. split; [vm_compute; reflexivity|].
  split; [vm_compute; reflexivity|]. intro fuel. apply walk_fixpoint; vm_compute; reflexivity.
Qed.
Print Assumptions C11_affine_out_of_domain_refuted.

(** ** C12 *)
(** Whatever tweaks were made before, permute and invert are inverse bijections;
    likewise for the uncapped variants. *)
Theorem C12_chain_bijection : forall k size mult c key s ops,
  make_chain_config k size mult = Ok c -> make_chain c key = Ok s ->
  inverse_bijections size (chain_permute (after s ops)) (chain_invert (after s ops)) /\
  inverse_bijections size (chain_uncapped_permute (after s ops)) (chain_uncapped_invert (after s ops)).
Proof.
  intros k size mult c key s ops Hc Hs.
  destruct (make_chain_wf _ _ _ _ key Hc (make_chain_len _ _ _ Hs)) as (s' & E & W & C & _).
  rewrite Hs in E. apply Ok_inj in E. subst s'.
  destruct (make_chain_config_ok _ _ _ _ Hc) as (p & _ & _ & _ & Es & _).
  pose proof (after_wf ops s W) as W'. pose proof (after_config ops s) as C'.
  pose proof (chain_inverse _ W') as I. pose proof (chain_uncapped_inverse _ W') as J.
  rewrite C', C, Es in I, J. split; assumption.
Qed.
Print Assumptions C12_chain_bijection.

(** Two instances made from the same key and driven by the same history of steps
    and increment updates, accepted or refused: the receiver recovers every value
    the sender permuted, in order. *)
Theorem C12_lock_step : forall k size mult c key s r h,
  make_chain_config k size mult = Ok c ->
  make_chain c key = Ok s -> make_chain c key = Ok r ->
  Forall (in_domain size) (transferred h) ->
  receiver r h (sender s h) = map Ok (transferred h).
Proof.
  intros k size mult c key s r h Hc Hs Hr F.
  destruct (make_chain_wf _ _ _ _ key Hc (make_chain_len _ _ _ Hs)) as (s' & E & W & C & _).
  rewrite Hs in E. apply Ok_inj in E. subst s'. rewrite Hs in Hr. apply Ok_inj in Hr. subst r.
  destruct (make_chain_config_ok _ _ _ _ Hc) as (p & _ & _ & _ & Es & _).
  apply lock_step; [exact W|]. rewrite C, Es. exact F.
Qed.
Print Assumptions C12_lock_step.

Definition ex_key5 : bytes := map byte_of [1; 2; 3; 4; 5]%N.
Definition ex_key18 : bytes := map (fun i => byte_of (N.of_nat i * 7 + 3)) (seq 0 18).
Example C12_case_fast : exists c s,
  make_chain_config FastChain 1 37 = Ok c /\ make_chain c ex_key5 = Ok s /\
  sender s [Transfer 9; Tweak OpStep; Transfer 9; Tweak (OpUpdateIncrement 256);
            Tweak (OpUpdateIncrement 6); Tweak OpStep; Transfer 200]
    = [Ok 87; Ok 35; Ok 52].
Proof. do 2 eexists. ex_split. Qed.
Example C12_case_default : exists c s,
  make_chain_config DefaultChain 2 12345 = Ok c /\ make_chain c ex_key18 = Ok s /\
  sender s [Transfer 9; Tweak OpStep; Transfer 9] = [Ok 43768; Ok 8228].
Proof. do 2 eexists. ex_split. Qed.

(** ** C13 *)
(** After any history, the next [256 ^ size] steps fill a Latin square: at each
    step the outputs are a permutation of the domain, and for each input every
    output occurs at exactly one step. *)
Theorem C13_latin_square : forall k size mult c key s0 ops,
  make_chain_config k size mult = Ok c -> make_chain c key = Ok s0 ->
  let s := after s0 ops in
  (forall i, inverse_bijections size (chain_permute (stepped s i)) (chain_invert (stepped s i))) /\
  (forall v y, in_domain size v -> in_domain size y ->
     exists! i, Z.of_nat i < 256 ^ size /\ chain_permute (stepped s i) v = Ok y).
Proof.
  intros k size mult c key s0 ops Hc Hs s.
  destruct (make_chain_wf _ _ _ _ key Hc (make_chain_len _ _ _ Hs)) as (s' & E & W & C & _).
  rewrite Hs in E. apply Ok_inj in E. subst s'.
  destruct (make_chain_config_ok _ _ _ _ Hc) as (p & _ & _ & _ & Es & _).
  assert (W' : wf_chain s) by (apply after_wf; exact W).
  assert (C' : cc_size (ch_config s) = size) by (unfold s; rewrite after_config, C; exact Es).
  split.
  - intro i. pose proof (chain_inverse (stepped s i) (after_wf _ _ W')) as I.
    unfold stepped in *. rewrite after_config, C' in I. exact I.
  - intros v y Hv Hy. rewrite <- C' in *.
    destruct (latin_column_cover s v y W' Hv Hy) as (i & Hi & Ei).
    exists i. split; [split; assumption|]. intros j [Hj Ej].
    exact (latin_column s v i j y W' Hv Hi Hj Ei Ej).
Qed.
Print Assumptions C13_latin_square.

(** The square then repeats: a full period leaves the instance as it was. *)
Theorem C13_full_period : forall k size mult c key s0 ops,
  make_chain_config k size mult = Ok c -> make_chain c key = Ok s0 ->
  stepped (after s0 ops) (Z.to_nat (256 ^ size)) = after s0 ops.
Proof.
  intros k size mult c key s0 ops Hc Hs.
  destruct (make_chain_wf _ _ _ _ key Hc (make_chain_len _ _ _ Hs)) as (s' & E & W & C & _).
  rewrite Hs in E. apply Ok_inj in E. subst s'.
  destruct (make_chain_config_ok _ _ _ _ Hc) as (p & _ & _ & _ & Es & _).
  pose proof (period _ (after_wf ops s0 W)) as P.
  rewrite after_config, C, Es in P. exact P.
Qed.
Print Assumptions C13_full_period.

(** The increment is odd and in range after any history. *)
Theorem C13_increment_odd : forall k size mult c key s0 ops,
  make_chain_config k size mult = Ok c -> make_chain c key = Ok s0 ->
  Z.odd (ch_increment (after s0 ops)) = true /\ in_domain size (ch_increment (after s0 ops)).
Proof.
  intros k size mult c key s0 ops Hc Hs.
  destruct (make_chain_wf _ _ _ _ key Hc (make_chain_len _ _ _ Hs)) as (s' & E & W & C & _).
  rewrite Hs in E. apply Ok_inj in E. subst s'.
  destruct (make_chain_config_ok _ _ _ _ Hc) as (p & _ & _ & _ & Es & _).
  pose proof (after_wf ops s0 W) as W'. split; [apply (wfh_odd _ W')|].
  pose proof (wfh_inc _ W') as I. rewrite after_config, C, Es in I. exact I.
Qed.
Print Assumptions C13_increment_odd.

Example C13_case : exists c s,
  make_chain_config FastChain 1 37 = Ok c /\ make_chain c ex_key5 = Ok s /\
  map (fun i => chain_permute (stepped s i) 9) (seq 0 4) = [Ok 87; Ok 35; Ok 43; Ok 71].
Proof. do 2 eexists. ex_split. Qed.

(** ** C14 *)
Theorem C14_affine_key_length : forall size mult c key,
  make_aff_config size mult = Ok c ->
  (zlen key = 2 * size -> exists a, make_aff c key = Ok a) /\
  (zlen key <> 2 * size -> make_aff c key = Err InvalidLength).
Proof.
  intros size mult c key Hc. destruct (make_aff_config_wf _ _ _ Hc) as (W & S & _).
  unfold make_aff. rewrite (wfc_key _ W), S. split; intro H.
  - rewrite H, Z.eqb_refl. eexists. reflexivity.
  - apply Z.eqb_neq in H. rewrite H. reflexivity.
Qed.
Print Assumptions C14_affine_key_length.

Theorem C14_chain_key_length : forall k size mult c key,
  make_chain_config k size mult = Ok c ->
  let required := match k with DefaultChain => 9 * size | FastChain => 5 * size end in
  (zlen key = required -> exists s, make_chain c key = Ok s) /\
  (zlen key <> required -> make_chain c key = Err InvalidLength).
Proof.
  intros k size mult c key Hc. cbv zeta.
  destruct (make_chain_config_ok _ _ _ _ Hc) as
    (p & _ & _ & _ & _ & _ & _ & _ & _ & _ & EK & _).
  replace (match k with DefaultChain => 9 * size | FastChain => 5 * size end)
    with (cc_key_size c) by (rewrite EK; destruct k; reflexivity).
  split; intro H.
  - destruct (make_chain_wf _ _ _ _ key Hc H) as (s & E & _). exists s. exact E.
  - unfold make_chain. apply Z.eqb_neq in H. rewrite H. reflexivity.
Qed.
Print Assumptions C14_chain_key_length.

(** At any moment an increment update is accepted exactly inside the open range;
    a refused one raises ValueError and changes nothing; an accepted one changes
    nothing but the increment. *)
Theorem C14_increment_validated : forall k size mult c key s0 ops v,
  make_chain_config k size mult = Ok c -> make_chain c key = Ok s0 ->
  let s := after s0 ops in
  (0 < v < 256 ^ size ->
     exists s', chain_update_increment s v = Ok s' /\
       ch_increment s' = Z.lor (Z.lxor (ch_increment s) v) 1 /\
       (forall x, chain_permute s' x = chain_permute s x)) /\
  (~ 0 < v < 256 ^ size ->
     chain_update_increment s v = Err ValueErr /\ chain_do s (OpUpdateIncrement v) = s).
Proof.
  intros k size mult c key s0 ops v Hc Hs s.
  destruct (make_chain_wf _ _ _ _ key Hc (make_chain_len _ _ _ Hs)) as (s' & E & W & C & _).
  rewrite Hs in E. apply Ok_inj in E. subst s'.
  destruct (make_chain_config_ok _ _ _ _ Hc) as (p & _ & _ & _ & Es & _).
  assert (D : cc_domain (ch_config s) = 256 ^ size).
  { unfold s. rewrite (wfh_dom _ (after_wf ops s0 W)), after_config, C, Es. reflexivity. }
  cbn [chain_do]. unfold chain_update_increment. rewrite D. split; intro H.
  - replace ((256 ^ size >? v) && (v >? 0)) with true by lia.
    eexists. split; [reflexivity|]. split; reflexivity.
  - replace ((256 ^ size >? v) && (v >? 0)) with false by lia. split; reflexivity.
Qed.
Print Assumptions C14_increment_validated.

Example C14_case : exists c s,
  make_chain_config FastChain 1 37 = Ok c /\ make_chain c ex_key5 = Ok s /\
  make_chain c ex_key18 = Err InvalidLength /\
  chain_update_increment s 256 = Err ValueErr /\ is_ok (chain_update_increment s 255) = true.
Proof. do 2 eexists. ex_split. Qed.
