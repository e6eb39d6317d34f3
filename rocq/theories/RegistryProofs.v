(** * The registry of types: proofs *)
From Coq Require Import Strings.String.
From Verif Require Import Base BaseFacts StrModel StrFacts RegistryModel RegistrySpec.
Open Scope list_scope.

Section R.
Variables isidentifier isupper : str -> bool.
Notation add_type := (add_type isidentifier isupper).
Notation add_to := (add_to isidentifier isupper).
Notation adds := (adds isidentifier isupper).
Notation proper := (proper isidentifier isupper).

Lemma is_type_spec t : test_type t = Ok tt <-> is_type t.
Proof.
  unfold test_type, is_type. destruct (has_mro t), (has_mro_tuple t), (has_bases t), (has_prepare t); cbn; split; intros H; try discriminate; try reflexivity;
    try (repeat split; reflexivity); decompose [and] H; discriminate.
Qed.
Lemma name_spec cls name : test_type_name isidentifier isupper cls name = Ok tt <-> dict_get str_eqb cls name = None /\ proper name.
Proof.
  unfold test_type_name, RegistrySpec.proper. destruct name as [|c rest].
  { split; [discriminate|]. intros (_ & _ & _ & c & r & E & _). discriminate. }
  assert (existsb (fun c => N.eqb c 95) (c :: rest) = false <-> ~ In 95%N (c :: rest)) as X.
  { rewrite <- not_true_iff_false, existsb_exists. split; intros H K; apply H; [exists 95%N; split; [exact K|reflexivity]|].
    destruct K as (x & I & E). apply N.eqb_eq in E. now subst. }
  destruct (isidentifier (c :: rest)); cbn [negb]; [|split; [discriminate|intros (_ & K & _); discriminate]].
  destruct (dict_get str_eqb cls (c :: rest)); [split; [discriminate|intros (K & _); discriminate]|].
  destruct (existsb _ (c :: rest)) eqn:M; cbn [orb].
  { split; [discriminate|]. intros (_ & _ & N & _). apply X in N. discriminate. }
  destruct (isupper [c]) eqn:U; cbn [negb].
  - split; [|reflexivity]. intros _. split; [reflexivity|]. split; [reflexivity|]. split; [now apply X|]. exists c, rest. auto.
  - split; [discriminate|]. intros (_ & _ & _ & a & r & E & K). injection E as <- <-. congruence.
Qed.
Lemma add_spec cls t cls' : add_type cls t = Ok cls' <->
  exists name, qualname t = Some name /\ is_type t /\ dict_get str_eqb cls name = None /\ proper name /\ cls' = dict_set str_eqb cls name (t_id t).
Proof.
  unfold RegistryModel.add_type. destruct (qualname t) as [name|]; [|split; [discriminate|intros (n & E & _); discriminate]]. split.
  - intros E. exists name. destruct (test_type t) as [[]|] eqn:T; [|discriminate]. apply is_type_spec in T. cbn in E.
    destruct (test_type_name isidentifier isupper cls name) as [[]|] eqn:N; [|discriminate]. apply name_spec in N. cbn in E. injection E as <-. tauto.
  - intros (n & E & T & G & P & ->). injection E as <-. apply is_type_spec in T. rewrite T. cbn.
    rewrite (proj2 (name_spec cls name) (conj G P)). reflexivity.
Qed.

(** One call: what was in a class's own dictionary stays, and what is new is as it should be. *)
Lemma one cs : forall i t j name v, 
  (forall d, nth_error cs j = Some d -> dict_get str_eqb d name = Some v -> exists d', nth_error (add_to cs i t) j = Some d' /\ dict_get str_eqb d' name = Some v) /\
  (forall d', nth_error (add_to cs i t) j = Some d' -> dict_get str_eqb d' name = Some v ->
     (exists d, nth_error cs j = Some d /\ dict_get str_eqb d name = Some v) \/ (i = j /\ qualname t = Some name /\ is_type t /\ proper name /\ t_id t = v)).
Proof.
  induction cs as [|c cs IH]; intros i t j name v; [split; intros d N; destruct j; discriminate|].
  destruct i as [|i]; cbn [RegistryModel.add_to].
  - destruct (add_type c t) as [c'|e] eqn:E; [|split; [intros d N G|intros d N G; left]; eauto].
    apply add_spec in E as (n & Q & T & G0 & P & ->). split.
    + intros d N G. destruct j as [|j]; cbn in *; [|eauto]. injection N as <-. eexists. split; [reflexivity|].
      rewrite (get_set (V := N) str_eqb str_eqb_eq). destruct (str_eqb n name) eqn:X; [|exact G]. apply str_eqb_eq in X. congruence.
    + intros d N G. destruct j as [|j]; cbn in *; [|left; eauto]. injection N as <-.
      rewrite (get_set (V := BinNums.N) str_eqb str_eqb_eq) in G. destruct (str_eqb n name) eqn:X; [|left; eauto].
      apply str_eqb_eq in X. subst n. injection G as <-. right. tauto.
  - split; intros d N G; destruct j as [|j]; cbn in *; eauto.
    + destruct (IH i t j name v) as [A _]. eapply A; eauto.
    + destruct (IH i t j name v) as [_ B]. destruct (B d N G) as [H|H]; [left; exact H|right]. destruct H as (-> & H). auto.
Qed.
Lemma many calls : forall cs j name v,
  (forall d, nth_error cs j = Some d -> dict_get str_eqb d name = Some v -> exists d', nth_error (adds cs calls) j = Some d' /\ dict_get str_eqb d' name = Some v) /\
  (forall d', nth_error (adds cs calls) j = Some d' -> dict_get str_eqb d' name = Some v ->
     (exists d, nth_error cs j = Some d /\ dict_get str_eqb d name = Some v) \/
     exists t, In (j, t) calls /\ qualname t = Some name /\ is_type t /\ proper name /\ t_id t = v).
Proof.
  induction calls as [|[i t] calls IH]; intros cs j name v; [split; [eauto|intros d N G; left; eauto]|].
  unfold RegistryModel.adds. cbn [fold_left fst snd]. fold (adds (add_to cs i t) calls). destruct (one cs i t j name v) as [A B]. destruct (IH (add_to cs i t) j name v) as [A2 B2].
  split.
  - intros d N G. destruct (A d N G) as (d1 & N1 & G1). exact (A2 d1 N1 G1).
  - intros d N G. destruct (B2 d N G) as [(d1 & N1 & G1)|(u & I & H)].
    + destruct (B d1 N1 G1) as [H|(-> & H)]; [left; exact H|]. right. exists t. split; [now left|exact H].
    + right. exists u. split; [now right|exact H].
Qed.

(** Calls on a derived class do not reach the classes it is derived from. *)
Lemma add_to_skip cs : forall i k t, i < k -> skipn k (add_to cs i t) = skipn k cs.
Proof.
  induction cs as [|c cs IH]; intros i k t L; [reflexivity|]. destruct k as [|k]; [lia|]. destruct i as [|i]; cbn [RegistryModel.add_to].
  - destruct (add_type c t); reflexivity.
  - cbn. apply IH. lia.
Qed.
Lemma adds_skip calls : forall cs k, Forall (fun it => fst it < k) calls -> skipn k (adds cs calls) = skipn k cs.
Proof.
  induction calls as [|[i t] calls IH]; intros cs k F; [reflexivity|]. unfold RegistryModel.adds. cbn [fold_left fst snd]. fold (adds (add_to cs i t) calls).
  inversion F; subst. rewrite IH by assumption. apply add_to_skip. assumption.
Qed.

Lemma collect_get {V} (m : list (str * V)) name :
  (public isupper name -> dict_get str_eqb (collect_non_private_constants isupper m) name = dict_get str_eqb m name) /\
  (~ public isupper name -> dict_get str_eqb (collect_non_private_constants isupper m) name = None).
Proof.
  unfold public. induction m as [|[n v] m [IH1 IH2]]; [split; reflexivity|]. cbn [collect_non_private_constants filter fst dict_get].
  fold (collect_non_private_constants isupper m).
  destruct (isupper n && negb match n with c :: _ => N.eqb c 95 | [] => false end) eqn:E; cbn [dict_get].
  - destruct (str_eqb n name) eqn:X; [|auto]. apply str_eqb_eq in X. subst n. split; [reflexivity|]. intros H. exfalso. apply H.
    apply andb_prop in E as [U S]. split; [exact U|]. intros r ->. discriminate.
  - split; [|exact IH2]. intros P. rewrite (IH1 P). destruct (str_eqb n name) eqn:X; [|reflexivity]. apply str_eqb_eq in X. subst n. exfalso.
    destruct P as [U S]. rewrite U in E. cbn in E. destruct name as [|c r]; [discriminate|]. apply negb_false_iff, N.eqb_eq in E. subst c. now apply (S r).
Qed.
End R.
