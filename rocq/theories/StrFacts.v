(** * Facts about strings and dicts *)
From Verif Require Import Base StrModel.
Local Open Scope N_scope.

Lemma str_eqb_eq a b : str_eqb a b = true <-> a = b.
Proof.
  revert b. induction a as [|x a IH]; intros [|y b]; cbn; split; intros H; try congruence.
  - apply andb_true_iff in H as (E & H). apply N.eqb_eq in E as ->. f_equal. now apply IH.
  - injection H as -> ->. rewrite N.eqb_refl. now apply IH.
Qed.
Lemma str_eqb_neq a b : str_eqb a b = false <-> a <> b.
Proof. rewrite <- str_eqb_eq. destruct (str_eqb a b); split; congruence. Qed.
Lemma str_eqb_refl a : str_eqb a a = true.
Proof. now apply str_eqb_eq. Qed.
Lemma str_dec (a b : str) : {a = b} + {a <> b}.
Proof. apply list_eq_dec, N.eq_dec. Qed.

Section Dict.
Context {K V : Type}.
Variable eqb : K -> K -> bool.
Hypothesis eqb_eq : forall a b, eqb a b = true <-> a = b.
Lemma eqb_refl a : eqb a a = true.
Proof. now apply eqb_eq. Qed.
Lemma eqb_neq a b : a <> b -> eqb a b = false.
Proof. intros N. destruct (eqb a b) eqn:E; [|reflexivity]. now apply eqb_eq in E. Qed.
Lemma eqb_sym a b : eqb a b = eqb b a.
Proof.
  destruct (eqb a b) eqn:E; symmetry; [apply eqb_eq in E as ->; apply eqb_refl|]. apply eqb_neq. intros ->. now rewrite eqb_refl in E.
Qed.
Implicit Types d : list (K * V).
Lemma get_set d k v k' : dict_get eqb (dict_set eqb d k v) k' = if eqb k k' then Some v else dict_get eqb d k'.
Proof.
  induction d as [|[a w] d IH]; cbn; [reflexivity|]. destruct (eqb a k) eqn:E; cbn.
  - apply eqb_eq in E as ->. now destruct (eqb k k').
  - rewrite IH. destruct (eqb a k') eqn:F; [|reflexivity]. apply eqb_eq in F as ->. rewrite eqb_sym in E. now rewrite E.
Qed.
Lemma keys_set d k v : map fst (dict_set eqb d k v) = if existsb (eqb k) (map fst d) then map fst d else map fst d ++ [k].
Proof.
  induction d as [|[a w] d IH]; cbn; [reflexivity|]. rewrite (eqb_sym k a). destruct (eqb a k) eqn:E; cbn; [reflexivity|].
  rewrite IH. now destruct (existsb _ _).
Qed.
Lemma nodup_set d k v : NoDup (map fst d) -> NoDup (map fst (dict_set eqb d k v)).
Proof.
  intros N. rewrite keys_set. destruct (existsb (eqb k) (map fst d)) eqn:E; [assumption|].
  assert (~ In k (map fst d)) as I. { intros I. assert (existsb (eqb k) (map fst d) = true); [|congruence]. apply existsb_exists. exists k. split; [assumption|apply eqb_refl]. }
  clear E. induction (map fst d) as [|a l IH]; cbn; [repeat constructor; auto|]. inversion N; subst. constructor.
  - intros J. apply in_app_or in J as [J|[J|[]]]; [contradiction|]. apply I. now left.
  - apply IH; [assumption|]. intros J. apply I. now right.
Qed.
Lemma get_in d k v : dict_get eqb d k = Some v -> In (k, v) d.
Proof. induction d as [|[a w] d IH]; cbn; [discriminate|]. destruct (eqb a k) eqn:E; [apply eqb_eq in E as ->; intros H; injection H as ->; now left|]. intros H. right. auto. Qed.
Lemma in_get d k v : NoDup (map fst d) -> In (k, v) d -> dict_get eqb d k = Some v.
Proof.
  induction d as [|[a w] d IH]; cbn; [intros _ []|]. intros N [E|I]; inversion N; subst.
  - injection E as -> ->. now rewrite eqb_refl.
  - rewrite eqb_neq; [auto|]. intros ->. apply H1. now apply (in_map fst) in I.
Qed.
Lemma get_none d k : dict_get eqb d k = None <-> ~ In k (map fst d).
Proof.
  induction d as [|[a w] d IH]; cbn; [tauto|]. destruct (eqb a k) eqn:E.
  - apply eqb_eq in E as ->. split; [discriminate|]. intros H. exfalso. apply H. now left.
  - rewrite IH. split; [intros H [J|J]; [subst; now rewrite eqb_refl in E|auto]|tauto].
Qed.
Lemma get_some_in d k : (exists v, dict_get eqb d k = Some v) <-> In k (map fst d).
Proof.
  split.
  - intros (v & H). apply get_in in H. now apply (in_map fst) in H.
  - intros I. destruct (dict_get eqb d k) eqn:E; [eauto|]. now apply get_none in E.
Qed.
Lemma get_del d k k' : NoDup (map fst d) -> dict_get eqb (dict_del eqb d k) k' = if eqb k k' then None else dict_get eqb d k'.
Proof.
  induction d as [|[a w] d IH]; intros N; cbn; [now destruct (eqb k k')|]. inversion N; subst. destruct (eqb a k) eqn:E; cbn.
  - apply eqb_eq in E as ->. destruct (eqb k k') eqn:F; [|reflexivity]. apply eqb_eq in F as <-. now apply get_none.
  - rewrite IH by assumption. destruct (eqb a k') eqn:F; [|reflexivity]. apply eqb_eq in F as ->. rewrite eqb_sym in E. now rewrite E.
Qed.
Lemma nodup_del d k : NoDup (map fst d) -> NoDup (map fst (dict_del eqb d k)).
Proof.
  induction d as [|[a w] d IH]; intros N; cbn; [constructor|]. inversion N; subst. destruct (eqb a k); [assumption|]. cbn. constructor; [|auto].
  intros I. apply H1. clear - I. induction d as [|[b u] d IH]; cbn in *; [contradiction|]. destruct (eqb b k); [now right|]. destruct I as [I|I]; [now left|right; auto].
Qed.
Lemma nodup_update items d : NoDup (map fst d) -> NoDup (map fst (dict_update eqb d items)).
Proof. revert d. induction items as [|[k v] items IH]; intros d N; [exact N|]. cbn. apply IH. now apply nodup_set. Qed.
End Dict.
