(** * The mapping that is also a namespace: proofs *)
From Coq Require Import Strings.String.
From Verif Require Import Base BaseFacts StrModel StrFacts BagModel BagSpec.
Open Scope list_scope.

Lemma get_update (l : bag) : forall (d : bag) k, NoDup (map fst l) -> dict_get str_eqb (dict_update str_eqb d l) k = match dict_get str_eqb l k with Some x => Some x | None => dict_get str_eqb d k end.
Proof.
  induction l as [|[n v] l IH]; intros d k N; [reflexivity|]. inversion N; subst. unfold dict_update in *. cbn [fold_left fst snd]. rewrite IH by assumption. cbn [dict_get].
  rewrite (get_set (V := BinNums.N) str_eqb str_eqb_eq). destruct (str_eqb n k) eqn:X; [|reflexivity]. apply str_eqb_eq in X. subst k.
  now rewrite (proj2 (get_none (V := BinNums.N) str_eqb str_eqb_eq l n)).
Qed.
Lemma call_ok {A} b name (x y : A) : call b name x = Ok y -> x = y.
Proof. unfold call. destruct (get_attribute b name) as [[]|]; cbn; congruence. Qed.
Lemma nodup_apply b o b' : NoDup (map fst b) -> apply_op b o = Ok b' -> NoDup (map fst b').
Proof.
  intros N E. destruct o; cbn in E.
  - injection E as <-. now apply nodup_set; [apply str_eqb_eq|].
  - destruct (contains b name); [|discriminate]. injection E as <-. now apply nodup_del.
  - injection E as <-. now apply nodup_set; [apply str_eqb_eq|].
  - destruct (contains b name); [|discriminate]. injection E as <-. now apply nodup_del.
  - apply call_ok in E as <-. apply nodup_update; [apply str_eqb_eq|]. apply nodup_update; [apply str_eqb_eq|exact N].
  - apply call_ok in E as <-. constructor.
Qed.
Lemma nodup_ops os : forall b, NoDup (map fst b) -> NoDup (map fst (ops b os)).
Proof.
  induction os as [|o os IH]; intros b N; [exact N|]. unfold ops. cbn [fold_left]. apply IH. destruct (apply_op b o) eqn:E; [|exact N]. eapply nodup_apply; eauto.
Qed.
Lemma nodup_new m k : NoDup (map fst (new_bag m k)).
Proof. unfold new_bag. apply nodup_update; [apply str_eqb_eq|]. apply nodup_update; [apply str_eqb_eq|constructor]. Qed.
Lemma apply_after b o b' n : NoDup (map fst b) -> fair o -> apply_op b o = Ok b' -> dict_get str_eqb b' n = after (of_dict b) o n.
Proof.
  intros N F E. destruct o; cbn in E |- *; unfold only, of_dict, over.
  - injection E as <-. apply get_set. apply str_eqb_eq.
  - destruct (contains b name); [|discriminate]. injection E as <-. apply get_del; [apply str_eqb_eq|exact N].
  - injection E as <-. apply get_set. apply str_eqb_eq.
  - destruct (contains b name); [|discriminate]. injection E as <-. apply get_del; [apply str_eqb_eq|exact N].
  - apply call_ok in E as <-. destruct F. now rewrite !get_update.
  - apply call_ok in E as <-. reflexivity.
Qed.
Lemma call_works {A} b name (x : A) : In name methods -> (call b name x = Ok x <-> ~ In name (map fst b)) /\ (In name (map fst b) -> call b name x = Err TypeErr).
Proof.
  intros I. unfold call, get_attribute. assert (existsb (str_eqb name) methods = true) as X by (apply existsb_exists; exists name; split; [exact I|apply str_eqb_refl]). rewrite X.
  pose proof (get_none (V := BinNums.N) str_eqb str_eqb_eq b name) as G. destruct (dict_get str_eqb b name); cbn; split.
  - split; [discriminate|]. intros H. apply G in H. discriminate.
  - reflexivity.
  - split; [intros _; now apply G|reflexivity].
  - intros H. exfalso. now apply G.
Qed.
