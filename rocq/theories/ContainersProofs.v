(** * Containers: proofs *)
From Coq Require Import Strings.String.
From Verif Require Import Base BaseFacts StrModel StrFacts ContainersModel ContainersSpec.
Local Open Scope N_scope.

Lemma name_eqb_eq a b : name_eqb a b = true <-> a = b.
Proof.
  destruct a as [a|a], b as [b|b]; cbn; split; intros H; try congruence.
  - now apply str_eqb_eq in H as ->.
  - injection H as ->. apply str_eqb_refl.
  - now apply N.eqb_eq in H as ->.
  - injection H as ->. apply N.eqb_refl.
Qed.
Lemma name_eqb_refl a : name_eqb a a = true.
Proof. now apply name_eqb_eq. Qed.
Lemma mem_in s l : mem s l = true <-> In s l.
Proof.
  unfold mem. rewrite existsb_exists. split; [intros (x & I & E); apply str_eqb_eq in E as ->; assumption|intros I; exists s; split; [assumption|apply str_eqb_refl]].
Qed.
Notation gset := (get_set _ name_eqb_eq).
Notation sset := (get_set _ str_eqb_eq).

Section C.
Variable V : Type.
Variable vc : V -> name -> result bool.
Variable vcall : V -> name -> V -> result unit.
Variable c : klass V.
Notation inst := (inst V).
Notation setitem := (setitem V vc vcall c).
Notation delitem := (delitem V c).
Notation update := (update V vc vcall c).
Notation clear := (clear V c).
Notation do := (do V vc vcall c).
Notation run := (run V vc vcall c).
Notation contains := (contains V vc c).
Notation item := (item_get V).
Notation slot := (slot_get V).

Ltac crunch := repeat match goal with
  | |- context [match ?x with _ => _ end] => destruct x eqn:?; cbn [fst snd i_slots i_dict]
  | |- context [if ?x then _ else _] => destruct x eqn:?; cbn [fst snd i_slots i_dict]
  end.

(** A refused assignment or deletion changes nothing. *)
Lemma setitem_err o k v o' e : setitem o k v = (o', Err e) -> o' = o.
Proof.
  unfold ContainersModel.setitem, typed_setitem, slots_setitem, object_setattr. crunch; intros H; now inversion H.
Qed.
Lemma delitem_err o k o' e : delitem o k = (o', Err e) -> o' = o.
Proof. unfold ContainersModel.delitem, object_delattr. crunch; intros H; now inversion H. Qed.

(** What an accepted assignment does. *)
Lemma setitem_ok o k v o' : setitem o k v = (o', Ok tt) ->
  (c_frozen V c = true -> contains o k = Ok false) /\
  match k with
  | Str s => s <> DICT /\
     (mem s (c_slots V c) = true /\ o' = {| i_slots := dict_set str_eqb (i_slots V o) s v; i_dict := i_dict V o |} \/
      mem s (c_slots V c) = false /\ has_dict V c = true /\ o' = {| i_slots := i_slots V o; i_dict := dict_set name_eqb (i_dict V o) k v |})
  | Obj _ => has_dict V c = true /\ o' = {| i_slots := i_slots V o; i_dict := dict_set name_eqb (i_dict V o) k v |}
  end.
Proof.
  intros H. assert (typed_setitem V vc vcall c o k v = (o', Ok tt) /\ (c_frozen V c = true -> contains o k = Ok false)) as (T & F).
  { unfold ContainersModel.setitem in H. destruct (c_frozen V c); [|split; [exact H|discriminate]]. destruct (contains o k) as [[|]|e]; try discriminate. auto. }
  clear H. split; [exact F|]. assert (slots_setitem V vc c o k v = (o', Ok tt)) as S.
  { unfold typed_setitem in T. destruct (c_typed V c); [|exact T]. destruct (item o (Str VALIDATE)) as [w|]; [destruct (vcall w k v)|destruct (validate_type V c k v)]; try discriminate; exact T. }
  clear T. unfold slots_setitem in S. destruct (match item o (Str RESTRICTED) with Some w => vc w k | None => Ok (mem_name k (c_restricted V c)) end) as [[|]|e]; try discriminate.
  destruct k as [s|n].
  - unfold object_setattr in S. destruct (mem s (c_reserved V c)); [discriminate|]. cbn [orb] in S. destruct (str_eqb s DICT) eqn:D; [discriminate|].
    split; [now apply str_eqb_neq|]. destruct (mem s (c_slots V c)); [left; inversion S; auto|]. destruct (has_dict V c); [right; inversion S; auto|discriminate].
  - destruct (has_dict V c); [inversion S; auto|discriminate].
Qed.

Lemma do_ok_unit (r : result unit) : (exists e, r = Err e) \/ r = Ok tt.
Proof. destruct r as [[]|e]; eauto. Qed.

(** Containment, without hiding. *)
Lemma contains_item o k v : item o k = Some v -> contains o k <> Ok false.
Proof.
  intros E. unfold ContainersModel.contains. destruct (match item o (Str SLOTS_SET) with Some w => vc w k | None => Ok (mem_name k (c_slots V c)) end) as [b|e]; cbn; [|discriminate].
  rewrite E. rewrite orb_true_r. discriminate.
Qed.
Lemma contains_slot o s v : item o (Str SLOTS_SET) = None -> mem s (c_slots V c) = true -> slot o s = Some v -> contains o (Str s) <> Ok false.
Proof.
  intros N M E. unfold ContainersModel.contains. rewrite N. cbn. rewrite M. cbn. unfold slot_set. rewrite E. rewrite orb_true_r. cbn. discriminate.
Qed.
End C.

Section Frozen.
Variable V : Type.
Variable vc : V -> name -> result bool.
Variable vcall : V -> name -> V -> result unit.
Variable c : klass V.
Hypothesis FZ : c_frozen V c = true.
Notation setitem := (setitem V vc vcall c).
Notation update := (update V vc vcall c).
Notation clear := (clear V c).
Notation do := (do V vc vcall c).
Notation run := (run V vc vcall c).
Notation item := (item_get V).
Notation slot := (slot_get V).

(** Items of the dict never change, except by clearing. *)
Lemma setitem_item o k v k' w : item o k' = Some w -> item (fst (setitem o k v)) k' = Some w.
Proof.
  intros E. destruct (setitem o k v) as [o' r] eqn:S. cbn [fst]. destruct (do_ok_unit r) as [(e & ->)| ->].
  - now rewrite (setitem_err _ _ _ _ _ _ _ _ _ S).
  - apply setitem_ok in S as (F & S). specialize (F FZ). assert (name_eqb k k' = false) as NE.
    { destruct (name_eqb k k') eqn:Q; [|reflexivity]. apply name_eqb_eq in Q as ->. now apply (contains_item V vc c) in E. }
    destruct k as [s|n].
    + destruct S as (_ & [(_ & ->)|(_ & _ & ->)]); [exact E|]. unfold item_get. cbn [i_dict]. rewrite gset, NE. exact E.
    + destruct S as (_ & ->). unfold item_get. cbn [i_dict]. rewrite gset, NE. exact E.
Qed.
Lemma setitem_slot o k v s w : item o (Str SLOTS_SET) = None -> mem s (c_slots V c) = true -> slot o s = Some w -> slot (fst (setitem o k v)) s = Some w.
Proof.
  intros N M E. destruct (setitem o k v) as [o' r] eqn:S. cbn [fst]. destruct (do_ok_unit r) as [(e & ->)| ->].
  - now rewrite (setitem_err _ _ _ _ _ _ _ _ _ S).
  - apply setitem_ok in S as (F & S). specialize (F FZ). assert (k <> Str s) as NE by (intros ->; now apply (contains_slot V vc c) in E).
    destruct k as [t|n].
    + destruct S as (_ & [(_ & ->)|(_ & _ & ->)]); [|exact E]. unfold slot_get. cbn [i_slots]. rewrite sset. replace (str_eqb t s) with false; [exact E|].
      symmetry. apply str_eqb_neq. congruence.
    + destruct S as (_ & ->). exact E.
Qed.
Lemma setitem_unhidden o k v : k <> Str SLOTS_SET -> item o (Str SLOTS_SET) = None -> item (fst (setitem o k v)) (Str SLOTS_SET) = None.
Proof.
  intros NE N. destruct (setitem o k v) as [o' r] eqn:S. cbn [fst]. destruct (do_ok_unit r) as [(e & ->)| ->].
  - now rewrite (setitem_err _ _ _ _ _ _ _ _ _ S).
  - apply setitem_ok in S as (_ & S). assert (name_eqb k (Str SLOTS_SET) = false) as Q.
    { destruct (name_eqb _ _) eqn:Q; [|reflexivity]. now apply name_eqb_eq in Q. }
    destruct k as [s|n].
    + destruct S as (_ & [(_ & ->)|(_ & _ & ->)]); [exact N|]. unfold item_get. cbn [i_dict]. rewrite gset, Q. exact N.
    + destruct S as (_ & ->). unfold item_get. cbn [i_dict]. rewrite gset, Q. exact N.
Qed.

Lemma update_ind (P : inst V -> Prop) items : (forall o k v, In k (map fst items) -> P o -> P (fst (setitem o k v))) -> forall o, P o -> P (fst (update o items)).
Proof.
  induction items as [|[k v] items IH]; intros H o Po; [exact Po|]. cbn. pose proof (H o k v (or_introl eq_refl) Po) as Q.
  destruct (setitem o k v) as [o' [u|e]]; cbn [fst] in Q; [|exact Q]. apply IH; [|exact Q]. intros o2 k2 v2 I. apply H. now right.
Qed.
Lemma run_ind (P : inst V -> Prop) (Q : op V -> Prop) ops : (forall o p, Q p -> P o -> P (fst (do o p))) -> Forall Q ops -> forall o, P o -> P (run ops o).
Proof.
  intros H F. induction F as [|p ops q F IH]; intros o Po; [exact Po|]. cbn. apply IH. now apply H.
Qed.
Lemma delitem_frozen o k : delitem V c o k = (o, Err PermissionErr).
Proof. unfold delitem. now rewrite FZ. Qed.

Lemma item_kept o p k w : p <> Clear V -> item o k = Some w -> item (fst (do o p)) k = Some w.
Proof.
  intros N E. destruct p as [k' v|k'|items|]; cbn.
  - now apply setitem_item.
  - now rewrite delitem_frozen.
  - apply (update_ind (fun o => item o k = Some w)); [|exact E]. intros. now apply setitem_item.
  - contradiction.
Qed.
Lemma slot_kept o p s w : plain "_slots_set"%string p -> mem s (c_slots V c) = true -> item o (Str SLOTS_SET) = None /\ slot o s = Some w ->
  item (fst (do o p)) (Str SLOTS_SET) = None /\ slot (fst (do o p)) s = Some w.
Proof.
  intros (NC & NH) M (N & E). destruct p as [k' v|k'|items|]; cbn.
  - split; [apply setitem_unhidden; [exact NH|exact N]|now apply setitem_slot].
  - now rewrite delitem_frozen.
  - apply (update_ind (fun o => item o (Str SLOTS_SET) = None /\ slot o s = Some w)); [|auto].
    intros o' k v I (N' & E'). split; [apply setitem_unhidden; [|exact N']|now apply setitem_slot]. intros ->. now apply NH.
  - contradiction.
Qed.

(** Without a dict there is nothing to hide and nothing to clear. *)
Lemma clear_slots_frozen o l : fst (clear_slots V c o l) = o.
Proof. revert o. induction l as [|s l IH]; intros o; [reflexivity|]. cbn. destruct (slot_set V o s); [now rewrite delitem_frozen|apply IH]. Qed.
Lemma no_dict_do o p : has_dict V c = false -> i_dict V o = [] -> i_dict V (fst (do o p)) = [].
Proof.
  intros ND E. assert (forall o k v, i_dict V o = [] -> i_dict V (fst (setitem o k v)) = []) as H.
  { intros o' k v E'. destruct (setitem o' k v) as [o2 r] eqn:S. cbn [fst]. destruct (do_ok_unit r) as [(e & ->)| ->].
    - now rewrite (setitem_err _ _ _ _ _ _ _ _ _ S).
    - apply setitem_ok in S as (_ & S). destruct k; [destruct S as (_ & [(_ & ->)|(_ & D & _)]); [exact E'|congruence]|destruct S as (D & _); congruence]. }
  destruct p as [k v|k|items|]; cbn.
  - now apply H.
  - now rewrite delitem_frozen.
  - apply (update_ind (fun o => i_dict V o = [])); [|exact E]. intros. now apply H.
  - unfold ContainersModel.clear. now rewrite clear_slots_frozen.
Qed.
Lemma no_dict_slot o p s w : has_dict V c = false -> mem s (c_slots V c) = true -> i_dict V o = [] /\ slot o s = Some w -> i_dict V (fst (do o p)) = [] /\ slot (fst (do o p)) s = Some w.
Proof.
  intros ND M (E & S). split; [now apply no_dict_do|]. destruct p as [k v|k|items|]; cbn.
  - apply setitem_slot; [|exact M|exact S]. unfold item_get. now rewrite E.
  - now rewrite delitem_frozen.
  - refine (proj2 (update_ind (fun o => i_dict V o = [] /\ slot o s = Some w) items _ o (conj E S))).
    intros o' k v _ (E' & S'). split; [exact (no_dict_do o' (SetItem V k v) ND E')|apply setitem_slot; [|exact M|exact S']]. unfold item_get. now rewrite E'.
  - unfold ContainersModel.clear. now rewrite clear_slots_frozen.
Qed.

(** Clearing a frozen namespace. *)
Lemma clear_slots_raises o l : In DICT l -> clear_slots V c o l = (o, Err PermissionErr).
Proof.
  induction l as [|s l IH]; intros I; [contradiction|]. cbn. destruct (slot_set V o s) eqn:E; [now rewrite delitem_frozen|].
  destruct I as [->|I]; [|auto]. unfold slot_set in E. now rewrite str_eqb_refl in E.
Qed.
End Frozen.

(** ** Types *)
Lemma in_dict_set {K W} (eqb : K -> K -> bool) d k (v : W) x : In x (dict_set eqb d k v) -> In x d \/ snd x = v /\ (fst x = k \/ eqb (fst x) k = true).
Proof.
  induction d as [|[a w] d IH]; cbn; [intros [<-|[]]; right; cbn; auto|]. destruct (eqb a k) eqn:E; cbn.
  - intros [<-|I]; [right; cbn; auto|auto].
  - intros [<-|I]; [auto|]. destruct (IH I) as [J|J]; auto.
Qed.
Lemma in_dict_del {K W} (eqb : K -> K -> bool) d k (x : K * W) : In x (dict_del eqb d k) -> In x d.
Proof.
  induction d as [|[a w] d IH]; cbn; [auto|]. destruct (eqb a k); cbn; [auto|]. intros [<-|I]; auto.
Qed.
Lemma dict_del_none {W} d k k' : dict_get (V:=W) name_eqb d k' = None -> dict_get name_eqb (dict_del name_eqb d k) k' = None.
Proof.
  intros H. apply (get_none _ name_eqb_eq) in H. apply (get_none _ name_eqb_eq). intros I. apply H. apply in_map_iff in I as (x & E & I).
  apply in_map_iff. exists x. split; [exact E|]. now apply in_dict_del in I.
Qed.

Section Any.
Variable V : Type.
Variable vc : V -> name -> result bool.
Variable vcall : V -> name -> V -> result unit.
Variable c : klass V.
Notation setitem := (setitem V vc vcall c).
Notation do := (do V vc vcall c).
Notation run := (run V vc vcall c).
Notation item := (item_get V).
Notation slot := (slot_get V).

(** What deleting does. *)
Lemma delitem_ok o k o' : delitem V c o k = (o', Ok tt) ->
  o' = {| i_slots := i_slots V o; i_dict := [] |} \/
  (exists s, k = Str s /\ o' = {| i_slots := dict_del str_eqb (i_slots V o) s; i_dict := i_dict V o |}) \/
  o' = {| i_slots := i_slots V o; i_dict := dict_del name_eqb (i_dict V o) k |}.
Proof.
  unfold delitem, object_delattr. destruct (c_frozen V c); [discriminate|]. destruct k as [s|n].
  - destruct (mem s (c_reserved V c)); [discriminate|]. destruct (str_eqb s DICT).
    + destruct (has_dict V c); [|discriminate]. intros H. inversion H. auto.
    + destruct (mem s (c_slots V c)).
      * destruct (slot o s); [|discriminate]. intros H. inversion H. eauto.
      * destruct (item o (Str s)); [|discriminate]. intros H. inversion H. eauto.
  - destruct (has_dict V c); [|discriminate]. destruct (item o (Obj n)); [|discriminate]. intros H. inversion H. auto.
Qed.

(** Invariants that survive deletion and single assignments survive everything. *)
Lemma update_ind' (P : inst V -> Prop) items : (forall o k v, In k (map fst items) -> P o -> P (fst (setitem o k v))) -> forall o, P o -> P (fst (update V vc vcall c o items)).
Proof.
  induction items as [|[k v] items IH]; intros H o Po; [exact Po|]. cbn. pose proof (H o k v (or_introl eq_refl) Po) as Q.
  destruct (setitem o k v) as [o' [u|e]]; cbn [fst] in Q; [|exact Q]. apply IH; [|exact Q]. intros o2 k2 v2 I. apply H. now right.
Qed.
Lemma clear_ind (P : inst V -> Prop) : (forall o k, P o -> P (fst (delitem V c o k))) -> (forall o, P o -> P {| i_slots := i_slots V o; i_dict := [] |}) ->
  forall o, P o -> P (fst (clear V c o)).
Proof.
  intros HD HC o Po. unfold clear. apply HC in Po. revert Po. generalize {| i_slots := i_slots V o; i_dict := [] |}. induction (c_slots V c) as [|s l IH]; intros o' Po; [exact Po|].
  cbn. destruct (slot_set V o' s); [|auto]. pose proof (HD o' (Str s) Po) as Q. destruct (delitem V c o' (Str s)) as [o2 [u|e]]; cbn [fst] in Q; [auto|exact Q].
Qed.
Lemma do_ind (P : inst V -> Prop) (A : name -> Prop) : (forall o k v, A k -> P o -> P (fst (setitem o k v))) ->
  (forall o k, P o -> P (fst (delitem V c o k))) -> (forall o, P o -> P {| i_slots := i_slots V o; i_dict := [] |}) ->
  forall ops, Forall (fun p => forall k, assigns p k -> A k) ops -> forall o, P o -> P (run ops o).
Proof.
  intros HS HD HC ops F. induction F as [|p ops a F IH]; intros o Po; [exact Po|]. cbn. apply IH. destruct p as [k v|k|items|]; cbn.
  - apply HS; [|exact Po]. now apply a.
  - now apply HD.
  - apply update_ind'; [|exact Po]. intros o' k v I. apply HS. now apply a.
  - now apply clear_ind.
Qed.
Lemma delitem_P (P : inst V -> Prop) : (forall o, P o -> P {| i_slots := i_slots V o; i_dict := [] |}) ->
  (forall o s, P o -> P {| i_slots := dict_del str_eqb (i_slots V o) s; i_dict := i_dict V o |}) ->
  (forall o k, P o -> P {| i_slots := i_slots V o; i_dict := dict_del name_eqb (i_dict V o) k |}) ->
  forall o k, P o -> P (fst (delitem V c o k)).
Proof.
  intros H1 H2 H3 o k Po. destruct (delitem V c o k) as [o' r] eqn:D. cbn [fst]. destruct (do_ok_unit r) as [(e & ->)| ->].
  - now rewrite (delitem_err _ _ _ _ _ _ D).
  - apply delitem_ok in D as [->|[(s & _ & ->)| ->]]; auto.
Qed.

Definition well_typed (o : inst V) : Prop := forall s v check, In (s, v) (i_slots V o) -> dict_get str_eqb (c_types V c) s = Some check -> check v = true.

Lemma setitem_typed o k v o' : c_typed V c = true -> item o (Str VALIDATE) = None -> setitem o k v = (o', Ok tt) -> validate_type V c k v = Ok tt.
Proof.
  intros TY N S. unfold ContainersModel.setitem in S. assert (typed_setitem V vc vcall c o k v = (o', Ok tt)) as T.
  { destruct (c_frozen V c); [|exact S]. destruct (contains _ _ _ _ _) as [[|]|]; try discriminate. exact S. }
  unfold typed_setitem in T. rewrite TY, N in T. destruct (validate_type V c k v) as [[]|e]; [reflexivity|discriminate].
Qed.
Lemma typed_setitem_kept o k v : c_typed V c = true -> k <> Str VALIDATE -> item o (Str VALIDATE) = None /\ well_typed o ->
  item (fst (setitem o k v)) (Str VALIDATE) = None /\ well_typed (fst (setitem o k v)).
Proof.
  intros TY NE (N & W). destruct (setitem o k v) as [o' r] eqn:S. cbn [fst]. destruct (do_ok_unit r) as [(e & ->)| ->].
  - now rewrite (setitem_err _ _ _ _ _ _ _ _ _ S).
  - pose proof (setitem_typed _ _ _ _ TY N S) as T. apply setitem_ok in S as (_ & S). assert (name_eqb k (Str VALIDATE) = false) as Q.
    { destruct (name_eqb _ _) eqn:Q; [|reflexivity]. now apply name_eqb_eq in Q. }
    destruct k as [s|n].
    + destruct S as (_ & [(_ & ->)|(_ & _ & ->)]).
      * split; [exact N|]. intros t w check. cbn [i_slots]. intros I C. apply in_dict_set in I as [I|(E & F)]; [now apply (W t)|]. cbn [fst snd] in E, F.
        assert (t = s) as -> by (destruct F as [F|F]; [exact F|now apply str_eqb_eq in F]). cbn in T. rewrite C in T. subst w. destruct (check v); [reflexivity|discriminate].
      * split; [unfold item_get; cbn [i_dict]; rewrite gset, Q; exact N|exact W].
    + destruct S as (_ & ->). split; [unfold item_get; cbn [i_dict]; rewrite gset, Q; exact N|exact W].
Qed.
Lemma typed_run ops : c_typed V c = true -> Forall (fun p => forall k, assigns p k -> k <> Str VALIDATE) ops ->
  forall o, item o (Str VALIDATE) = None /\ well_typed o -> item (run ops o) (Str VALIDATE) = None /\ well_typed (run ops o).
Proof.
  intros TY F o I. pattern (run ops o). apply (do_ind (fun o => item o (Str VALIDATE) = None /\ well_typed o) (fun k => k <> Str VALIDATE)); [..|exact F|exact I].
  - intros. now apply typed_setitem_kept.
  - apply delitem_P.
    + intros o' (A & B). now split.
    + intros o' s (A & B). split; [exact A|]. intros t w check J. cbn [i_slots] in J. apply in_dict_del in J. now apply B.
    + intros o' k (A & B). split; [|exact B]. unfold item_get. cbn [i_dict]. now apply dict_del_none.
  - intros o' (A & B). now split.
Qed.
(** A class without a dict hides nothing. *)
Lemma setitem_nodict o k v : has_dict V c = false -> i_dict V o = [] -> i_dict V (fst (setitem o k v)) = [].
Proof.
  intros ND E. destruct (setitem o k v) as [o2 r] eqn:S. cbn [fst]. destruct (do_ok_unit r) as [(e & ->)| ->].
  - now rewrite (setitem_err _ _ _ _ _ _ _ _ _ S).
  - apply setitem_ok in S as (_ & S). destruct k; [destruct S as (_ & [(_ & ->)|(_ & D & _)]); [exact E|congruence]|destruct S as (D & _); congruence].
Qed.
Lemma typed_run_nodict ops : c_typed V c = true -> has_dict V c = false -> forall o, i_dict V o = [] /\ well_typed o -> i_dict V (run ops o) = [] /\ well_typed (run ops o).
Proof.
  intros TY ND o I. pattern (run ops o). apply (do_ind (fun o => i_dict V o = [] /\ well_typed o) (fun _ => True)); [..|exact I].
  - intros o' k v _ (A & B). split; [now apply setitem_nodict|]. assert (item o' (Str VALIDATE) = None) as N by (unfold item_get; now rewrite A).
    destruct (setitem o' k v) as [o2 r] eqn:S. cbn [fst]. destruct (do_ok_unit r) as [(e & ->)| ->]; [now rewrite (setitem_err _ _ _ _ _ _ _ _ _ S)|].
    pose proof (setitem_typed _ _ _ _ TY N S) as T. apply setitem_ok in S as (_ & S). destruct k as [s|n]; [|destruct S; congruence].
    destruct S as (_ & [(_ & ->)|(_ & D & _)]); [|congruence]. intros t w check. cbn [i_slots]. intros J C. apply in_dict_set in J as [J|(E & F)]; [now apply (B t)|]. cbn [fst snd] in E, F.
    assert (t = s) as -> by (destruct F as [F|F]; [exact F|now apply str_eqb_eq in F]). cbn in T. rewrite C in T. subst w. destruct (check v); [reflexivity|discriminate].
  - apply delitem_P.
    + intros o' (A & B). now split.
    + intros o' s (A & B). split; [exact A|]. intros t w check J. cbn [i_slots] in J. apply in_dict_del in J. now apply B.
    + intros o' k (A & B). split; [|exact B]. cbn [i_dict]. now rewrite A.
  - intros o' (A & B). now split.
  - apply Forall_forall. auto.
Qed.

(** ** Iteration *)
Definition tidy (o : inst V) : Prop := NoDup (map fst (i_dict V o)) /\ forall s, In (Str s) (map fst (i_dict V o)) -> mem s (c_slots V c) = false.
Lemma keys_in {W} (d : list (name * W)) k v x : In x (map fst (dict_set name_eqb d k v)) -> In x (map fst d) \/ x = k.
Proof. rewrite (keys_set _ name_eqb_eq). destruct (existsb _ _); [auto|]. rewrite in_app_iff. cbn. intuition. Qed.
Lemma tidy_setitem o k v : tidy o -> tidy (fst (setitem o k v)).
Proof.
  intros (N & D). destruct (setitem o k v) as [o' r] eqn:S. cbn [fst]. destruct (do_ok_unit r) as [(e & ->)| ->].
  - now rewrite (setitem_err _ _ _ _ _ _ _ _ _ S).
  - apply setitem_ok in S as (_ & S). destruct k as [s|n].
    + destruct S as (_ & [(_ & ->)|(M & _ & ->)]); [now split|]. split; cbn [i_dict]; [now apply (nodup_set _ name_eqb_eq)|].
      intros t I. apply keys_in in I as [I|I]; [auto|]. now injection I as ->.
    + destruct S as (_ & ->). split; cbn [i_dict]; [now apply (nodup_set _ name_eqb_eq)|]. intros t I. apply keys_in in I as [I|I]; [auto|discriminate].
Qed.
Lemma tidy_run ops o : tidy o -> tidy (run ops o).
Proof.
  intros T. apply (do_ind tidy (fun _ => True)); [..|exact T].
  - intros. now apply tidy_setitem.
  - apply delitem_P.
    + intros o' _. split; [constructor|intros s []].
    + intros o' s T'. exact T'.
    + intros o' k (A & B). split; cbn [i_dict]; [now apply nodup_del|]. intros s I. apply B. apply in_map_iff in I as (x & E & I). apply in_map_iff. exists x. split; [exact E|]. now apply in_dict_del in I.
  - intros o' _. split; [constructor|intros s []].
  - apply Forall_forall. auto.
Qed.
Lemma iter_nodup unmapped o : NoDup (c_slots V c) -> tidy o -> NoDup (iter V vc c unmapped o).
Proof.
  intros NS (N & D). apply NoDup_filter. assert (NoDup (map Str (c_slots V c))) as NM.
  { clear -NS. induction NS as [|s l I NS IH]; cbn; constructor; [|exact IH]. intros J. apply in_map_iff in J as (t & E & J). injection E as ->. contradiction. }
  assert (forall x, In x (map Str (c_slots V c)) -> ~ In x (map fst (i_dict V o))) as DJ.
  { intros x I J. apply in_map_iff in I as (s & <- & I). apply D in J. apply mem_in in I. congruence. }
  revert NM DJ. generalize (map Str (c_slots V c)). intros l NM DJ. induction NM as [|x l I NM IH]; cbn; [exact N|]. constructor.
  - rewrite in_app_iff. intros [J|J]; [contradiction|]. apply (DJ x); [now left|exact J].
  - apply IH. intros y J. apply DJ. now right.
Qed.
Lemma iter_in unmapped o k : item o (Str SLOTS_SET) = None -> In k (iter V vc c unmapped o) <-> contains V vc c o k = Ok true /\ mem_name k unmapped = false.
Proof.
  intros N. unfold iter. rewrite filter_In, in_app_iff, andb_true_iff, negb_true_iff. split.
  - intros (_ & C & U). split; [|exact U]. destruct (contains V vc c o k) as [[|]|]; congruence.
  - intros (C & U). rewrite C. split; [|auto]. unfold contains in C. rewrite N in C. cbn in C. apply Ok_inj in C. apply orb_true_iff in C as [C|C].
    + apply andb_true_iff in C as (M & _). destruct k as [s|n]; [|discriminate]. cbn in M. left. apply in_map. now apply mem_in.
    + right. destruct (item o k) eqn:E; [|discriminate]. apply (get_some_in _ name_eqb_eq). eauto.
Qed.
(** Every attribute that is there is listed: what [getitem] finds. *)
Lemma contains_getitem o k v : item o (Str SLOTS_SET) = None -> tidy o -> k <> Str DICT -> getitem V c o k = Ok v -> contains V vc c o k = Ok true.
Proof.
  intros N (_ & D) ND G. unfold contains. rewrite N. cbn. unfold getitem in G. destruct k as [s|n].
  - cbn. destruct (mem s (c_slots V c)) eqn:M; cbn.
    + destruct (slot o s) eqn:E; [|discriminate]. unfold slot_set. rewrite E. now rewrite orb_true_r.
    + destruct (item o (Str s)); [reflexivity|discriminate].
  - cbn. destruct (has_dict V c); [|discriminate]. destruct (item o (Obj n)); [reflexivity|discriminate].
Qed.
Lemma getitem_contains o k : item o (Str SLOTS_SET) = None -> tidy o -> (forall n, In (Obj n) (map fst (i_dict V o)) -> has_dict V c = true) -> k <> Str DICT -> contains V vc c o k = Ok true -> exists v, getitem V c o k = Ok v.
Proof.
  intros N (_ & D) HD ND C. unfold contains in C. rewrite N in C. cbn in C. apply Ok_inj in C. unfold getitem. destruct k as [s|n]; cbn in C.
  - destruct (mem s (c_slots V c)) eqn:M; cbn in C.
    + assert (item o (Str s) = None) as NI by (apply (get_none _ name_eqb_eq); intros I; apply D in I; congruence). rewrite NI in C.
      rewrite !orb_false_r in C. unfold slot_set in C. destruct (slot o s); [eauto|]. rewrite orb_false_r in C. apply str_eqb_eq in C. congruence.
    + destruct (item o (Str s)); [eauto|discriminate].
  - destruct (item o (Obj n)) eqn:E; [|discriminate]. rewrite (HD n); [eauto|]. apply (get_some_in _ name_eqb_eq). eauto.
Qed.
End Any.

(** ** FrozenInstance *)
Section FI.
Variable V : Type.
Variable slots : list str.
Variable with_dict : bool.
Variable ca : str -> bool.
Lemma iop_kept ps s w : forall o, dict_get str_eqb o s = Some w -> dict_get str_eqb (run_iops V slots with_dict ca ps o) s = Some w.
Proof.
  induction ps as [|[t v|t] ps IH]; intros o E; [exact E| |apply IH; exact E]. cbn. apply IH. unfold frozen_setattr.
  destruct (ca t); cbn [orb]; [exact E|]. destruct (dict_get str_eqb o t) eqn:G; [exact E|]. destruct (mem t slots || with_dict); [|exact E]. cbn [fst].
  rewrite sset. destruct (str_eqb t s) eqn:Q; [|exact E]. apply str_eqb_eq in Q as ->. congruence.
Qed.
Lemma iop_class ps s : ca s = true -> forall o, dict_get str_eqb o s = None -> dict_get str_eqb (run_iops V slots with_dict ca ps o) s = None.
Proof.
  intros C. induction ps as [|[t v|t] ps IH]; intros o E; [exact E| |apply IH; exact E]. cbn. apply IH. unfold frozen_setattr.
  destruct (ca t) eqn:CT; cbn [orb]; [exact E|]. destruct (dict_get str_eqb o t) eqn:G; [exact E|]. destruct (mem t slots || with_dict); [|exact E]. cbn [fst].
  rewrite sset. destruct (str_eqb t s) eqn:Q; [|exact E]. apply str_eqb_eq in Q as ->. congruence.
Qed.
Lemma frozen_init_ok items : forall o o', frozen_init V slots with_dict ca o items = Ok o' -> o' = run_iops V slots with_dict ca (map (fun x => SetAttr V (fst x) (snd x)) items) o /\
  NoDup (map fst items) /\ (forall s, In s (map fst items) -> dict_get str_eqb o s = None) /\ forall s v, In (s, v) items -> dict_get str_eqb o' s = Some v.
Proof.
  induction items as [|[s v] items IH]; intros o o' E; cbn in E.
  - injection E as <-. repeat split; [constructor|intros ? []|intros ? ? []].
  - destruct (frozen_setattr V slots with_dict ca o s v) as [o1 [u|e]] eqn:F; [|discriminate]. destruct (IH _ _ E) as (-> & N & A & B).
    assert (dict_get str_eqb o s = None /\ o1 = dict_set str_eqb o s v) as (G & ->).
    { unfold frozen_setattr in F. destruct (ca s); [discriminate|]. cbn [orb] in F. destruct (dict_get str_eqb o s); [discriminate|]. destruct (mem s slots || with_dict); [|discriminate]. inversion F. auto. }
    repeat split.
    + cbn [map run_iops fold_left fst snd do_iop]. now rewrite F.
    + cbn. constructor; [|exact N]. intros I. apply A in I. rewrite sset, str_eqb_refl in I. discriminate.
    + intros t [<-|I]; [exact G|]. apply A in I. rewrite sset in I. destruct (str_eqb s t); [discriminate|exact I].
    + intros t w [I|I]; [|auto]. injection I as <- <-. apply iop_kept. now rewrite sset, str_eqb_refl.
Qed.
End FI.

(** ** Registries *)
Lemma set_nth_len {A} (l : list A) i a : (i < List.length l)%nat -> List.length (set_nth l i a) = List.length l.
Proof. intros L. unfold set_nth. rewrite app_length, firstn_length_le by lia. cbn [List.length]. rewrite skipn_length. lia. Qed.
Lemma nth_set_nth {A} (l : list A) i a j : (i < List.length l)%nat -> nth_error (set_nth l i a) j = if Nat.eqb i j then Some a else nth_error l j.
Proof.
  revert l j. induction i as [|i IH]; intros [|x l] j L; cbn in L; try lia.
  - destruct j; reflexivity.
  - destruct j as [|j]; [reflexivity|]. cbn. change (nth_error (set_nth l i a) j = if Nat.eqb i j then Some a else nth_error l j). apply IH. lia.
Qed.
Lemma set_id_eff h r k h' x : set_config_id h r k = (h', x) ->
  List.length h' = List.length h /\
  (forall j cf, nth_error h j = Some cf -> exists i, nth_error h' j = Some {| cfg_class_ok := cfg_class_ok cf; cfg_id := i |} /\ (cfg_id cf = None \/ i = cfg_id cf)) /\
  (x = Ok tt -> exists b, nth_error h' r = Some {| cfg_class_ok := b; cfg_id := Some k |}).
Proof.
  unfold set_config_id. destruct (nth_error h r) as [cf|] eqn:E.
  - assert (r < List.length h)%nat as L by (apply nth_error_Some; congruence). destruct cf as [b [k'|]]; cbn [cfg_id].
    + intros H. inversion H; subst. repeat split; [intros j [b' i'] N; exists i'; auto|]. destruct (name_eqb k k') eqn:Q; [|discriminate]. apply name_eqb_eq in Q as ->. eauto.
    + intros H. inversion H; subst. repeat split.
      * now apply set_nth_len.
      * intros j cf N. rewrite nth_set_nth by exact L. destruct (Nat.eqb r j) eqn:Q; [|destruct cf as [b' i']; exists i'; auto].
        apply Nat.eqb_eq in Q as <-. assert (cf = {| cfg_class_ok := b; cfg_id := None |}) as -> by congruence. cbn. eauto.
      * intros _. exists b. rewrite nth_set_nth by exact L. now rewrite Nat.eqb_refl.
  - intros H. inversion H; subst. repeat split; [intros j [b i] N; exists i; auto|discriminate].
Qed.

(** Objects keep their class and their ID. *)
Definition heap_le (h h' : heap) : Prop := forall j cf, nth_error h j = Some cf -> exists i, nth_error h' j = Some {| cfg_class_ok := cfg_class_ok cf; cfg_id := i |} /\ (cfg_id cf = None \/ i = cfg_id cf).
Lemma heap_le_refl h : heap_le h h.
Proof. intros j [b i] E. exists i. auto. Qed.
Lemma heap_le_trans h1 h2 h3 : heap_le h1 h2 -> heap_le h2 h3 -> heap_le h1 h3.
Proof. intros A B j cf E. destruct (A j cf E) as (i & E2 & O). destruct (B j _ E2) as (i' & E3 & O'). cbn in *. exists i'. split; [exact E3|]. destruct O as [O|O]; [auto|]. destruct O' as [O'|O']; [left; congruence|right; congruence]. Qed.
Lemma heap_le_id h h' j k b : heap_le h h' -> nth_error h j = Some {| cfg_class_ok := b; cfg_id := Some k |} -> nth_error h' j = Some {| cfg_class_ok := b; cfg_id := Some k |}.
Proof. intros A E. destruct (A _ _ E) as (i & E2 & [O|O]); cbn in *; [discriminate|congruence]. Qed.

Definition reg_inv (g : registry) : Prop := forall k r, bound g k r -> nth_error (r_heap g) r = Some {| cfg_class_ok := true; cfg_id := Some k |}.
Definition step_ok (g g' : registry) : Prop := heap_le (r_heap g) (r_heap g') /\ (reg_inv g -> reg_inv g').

Lemma register_eff reserved g k r g' x : register reserved g k r = (g', x) ->
  step_ok g g' /\ (forall k' r', bound g k' r' -> bound g' k' r') /\ (x = Ok tt -> bound g' k r).
Proof.
  unfold register. destruct (set_config_id (r_heap g) r k) as [h y] eqn:S. destruct (set_id_eff _ _ _ _ _ S) as (_ & LE & ID). 
  assert (step_ok g {| r_heap := h; r_items := r_items g |}) as SO.
  { split; [exact LE|]. intros I k' r' B. apply (heap_le_id _ _ _ _ _ LE). now apply I. }
  destruct y as [[]|e]; [|intros H; inversion H; subst; repeat split; [apply SO|apply SO|auto|discriminate]].
  destruct (ID eq_refl) as (b & N). rewrite N. destruct b; [|intros H; inversion H; subst; repeat split; [apply SO|apply SO|auto|discriminate]].
  destruct (name_eqb k (Str CONFIG_TYPE) || name_eqb k (Str DICT)); [intros H; inversion H; subst; repeat split; [apply SO|apply SO|auto|discriminate]|].
  change (registered {| r_heap := h; r_items := r_items g |} k) with (registered g k). destruct (registered g k) as [r'|] eqn:R.
  - destruct (Nat.eqb r' r) eqn:Q; intros H; inversion H; subst; (repeat split; [apply SO|apply SO|auto|]); [|discriminate]. intros _. apply Nat.eqb_eq in Q as ->. exact R.
  - destruct (mem_name k reserved); intros H; inversion H; subst; [repeat split; [apply SO|apply SO|auto|discriminate]|]. repeat split.
    + exact LE.
    + intros I k' r' B. unfold bound, registered in B. cbn [r_items] in B. rewrite gset in B. destruct (name_eqb k k') eqn:Q.
      * apply name_eqb_eq in Q as <-. injection B as <-. exact N.
      * apply (heap_le_id _ _ _ _ _ LE). now apply I.
    + intros k' r' B. unfold bound, registered. cbn [r_items]. rewrite gset. destruct (name_eqb k k') eqn:Q; [|exact B]. apply name_eqb_eq in Q as <-. unfold bound in B. congruence.
    + intros _. unfold bound, registered. cbn [r_items]. now rewrite gset, name_eqb_refl.
Qed.
Lemma register_all_eff reserved items : forall g g' x, register_all reserved g items = (g', x) -> step_ok g g' /\ (forall k' r', bound g k' r' -> bound g' k' r').
Proof.
  induction items as [|[k r] items IH]; intros g g' x; cbn.
  - intros H. inversion H. split; [split; [apply heap_le_refl|auto]|auto].
  - destruct (register reserved g k r) as [g1 [u|e]] eqn:R; destruct (register_eff _ _ _ _ _ _ R) as ((L & I) & B & _).
    + intros H. destruct (IH _ _ _ H) as ((L' & I') & B'). split; [split; [exact (heap_le_trans _ _ _ L L')|auto]|auto].
    + intros H. inversion H; subst. split; [split; auto|auto].
Qed.
Lemma do_cop_eff reserved g p : step_ok g (fst (do_cop reserved g p)) /\ (p <> ClearRegistry -> forall k' r', bound g k' r' -> bound (fst (do_cop reserved g p)) k' r').
Proof.
  assert (step_ok g g) as R by (split; [apply heap_le_refl|auto]).
  destruct p as [k r|items|k|r k|ok|]; cbn.
  - destruct (register reserved g k r) as [g' x] eqn:E. destruct (register_eff _ _ _ _ _ _ E) as (S & B & _). auto.
  - unfold registry_update. destruct (hidden g _); [auto|]. destruct (register_all reserved g items) as [g' x] eqn:E. destruct (register_all_eff _ _ _ _ _ E) as (S & B). auto.
  - auto.
  - destruct (set_config_id (r_heap g) r k) as [h y] eqn:S. destruct (set_id_eff _ _ _ _ _ S) as (_ & LE & _). cbn. split; [|auto]. split; [exact LE|].
    intros I k' r' B. apply (heap_le_id _ _ _ _ _ LE). now apply I.
  - assert (heap_le (r_heap g) (r_heap g ++ [{| cfg_class_ok := ok; cfg_id := None |}])) as LE.
    { intros j [b i] E. exists i. rewrite nth_error_app1; [auto|]. apply nth_error_Some. congruence. }
    split; [|auto]. split; [exact LE|]. intros I k' r' B. apply (heap_le_id _ _ _ _ _ LE). now apply I.
  - unfold registry_clear. destruct (hidden g _); [auto|]. cbn. split; [|congruence]. split; [apply heap_le_refl|]. intros _ k' r' B. discriminate B.
Qed.
Lemma run_cops_step reserved ps : forall g, step_ok g (run_cops reserved ps g).
Proof.
  induction ps as [|p ps IH]; intros g; [split; [apply heap_le_refl|auto]|]. cbn. destruct (do_cop_eff reserved g p) as ((L & I) & _). destruct (IH (fst (do_cop reserved g p))) as (L' & I').
  split; [exact (heap_le_trans _ _ _ L L')|auto].
Qed.
Lemma run_cops_bound reserved ps : Forall (fun p => p <> ClearRegistry) ps -> forall g k r, bound g k r -> bound (run_cops reserved ps g) k r.
Proof.
  intros F. induction F as [|p ps N F IH]; intros g k r B; [exact B|]. cbn. apply IH. now apply do_cop_eff.
Qed.
