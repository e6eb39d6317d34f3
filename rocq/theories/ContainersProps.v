(** * Containers: the theorems *)
From Coq Require Import Strings.String.
From Verif Require Import Base BaseFacts StrModel StrFacts ContainersModel ContainersSpec ContainersProofs.
Local Open Scope N_scope.

(** ** C58: frozen containers *)

(** Once an attribute of an instance of a frozen class without an instance dict is
    set, no further sequence of operations, accepted or refused, changes or
    removes it. *)
Theorem C58_frozen_slots_never_change : forall V v_contains v_call (c : klass V), frozen_slots c ->
  forall before after k v, holds c (run V v_contains v_call c before (new_inst V)) k v ->
    holds c (run V v_contains v_call c (before ++ after) (new_inst V)) k v.
Proof.
  intros V vc vcall c (FZ & ND) before after k v H. assert (has_dict V c = false) as HD.
  { destruct (has_dict V c) eqn:E; [|reflexivity]. unfold has_dict in E. now apply mem_in in E. }
  assert (i_dict V (run V vc vcall c before (new_inst V)) = []) as E0.
  { apply (run_ind V vc vcall c (fun o => i_dict V o = []) (fun _ => True)); [|now apply Forall_forall|reflexivity]. intros. now apply no_dict_do. }
  unfold run. rewrite fold_left_app. fold (run V vc vcall c before (new_inst V)). revert H E0. generalize (run V vc vcall c before (new_inst V)). intros o H E0.
  change (holds c (run V vc vcall c after o) k v). unfold holds, getitem in *. destruct k as [s|n].
  - destruct (mem s (c_slots V c)) eqn:M.
    + destruct (slot_get V o s) as [w|] eqn:S; [|discriminate]. apply Ok_inj in H as ->.
      assert (i_dict V (run V vc vcall c after o) = [] /\ slot_get V (run V vc vcall c after o) s = Some v) as (_ & ->); [|reflexivity].
      apply (run_ind V vc vcall c (fun o => i_dict V o = [] /\ slot_get V o s = Some v) (fun _ => True)); [|now apply Forall_forall|auto]. intros. now apply no_dict_slot.
    + unfold item_get in H. rewrite E0 in H. discriminate.
  - rewrite HD in H. discriminate.
Qed.
Print Assumptions C58_frozen_slots_never_change.

(** The same for frozen namespaces, as long as nobody calls [clear] and nobody
    assigns to the attribute [_slots_set].  The full statement is about all
    sequences of operations; it is false of them, see the two theorems below. *)
Theorem C58_frozen_namespace_never_changes_partial : forall V v_contains v_call (c : klass V), c_frozen V c = true ->
  forall before after k v, Forall (plain "_slots_set") (before ++ after) -> holds c (run V v_contains v_call c before (new_inst V)) k v ->
    holds c (run V v_contains v_call c (before ++ after) (new_inst V)) k v.
Proof.
  intros V vc vcall c FZ before after k v F H. apply Forall_app in F as (FB & FA).
  assert (item_get V (run V vc vcall c before (new_inst V)) (Str SLOTS_SET) = None) as E0.
  { apply (run_ind V vc vcall c (fun o => item_get V o (Str SLOTS_SET) = None) (plain "_slots_set"%string)); [|exact FB|reflexivity].
    intros o [k' w|k'|items|] (NC & NA) N; cbn.
    - now apply setitem_unhidden.
    - now rewrite delitem_frozen.
    - apply (update_ind V vc vcall c (fun o => item_get V o (Str SLOTS_SET) = None)); [|exact N]. intros o' k2 v2 I N'. apply setitem_unhidden; [|exact N']. intros ->. now apply NA.
    - contradiction. }
  unfold run. rewrite fold_left_app. fold (run V vc vcall c before (new_inst V)). revert H E0. generalize (run V vc vcall c before (new_inst V)). intros o H E0.
  change (holds c (run V vc vcall c after o) k v). unfold holds, getitem in *.
  assert (forall w, item_get V o k = Some w -> item_get V (run V vc vcall c after o) k = Some w) as IT.
  { intros w Hw. apply (run_ind V vc vcall c (fun o => item_get V o k = Some w) (plain "_slots_set"%string)); [|exact FA|exact Hw]. intros o' p (NC & _) W. now apply item_kept. }
  destruct k as [s|n].
  - destruct (mem s (c_slots V c)) eqn:M.
    + destruct (slot_get V o s) as [w|] eqn:S; [|discriminate]. apply Ok_inj in H as ->.
      assert (item_get V (run V vc vcall c after o) (Str SLOTS_SET) = None /\ slot_get V (run V vc vcall c after o) s = Some v) as (_ & ->); [|reflexivity].
      apply (run_ind V vc vcall c (fun o => item_get V o (Str SLOTS_SET) = None /\ slot_get V o s = Some v) (plain "_slots_set"%string)); [|exact FA|auto]. intros. now apply slot_kept.
    + destruct (item_get V o (Str s)) as [w|]; [|discriminate]. now rewrite (IT w).
  - destruct (has_dict V c); [|discriminate]. destruct (item_get V o (Obj n)) as [w|]; [|discriminate]. now rewrite (IT w).
Qed.
Print Assumptions C58_frozen_namespace_never_changes_partial.

(** [clear] of a frozen namespace removes every item of its dict, and only then
    raises: whatever the class and the items, the exception comes with an empty
    dict. *)
Theorem C58_clear_empties_a_frozen_namespace_refuted : forall V v_contains v_call (c : klass V), frozen_namespace c ->
  forall (o : inst V) k, (match k with Str s => ~ In s (c_slots V c) | Obj _ => True end) ->
    snd (do V v_contains v_call c o (Clear V)) = Err PermissionErr /\
    (forall v, ~ holds c (fst (do V v_contains v_call c o (Clear V))) k v).
Proof.
  intros V vc vcall c (FZ & D) o k NS. cbn. unfold clear. rewrite (clear_slots_raises V c FZ _ _ D). cbn [fst snd]. split; [reflexivity|].
  intros v. unfold holds, getitem. destruct k as [s|n].
  - destruct (mem s (c_slots V c)) eqn:M; [now apply mem_in in M|]. discriminate.
  - destruct (has_dict V c); discriminate.
Qed.
Print Assumptions C58_clear_empties_a_frozen_namespace_refuted.

(** Assigning to the item [_slots_set] hides the collection of names with which the
    class looks for its slots: afterwards the slots can be assigned again. *)
Theorem C58_hiding_the_names_thaws_the_slots_refuted : forall V v_contains v_call (c : klass V), frozen_namespace c -> c_typed V c = false ->
  forall s w v v', In s (c_slots V c) -> s <> lit "__dict__" ->
    Forall (fun t => ~ In t (c_slots V c ++ c_restricted V c ++ c_reserved V c)) [lit "_slots_set"; lit "_RESTRICTED_ATTRIBUTES"] ->
    ~ In s (c_restricted V c ++ c_reserved V c) -> v_contains w (Str s) = Ok false ->
    let ops := [SetItem V (Str s) v; SetItem V (Str (lit "_slots_set")) w] in
    holds c (run V v_contains v_call c ops (new_inst V)) (Str s) v /\
    holds c (run V v_contains v_call c (ops ++ [SetItem V (Str s) v']) (new_inst V)) (Str s) v'.
Proof.
  intros V vc vcall c (FZ & D) NT s w v v' I ND F NR W. inversion F as [|? ? F1 F2]; subst. inversion F2 as [|? ? F3 _]; subst. clear F F2. fold SLOTS_SET in F1. fold RESTRICTED in F3. fold DICT in ND, D.
  assert (forall t l, ~ In t l -> mem t l = false) as MF. { intros t l N. destruct (mem t l) eqn:E; [|reflexivity]. now apply mem_in in E. }
  assert (mem s (c_slots V c) = true) as MS by now apply mem_in. assert (mem DICT (c_slots V c) = true) as MD by now apply mem_in.
  assert (mem s (c_restricted V c) = false /\ mem s (c_reserved V c) = false) as (R1 & R2). { split; apply MF; intros J; apply NR, in_or_app; auto. }
  assert (mem SLOTS_SET (c_slots V c) = false /\ mem SLOTS_SET (c_restricted V c) = false /\ mem SLOTS_SET (c_reserved V c) = false) as (S1 & S2 & S3).
  { repeat split; apply MF; intros J; apply F1; rewrite !in_app_iff; auto. }
  assert (str_eqb s DICT = false) as SD by now apply str_eqb_neq. assert (str_eqb SLOTS_SET DICT = false) as SS by reflexivity.
  intros ops. unfold ops. cbn [app].
  assert (do V vc vcall c (new_inst V) (SetItem V (Str s) v) = ({| i_slots := [(s, v)]; i_dict := [] |}, Ok tt)) as D1.
  { cbn. unfold setitem. rewrite FZ. unfold contains. cbn. rewrite MS. unfold slot_set. rewrite SD. cbn. unfold typed_setitem. rewrite NT. unfold slots_setitem. cbn. rewrite R1. unfold object_setattr. rewrite R2, SD, MS. reflexivity. }
  assert (do V vc vcall c {| i_slots := [(s, v)]; i_dict := [] |} (SetItem V (Str SLOTS_SET) w) = ({| i_slots := [(s, v)]; i_dict := [(Str SLOTS_SET, w)] |}, Ok tt)) as D2.
  { cbn [do]. unfold setitem. rewrite FZ. unfold contains, item_get. cbn [i_dict dict_get bind mem_name]. rewrite S1. cbn [andb orb].
    unfold typed_setitem. rewrite NT. unfold slots_setitem, item_get. cbn [i_dict dict_get mem_name]. rewrite S2. unfold object_setattr. rewrite S3, SS, S1. cbn [orb]. unfold has_dict. rewrite MD. reflexivity. }
  assert (do V vc vcall c {| i_slots := [(s, v)]; i_dict := [(Str SLOTS_SET, w)] |} (SetItem V (Str s) v') = ({| i_slots := [(s, v')]; i_dict := [(Str SLOTS_SET, w)] |}, Ok tt)) as D3.
  { assert (name_eqb (Str SLOTS_SET) (Str s) = false) as NE. { apply str_eqb_neq. intros <-. congruence. }
    cbn [do]. unfold setitem. rewrite FZ. unfold contains, item_get. cbn [i_dict dict_get]. rewrite name_eqb_refl, W, NE. cbn [bind andb orb].
    unfold typed_setitem. rewrite NT. unfold slots_setitem, item_get. cbn [i_dict dict_get]. replace (name_eqb (Str SLOTS_SET) (Str RESTRICTED)) with false by reflexivity. cbn [mem_name]. rewrite R1.
    unfold object_setattr. rewrite R2, SD, MS. cbn [orb i_slots i_dict dict_set]. rewrite str_eqb_refl. reflexivity. }
  fold SLOTS_SET. unfold run. cbn [fold_left]. rewrite D1. cbn [fst]. rewrite D2. cbn [fst]. rewrite D3. cbn [fst].
  unfold holds, getitem. rewrite MS. unfold slot_get. cbn [i_slots dict_get]. rewrite str_eqb_refl. auto.
Qed.
Print Assumptions C58_hiding_the_names_thaws_the_slots_refuted.

(** A refused assignment or deletion changes nothing, in any container. *)
Theorem C58_refused_operations_change_nothing : forall V v_contains v_call (c : klass V) (o : inst V) k v e,
  (snd (do V v_contains v_call c o (SetItem V k v)) = Err e -> fst (do V v_contains v_call c o (SetItem V k v)) = o) /\
  (snd (do V v_contains v_call c o (DelItem V k)) = Err e -> fst (do V v_contains v_call c o (DelItem V k)) = o).
Proof.
  intros V vc vcall c o k v e. cbn. split; intros H.
  - destruct (setitem V vc vcall c o k v) as [o' r] eqn:S. cbn in *. subst r. now apply setitem_err in S.
  - destruct (delitem V c o k) as [o' r] eqn:S. cbn in *. subst r. now apply delitem_err in S.
Qed.
Print Assumptions C58_refused_operations_change_nothing.

(** Instances of FrozenInstance: what the constructor sets stays for good, and the
    attributes of the class are never hidden. *)
Theorem C58_frozen_instances_never_change : forall V slots with_dict class_attribute items o,
  frozen_init V slots with_dict class_attribute [] items = Ok o ->
  NoDup (map fst items) /\
  forall ps, (forall s v, In (s, v) items -> dict_get str_eqb (run_iops V slots with_dict class_attribute ps o) s = Some v) /\
    (forall s, class_attribute s = true -> dict_get str_eqb (run_iops V slots with_dict class_attribute ps o) s = None).
Proof.
  intros V slots wd ca items o H. destruct (frozen_init_ok _ _ _ _ _ _ _ H) as (E & N & _ & B). split; [exact N|]. intros ps. split.
  - intros s v I. apply iop_kept. auto.
  - intros s C. apply iop_class; [exact C|]. subst o. apply iop_class; [exact C|reflexivity].
Qed.
Print Assumptions C58_frozen_instances_never_change.

(** ** C68: typed slots *)

(** Whatever a user does to an instance of a typed class without an instance dict,
    a slot with a declared type holds only values of that type. *)
Theorem C68_slots_hold_their_type : forall V v_contains v_call (c : klass V), c_typed V c = true -> ~ In (lit "__dict__") (c_slots V c) ->
  forall ops s check v, In s (c_slots V c) -> dict_get str_eqb (c_types V c) s = Some check ->
    holds c (run V v_contains v_call c ops (new_inst V)) (Str s) v -> check v = true.
Proof.
  intros V vc vcall c TY ND ops s check v I C H. assert (has_dict V c = false) as HD.
  { destruct (has_dict V c) eqn:E; [|reflexivity]. unfold has_dict in E. now apply mem_in in E. }
  destruct (typed_run_nodict V vc vcall c ops TY HD (new_inst V)) as (_ & W); [split; [reflexivity|intros ? ? ? []]|].
  unfold holds, getitem in H. apply mem_in in I. rewrite I in H. destruct (slot_get V _ s) as [w|] eqn:S; [|discriminate]. apply Ok_inj in H as ->.
  apply (W s v check); [|exact C]. apply (get_in _ str_eqb_eq). exact S.
Qed.
Print Assumptions C68_slots_hold_their_type.

(** The same with an instance dict, if nobody assigns to the attribute
    [_validate_type]. *)
Theorem C68_slots_hold_their_type_with_dict : forall V v_contains v_call (c : klass V), c_typed V c = true ->
  forall ops s check v, Forall (fun p => ~ assigns p (Str (lit "_validate_type"))) ops -> In s (c_slots V c) -> dict_get str_eqb (c_types V c) s = Some check ->
    holds c (run V v_contains v_call c ops (new_inst V)) (Str s) v -> check v = true.
Proof.
  intros V vc vcall c TY ops s check v F I C H.
  destruct (typed_run V vc vcall c ops TY) with (o := new_inst V) as (_ & W).
  { eapply Forall_impl; [|exact F]. cbn. intros p N k A ->. contradiction. }
  { split; [reflexivity|intros ? ? ? []]. }
  unfold holds, getitem in H. apply mem_in in I. rewrite I in H. destruct (slot_get V _ s) as [w|] eqn:S; [|discriminate]. apply Ok_inj in H as ->.
  apply (W s v check); [|exact C]. apply (get_in _ str_eqb_eq). exact S.
Qed.
Print Assumptions C68_slots_hold_their_type_with_dict.

(** A value of another type is refused with TypeError. *)
Theorem C68_wrong_type_is_refused : forall V v_contains v_call (c : klass V) (o : inst V) s check v, c_typed V c = true -> c_frozen V c = false ->
  item_get V o (Str (lit "_validate_type")) = None -> dict_get str_eqb (c_types V c) s = Some check -> check v = false ->
  do V v_contains v_call c o (SetItem V (Str s) v) = (o, Err TypeErr).
Proof.
  intros V vc vcall c o s check v TY FZ N C W. cbn. unfold setitem. rewrite FZ. unfold typed_setitem. rewrite TY. fold VALIDATE in N. rewrite N. cbn. now rewrite C, W.
Qed.
Print Assumptions C68_wrong_type_is_refused.

(** ** C69: listing *)

(** Iterating over a container lists exactly the names that it contains and that
    are not declared unmapped, each once.  What it contains is what can be read
    from it. *)
Theorem C69_iteration_lists_the_contents : forall V v_contains v_call (c : klass V) unmapped, NoDup (c_slots V c) ->
  forall ops, let o := run V v_contains v_call c ops (new_inst V) in
  (forall v, ~ holds c o (Str (lit "_slots_set")) v) -> ~ In (lit "_slots_set") (c_slots V c) ->
  NoDup (iter V v_contains c unmapped o) /\
  (forall k, k <> Str (lit "__dict__") ->
     (In k (iter V v_contains c unmapped o) <-> (exists v, holds c o k v) /\ (forall s, k = Str s -> ~ In s unmapped))) /\
  inst_len V v_contains c unmapped o = List.length (iter V v_contains c unmapped o).
Proof.
  intros V vc vcall c unmapped NS ops o NH NI. fold SLOTS_SET in NH, NI. assert (tidy V c o) as T by (apply tidy_run; split; [constructor|intros s []]).
  assert (item_get V o (Str SLOTS_SET) = None) as N.
  { destruct (item_get V o (Str SLOTS_SET)) as [w|] eqn:E; [|reflexivity]. exfalso. apply (NH w). unfold holds, getitem. destruct (mem SLOTS_SET (c_slots V c)) eqn:M; [now apply mem_in in M|]. now rewrite E. }
  assert (forall n, In (Obj n) (map fst (i_dict V o)) -> has_dict V c = true) as HO.
  { destruct (has_dict V c) eqn:HD; [reflexivity|]. intros n I. exfalso. assert (i_dict V o = []) as E; [|now rewrite E in I].
    apply (do_ind V vc vcall c (fun o => i_dict V o = []) (fun _ => True)); [| | |apply Forall_forall; auto|reflexivity].
    - intros. now apply setitem_nodict.
    - apply (delitem_P V c (fun o => i_dict V o = [])); [intros; reflexivity|intros ? ? E; exact E|intros o' k E; cbn; now rewrite E].
    - reflexivity. }
  split; [now apply iter_nodup|]. split; [|reflexivity]. intros k NK. rewrite iter_in by exact N.
  assert (mem_name k unmapped = false <-> forall s, k = Str s -> ~ In s unmapped) as U.
  { destruct k as [s|n]; cbn; split.
    - intros M t E J. injection E as <-. apply mem_in in J. congruence.
    - intros J. destruct (mem s unmapped) eqn:M; [|reflexivity]. apply mem_in in M. now apply J in M.
    - intros _ s E. discriminate.
    - reflexivity. }
  rewrite U. split; intros (A & B); (split; [|exact B]).
  - unfold holds. now apply (getitem_contains V vc c o k N T HO NK).
  - destruct A as (v & A). now apply (contains_getitem V vc c o k v N T NK).
Qed.
Print Assumptions C69_iteration_lists_the_contents.

(** A container is a mapping: an accepted assignment is what is read afterwards, an accepted
    deletion leaves nothing to read, and neither touches another name. *)
Theorem C69_assignments_and_deletions : forall V v_contains v_call (c : klass V) ops k,
  let o := run V v_contains v_call c ops (new_inst V) in
  (forall v o', do V v_contains v_call c o (SetItem V k v) = (o', Ok tt) ->
     holds c o' k v /\ forall k' w, k' <> k -> holds c o' k' w <-> holds c o k' w) /\
  (forall o', k <> Str (lit "__dict__") -> do V v_contains v_call c o (DelItem V k) = (o', Ok tt) ->
     (exists v, holds c o k v) /\ (forall v, ~ holds c o' k v) /\ forall k' w, k' <> k -> holds c o' k' w <-> holds c o k' w).
Proof.
  intros V vc vcall c ops k o. assert (tidy V c o) as T by (apply tidy_run; split; [constructor|intros s []]).
  assert (NoDup (map fst (i_slots V o))) as NS.
  { apply (do_ind V vc vcall c (fun o => NoDup (map fst (i_slots V o))) (fun _ => True)); [| | |apply Forall_forall; auto|constructor].
    - intros o1 k1 v _ N. destruct (setitem V vc vcall c o1 k1 v) as [o2 [[]|e]] eqn:S; [|now apply setitem_err in S as ->].
      apply setitem_ok in S as (_ & S). destruct k1; [destruct S as (_ & [(_ & ->)|(_ & _ & ->)])|destruct S as (_ & ->)]; try exact N.
      apply nodup_set; [exact str_eqb_eq|exact N].
    - intros o1 k1 N. destruct (delitem V c o1 k1) as [o2 [[]|e]] eqn:S; [|now apply delitem_err in S as ->].
      apply delitem_ok in S as [->|[(s & _ & ->)| ->]]; try exact N. now apply nodup_del.
    - intros o1 N. exact N. }
  assert (Sk : forall (s : str) (w : V), dict_get str_eqb (dict_set str_eqb (i_slots V o) s w) s = Some w).
  { intros s w. now rewrite (get_set _ str_eqb_eq), str_eqb_refl. }
  split.
  - intros v o' S. cbn in S. apply setitem_ok in S as (_ & S). unfold holds, getitem. destruct k as [s|n].
    + destruct S as (ND & [(M & ->)|(M & HD & ->)]); unfold slot_get, item_get; cbn [i_slots i_dict].
      * rewrite M, Sk. split; [reflexivity|]. intros [t|m] w NE; [|reflexivity]. rewrite (get_set _ str_eqb_eq).
        destruct (str_eqb s t) eqn:E; [apply str_eqb_eq in E; congruence|reflexivity].
      * rewrite M, (get_set _ name_eqb_eq), name_eqb_refl. split; [reflexivity|].
        intros k' w NE. rewrite (get_set _ name_eqb_eq). destruct (name_eqb (Str s) k') eqn:E; [apply name_eqb_eq in E; congruence|reflexivity].
    + destruct S as (HD & ->). unfold slot_get, item_get. cbn [i_slots i_dict]. rewrite HD, (get_set _ name_eqb_eq), name_eqb_refl. split; [reflexivity|].
      intros k' w NE. rewrite (get_set _ name_eqb_eq). destruct (name_eqb (Obj n) k') eqn:E; [apply name_eqb_eq in E; congruence|reflexivity].
  - intros o' NK S. cbn in S. unfold delitem, object_delattr in S. destruct T as (ND & _).
    assert (Others : forall k' w, k' <> k -> getitem V c {| i_slots := i_slots V o; i_dict := dict_del name_eqb (i_dict V o) k |} k' = Ok w <-> getitem V c o k' = Ok w).
    { intros k' w NE. unfold getitem, slot_get, item_get. cbn [i_slots i_dict]. rewrite (get_del _ name_eqb_eq) by exact ND.
      destruct (name_eqb k k') eqn:E; [apply name_eqb_eq in E; congruence|reflexivity]. }
    destruct (c_frozen V c); [discriminate|]. unfold holds. destruct k as [s|n].
    + destruct (mem s (c_reserved V c)); [discriminate|]. destruct (str_eqb s DICT) eqn:E; [apply str_eqb_eq in E; subst; exfalso; now apply NK|].
      destruct (mem s (c_slots V c)) eqn:M.
      * destruct (slot_get V o s) as [x|] eqn:G; [|discriminate]. apply pair_equal_spec in S as [<- _].
        split; [exists x; unfold getitem; now rewrite M, G|]. split.
        -- intros v. unfold getitem, slot_get. cbn [i_slots]. rewrite M, (get_del _ str_eqb_eq) by exact NS. now rewrite str_eqb_refl.
        -- intros [t|m] w NE; [|reflexivity]. unfold getitem, slot_get, item_get. cbn [i_slots i_dict]. rewrite (get_del _ str_eqb_eq) by exact NS.
           destruct (str_eqb s t) eqn:Q; [apply str_eqb_eq in Q; congruence|reflexivity].
      * destruct (item_get V o (Str s)) as [x|] eqn:G; [|discriminate]. apply pair_equal_spec in S as [<- _].
        split; [exists x; unfold getitem; now rewrite M, G|]. split; [|exact Others].
        intros v. unfold getitem, item_get. cbn [i_dict]. rewrite M, (get_del _ name_eqb_eq) by exact ND. now rewrite name_eqb_refl.
    + destruct (has_dict V c) eqn:HD; [|discriminate]. destruct (item_get V o (Obj n)) as [x|] eqn:G; [|discriminate]. apply pair_equal_spec in S as [<- _].
      split; [exists x; unfold getitem; now rewrite HD, G|]. split; [|exact Others].
      intros v. unfold getitem, item_get. cbn [i_dict]. rewrite HD, (get_del _ name_eqb_eq) by exact ND. now rewrite name_eqb_refl.
Qed.
Print Assumptions C69_assignments_and_deletions.

(** What is not there cannot be deleted: AttributeError for names, KeyError for other keys of
    containers with a dict, as reading does. *)
Theorem C69_missing_names : forall V v_contains v_call (c : klass V) (o : inst V) k, c_frozen V c = false ->
  k <> Str (lit "__dict__") -> (forall s, k = Str s -> ~ In s (c_reserved V c)) -> (forall v, ~ holds c o k v) ->
  let e := match k with Str _ => AttributeErr | Obj _ => if mem (lit "__dict__") (c_slots V c) then KeyErr else AttributeErr end in
  do V v_contains v_call c o (DelItem V k) = (o, Err e) /\ getitem V c o k = Err e.
Proof.
  intros V vc vcall c o k FZ NK NR NH e. cbn [do]. unfold delitem, object_delattr. rewrite FZ. unfold holds, getitem in *. destruct k as [s|n]; subst e; cbv zeta.
  - destruct (mem s (c_reserved V c)) eqn:R; [apply mem_in in R; exfalso; now apply (NR s)|].
    destruct (str_eqb s DICT) eqn:E; [apply str_eqb_eq in E; subst; exfalso; now apply NK|].
    destruct (mem s (c_slots V c)); [destruct (slot_get V o s) as [x|]|destruct (item_get V o (Str s)) as [x|]]; try (exfalso; now apply (NH x)); split; reflexivity.
  - fold DICT. fold (has_dict V c). destruct (has_dict V c); [|split; reflexivity]. destruct (item_get V o (Obj n)) as [x|]; [exfalso; now apply (NH x)|split; reflexivity].
Qed.
Print Assumptions C69_missing_names.

(** The names that belong to Python's objects, such as [__class__], can be neither deleted, which is a
    TypeError unless the container is frozen, nor assigned. *)
Theorem C69_reserved_names : forall V v_contains v_call (c : klass V) (o : inst V) s, In s (c_reserved V c) ->
  do V v_contains v_call c o (DelItem V (Str s)) = (o, Err (if c_frozen V c then PermissionErr else TypeErr)) /\
  (forall v, exists e, do V v_contains v_call c o (SetItem V (Str s) v) = (o, Err e)).
Proof.
  intros V vc vcall c o s R. apply mem_in in R. cbn [do]. split.
  - unfold delitem, object_delattr. rewrite R. destruct (c_frozen V c); reflexivity.
  - intro v.
    assert (A : exists e, slots_setitem V vc c o (Str s) v = (o, Err e)).
    { unfold slots_setitem, object_setattr. rewrite R. cbn [orb].
      destruct (item_get V o (Str RESTRICTED)); [destruct (vc v0 (Str s)) as [[]|]|destruct (mem_name _ _)]; eexists; reflexivity. }
    assert (B : exists e, typed_setitem V vc vcall c o (Str s) v = (o, Err e)).
    { unfold typed_setitem. destruct (c_typed V c); [|exact A].
      destruct (match item_get V o (Str VALIDATE) with Some w => _ | None => _ end); [exact A|eexists; reflexivity]. }
    unfold setitem. destruct (c_frozen V c); [|exact B].
    destruct (contains V vc c o (Str s)) as [[]|]; [eexists; reflexivity|exact B|eexists; reflexivity].
Qed.
Print Assumptions C69_reserved_names.

(** ** C59: registries of configurations *)

(** In a registry that nobody clears, an ID stays bound to the same object, and
    every registered object is of the class of the registry and carries the ID it
    is registered under. *)
Theorem C59_registered_configs_are_never_replaced_partial : forall reserved before after k r, Forall (fun p => p <> ClearRegistry) after ->
  bound (run_cops reserved before new_registry) k r -> bound (run_cops reserved (before ++ after) new_registry) k r.
Proof.
  intros reserved before after k r F B. unfold run_cops. rewrite fold_left_app. now apply (run_cops_bound reserved after F).
Qed.
Print Assumptions C59_registered_configs_are_never_replaced_partial.

(** For all sequences of operations: what is registered is of the right class and
    carries its ID, so no object is registered under two IDs; and an ID once given
    to an object is never changed. *)
Theorem C59_registered_configs_are_of_the_class : forall reserved ps k r, let g := run_cops reserved ps new_registry in
  bound g k r -> of_class g r /\ has_id g r k /\ forall k', bound g k' r -> k' = k.
Proof.
  intros reserved ps k r g B. assert (reg_inv g) as I by (apply (run_cops_step reserved ps new_registry); intros k' r' B'; discriminate B').
  pose proof (I _ _ B) as E. split; [exists (Some k); exact E|]. split; [exists true; exact E|]. intros k' B'. apply I in B'. rewrite E in B'. now injection B'.
Qed.
Print Assumptions C59_registered_configs_are_of_the_class.
Theorem C59_ids_are_set_once : forall reserved before after k r,
  has_id (run_cops reserved before new_registry) r k -> has_id (run_cops reserved (before ++ after) new_registry) r k.
Proof.
  intros reserved before after k r (b & E). unfold run_cops at 1. rewrite fold_left_app. exists b. exact (heap_le_id _ _ _ _ _ (proj1 (run_cops_step reserved after _)) E).
Qed.
Print Assumptions C59_ids_are_set_once.

(** Registering succeeds exactly by binding the ID to the object. *)
Theorem C59_registering_binds : forall reserved g k r, snd (do_cop reserved g (Register k r)) = Ok tt -> bound (fst (do_cop reserved g (Register k r))) k r.
Proof.
  intros reserved g k r. cbn. destruct (register reserved g k r) as [g' x] eqn:E. cbn. now apply (register_eff _ _ _ _ _ _ E).
Qed.
Print Assumptions C59_registering_binds.

(** [clear] empties the registry before it raises; another object is then accepted
    under the same ID. *)
Theorem C59_clear_lets_ids_be_rebound_refuted : forall reserved k, mem_name k reserved = false -> k <> Str CONFIG_TYPE -> k <> Str DICT -> k <> Str (lit "clear") ->
  let ps := [Make true; Make true; Register k 0%nat; ClearRegistry; Register k 1%nat] in
  bound (run_cops reserved (firstn 3 ps) new_registry) k 0%nat /\
  snd (do_cop reserved (run_cops reserved (firstn 3 ps) new_registry) ClearRegistry) = Err PermissionErr /\
  bound (run_cops reserved ps new_registry) k 1%nat.
Proof.
  intros reserved k NR N1 N2 N3 ps. unfold ps. cbn [firstn].
  assert (name_eqb k (Str CONFIG_TYPE) = false /\ name_eqb k (Str DICT) = false /\ name_eqb k (Str (lit "clear")) = false) as (Q1 & Q2 & Q3).
  { repeat split; match goal with |- ?b = false => destruct b eqn:Q; [apply name_eqb_eq in Q; congruence|reflexivity] end. }
  pose (h0 := {| cfg_class_ok := true; cfg_id := None |}). pose (h1 := {| cfg_class_ok := true; cfg_id := Some k |}).
  assert (run_cops reserved [Make true; Make true; Register k 0%nat] new_registry = {| r_heap := [h1; h0]; r_items := [(k, 0%nat)] |}) as E1.
  { cbn -[name_eqb CONFIG_TYPE DICT mem_name]. unfold register. cbn -[name_eqb CONFIG_TYPE DICT mem_name]. rewrite Q1, Q2. cbn -[name_eqb CONFIG_TYPE DICT mem_name]. rewrite NR. reflexivity. }
  assert (do_cop reserved {| r_heap := [h1; h0]; r_items := [(k, 0%nat)] |} ClearRegistry = ({| r_heap := [h1; h0]; r_items := [] |}, Err PermissionErr)) as E2.
  { cbn. unfold registry_clear, hidden, registered. cbn [r_items dict_get]. rewrite Q3. reflexivity. }
  assert (do_cop reserved {| r_heap := [h1; h0]; r_items := [] |} (Register k 1%nat) = ({| r_heap := [h1; h1]; r_items := [(k, 1%nat)] |}, Ok tt)) as E3.
  { cbn -[name_eqb CONFIG_TYPE DICT mem_name]. unfold register. cbn -[name_eqb CONFIG_TYPE DICT mem_name]. rewrite Q1, Q2. cbn -[name_eqb CONFIG_TYPE DICT mem_name]. rewrite NR. reflexivity. }
  rewrite E1. split; [unfold bound, registered; cbn; now rewrite name_eqb_refl|]. split; [now rewrite E2|].
  change [Make true; Make true; Register k 0%nat; ClearRegistry; Register k 1%nat] with ([Make true; Make true; Register k 0%nat] ++ [ClearRegistry; Register k 1%nat]).
  unfold run_cops. rewrite fold_left_app. fold (run_cops reserved [Make true; Make true; Register k 0%nat] new_registry). rewrite E1. cbn [fold_left]. rewrite E2. cbn [fst]. rewrite E3. cbn [fst].
  unfold bound, registered. cbn. now rewrite name_eqb_refl.
Qed.
Print Assumptions C59_clear_lets_ids_be_rebound_refuted.

(** A refused registration is not without effect: an object of the wrong class, or
    one whose ID is taken, keeps the ID it was refused under, and can never be
    registered under another one. *)
Theorem C59_refused_configs_keep_the_id : forall reserved g k r b, nth_error (r_heap g) r = Some {| cfg_class_ok := b; cfg_id := None |} ->
  b = false \/ (exists r', bound g k r' /\ r' <> r) ->
  let g' := fst (do_cop reserved g (Register k r)) in
  (exists e, snd (do_cop reserved g (Register k r)) = Err e) /\ has_id g' r k /\
  forall ps k', k' <> k -> snd (do_cop reserved (run_cops reserved ps g') (Register k' r)) = Err ValueErr.
Proof.
  intros reserved g k r b E W. cbn. assert (r < List.length (r_heap g))%nat as L by (apply nth_error_Some; congruence).
  assert (exists e g', register reserved g k r = (g', Err e) /\ has_id g' r k) as (e & g' & R & I).
  { unfold register, set_config_id. rewrite E. cbn [cfg_id cfg_class_ok]. rewrite nth_set_nth by exact L. rewrite Nat.eqb_refl.
    assert (has_id {| r_heap := set_nth (r_heap g) r {| cfg_class_ok := b; cfg_id := Some k |}; r_items := r_items g |} r k) as H.
    { exists b. cbn. rewrite nth_set_nth by exact L. now rewrite Nat.eqb_refl. }
    destruct b; [|eauto]. destruct W as [W|(r' & B & N)]; [discriminate|]. destruct (name_eqb k (Str CONFIG_TYPE) || name_eqb k (Str DICT)); [eauto|].
    unfold registered. cbn [r_items]. unfold bound, registered in B. rewrite B. replace (Nat.eqb r' r) with false; [eauto|]. symmetry. now apply Nat.eqb_neq. }
  rewrite R. cbn [fst snd]. split; [eauto|]. split; [exact I|]. intros ps k' N. destruct I as (b' & I).
  pose proof (heap_le_id _ _ _ _ _ (proj1 (run_cops_step reserved ps g')) I) as J. unfold register, set_config_id. rewrite J. cbn.
  destruct (name_eqb k' k) eqn:Q; [apply name_eqb_eq in Q; congruence|reflexivity].
Qed.
Print Assumptions C59_refused_configs_keep_the_id.

(** An ID that is the name of a method is accepted and hides the method for good. *)
Theorem C59_an_id_can_hide_update : forall reserved, mem (lit "update") reserved = false ->
  let g := run_cops reserved [Make true; Register (Str (lit "update")) 0%nat] new_registry in
  bound g (Str (lit "update")) 0%nat /\ forall items, do_cop reserved g (RegisterAll items) = (g, Err TypeErr).
Proof.
  intros reserved NR g. assert (g = {| r_heap := [{| cfg_class_ok := true; cfg_id := Some (Str (lit "update")) |}]; r_items := [(Str (lit "update"), 0%nat)] |}) as ->.
  { unfold g, run_cops. cbn [fold_left do_cop fst snd]. unfold register. cbn [set_config_id nth_error new_registry r_heap r_items app cfg_id cfg_class_ok set_nth firstn skipn].
    replace (name_eqb (Str (lit "update")) (Str CONFIG_TYPE)) with false by reflexivity. replace (name_eqb (Str (lit "update")) (Str DICT)) with false by reflexivity.
    cbn [orb registered r_items dict_get mem_name fst]. rewrite NR. reflexivity. }
  split; [reflexivity|]. intros items. reflexivity.
Qed.
Print Assumptions C59_an_id_can_hide_update.

(** ** Examples *)

(** Values are numbers; a number contains nothing and cannot be called. *)
Definition no_contains (_ : N) (_ : name) : result bool := Ok false.
Definition no_call (_ : N) (_ : name) (_ : N) : result unit := Err TypeErr.
Definition a_class (dict frozen typed : bool) : klass N :=
  {| c_slots := (if dict then [lit "__dict__"] else []) ++ [lit "salt"; lit "mb"]; c_frozen := frozen; c_typed := typed;
     c_types := [(lit "mb", fun v => v <? 100)]; c_restricted := base_restricted; c_reserved := [lit "__class__"] |}.

Example frozen_slots_example : let ops := [SetItem N (Str (lit "mb")) 7; SetItem N (Str (lit "mb")) 8; SetItem N (Str (lit "salt")) 9] in
  let more := [Update N [(Str (lit "mb"), 1); (Str (lit "salt"), 2)]; DelItem N (Str (lit "mb")); Clear N] in
  holds (a_class false true true) (run N no_contains no_call (a_class false true true) (ops ++ more) (new_inst N)) (Str (lit "mb")) 7.
Proof.
  intros ops more. apply (C58_frozen_slots_never_change N no_contains no_call (a_class false true true)); [|vm_compute; reflexivity].
  split; [reflexivity|]. vm_compute. intuition discriminate.
Qed.
Example frozen_namespace_example : let ops := [SetItem N (Str (lit "mb")) 7; SetItem N (Obj 5) 6; SetItem N (Str (lit "other")) 8] in
  let more := [SetItem N (Obj 5) 1; DelItem N (Str (lit "other"))] in
  holds (a_class true true false) (run N no_contains no_call (a_class true true false) (ops ++ more) (new_inst N)) (Obj 5) 6.
Proof.
  intros ops more. apply C58_frozen_namespace_never_changes_partial; [reflexivity| |vm_compute; reflexivity].
  repeat (apply Forall_cons; [split; [discriminate|vm_compute; try discriminate; auto]|]). apply Forall_nil.
Qed.
Example reserved_example : In (lit "__class__") (c_reserved N (a_class true false false)) /\
  do N no_contains no_call (a_class true false false) (new_inst N) (DelItem N (Str (lit "__class__"))) = (new_inst N, Err TypeErr).
Proof. split; [left; reflexivity|reflexivity]. Qed.
Example clear_example : frozen_namespace (a_class true true false) /\
  holds (a_class true true false) (run N no_contains no_call (a_class true true false) [SetItem N (Str (lit "x")) 7] (new_inst N)) (Str (lit "x")) 7 /\ ~ In (lit "x") (c_slots N (a_class true true false)).
Proof. split; [split; [reflexivity|left; reflexivity]|]. split; [vm_compute; reflexivity|]. vm_compute. intuition discriminate. Qed.
Example thaw_example : let ops := [SetItem N (Str (lit "mb")) 7; SetItem N (Str (lit "_slots_set")) 0] in
  holds (a_class true true false) (run N no_contains no_call (a_class true true false) (ops ++ [SetItem N (Str (lit "mb")) 8]) (new_inst N)) (Str (lit "mb")) 8.
Proof.
  apply (C58_hiding_the_names_thaws_the_slots_refuted N no_contains no_call (a_class true true false)).
  - split; [reflexivity|left; reflexivity].
  - reflexivity.
  - right. right. left. reflexivity.
  - discriminate.
  - apply Forall_cons; [|apply Forall_cons; [|apply Forall_nil]]; vm_compute; intuition discriminate.
  - vm_compute. intuition discriminate.
  - reflexivity.
Qed.
Example frozen_instance_example : exists o, frozen_init N [lit "a"; lit "b"] false (fun s => str_eqb s (lit "keys")) [] [(lit "a", 1); (lit "b", 2)] = Ok o.
Proof. eexists. vm_compute. reflexivity. Qed.
Example typed_example : let o := run N no_contains no_call (a_class false false true) [SetItem N (Str (lit "mb")) 500; SetItem N (Str (lit "mb")) 50; SetItem N (Str (lit "mb")) 600] (new_inst N) in
  holds (a_class false false true) o (Str (lit "mb")) 50.
Proof. vm_compute. reflexivity. Qed.
Example iteration_example : iter N no_contains (a_class true false false) [lit "__dict__"] (run N no_contains no_call (a_class true false false) [SetItem N (Str (lit "mb")) 5; SetItem N (Obj 1) 2; SetItem N (Str (lit "x")) 3] (new_inst N))
  = [Str (lit "mb"); Obj 1; Str (lit "x")] /\ NoDup (c_slots N (a_class true false false)).
Proof. split; [vm_compute; reflexivity|]. repeat (apply NoDup_cons; [vm_compute; intuition discriminate|]). apply NoDup_nil. Qed.
Example registry_example : let g := run_cops [] [Make true; Make false; Make true; Register (Str (lit "A")) 0%nat; Register (Str (lit "B")) 1%nat; Register (Str (lit "A")) 2%nat] new_registry in
  bound g (Str (lit "A")) 0%nat /\ registered g (Str (lit "B")) = None /\ has_id g 1%nat (Str (lit "B")) /\ has_id g 2%nat (Str (lit "A")).
Proof. vm_compute. repeat split; eexists; reflexivity. Qed.
Example C69_case_missing : let c := a_class true false false in
  let o := run N no_contains no_call c [SetItem N (Str (lit "mb")) 5; SetItem N (Obj 1) 2; SetItem N (Str (lit "mb")) 6] (new_inst N) in
  holds c o (Str (lit "mb")) 6 /\ (forall v, ~ holds c o (Obj 2) v) /\
  snd (do N no_contains no_call c o (DelItem N (Obj 1))) = Ok tt /\ snd (do N no_contains no_call c o (DelItem N (Obj 2))) = Err KeyErr /\
  snd (do N no_contains no_call c o (DelItem N (Str (lit "x")))) = Err AttributeErr.
Proof. vm_compute. repeat split. intros v H. discriminate. Qed.
