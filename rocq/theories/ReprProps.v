(** * Displays of objects and the debug mode: C94 *)
From Coq Require Import Strings.String.
From Verif Require Import Base StrModel ReprModel ReprSpec ReprProofs.
Local Open Scope N_scope.
Open Scope list_scope.

(** C94: the display of an object depends only on what may be shown.  Take any two memories which
    differ in values of objects that hide them, as long as their classes are the same, or in items
    whose names begin with an underscore: every object is displayed alike, however
    objects refer to each other. *)
Theorem C94_values_are_hidden : forall sep depth debugging h1 h2 v, alike debugging h1 h2 ->
  repr sep depth debugging h1 v = repr sep depth debugging h2 v.
Proof. intros sep depth d h1 h2 v A. now apply repr_alike. Qed.
Print Assumptions C94_values_are_hidden.

(** Of an object that hides its values the display shows the names and the classes; it is made
    without displaying any other object. *)
Theorem C94_hidden_values : forall sep depth h i name cls items,
  nth_error h i = Some (Mapped true name cls items) -> Forall (fun kv => fst kv <> []) items ->
  exists text, repr sep (S depth) false h (Ref i) = Ok text /\
    forall k v, In (k, v) items -> visible k -> part (k ++ lit "=<omitted>" ++ class_of h v) text.
Proof.
  intros sep depth h i name cls items E F. cbn [repr]. rewrite E. cbn [andb negb].
  assert (T : exists text, mapped_text sep (omitted h) name items = Ok text).
  { destruct (pieces_total (omitted h) items) as (l & P); [intros v; eexists; reflexivity|exact F|].
    unfold mapped_text. rewrite P. cbn [bind]. eauto. }
  destruct T as (text & T). exists text. split; [exact T|]. intros k v I V.
  destruct (mapped_shows _ _ _ _ _ _ _ T I V) as (t & S & P). injection S as <-. exact P.
Qed.
Print Assumptions C94_hidden_values.

(** The values are displayed by the classes which say so, by [__repr__(mask=False)], and by all but
    FrozenInstances in debug mode. *)
Theorem C94_shown_values : forall sep depth debugging mask h name items text,
  mask = false \/ debugging = true -> repr_with sep depth debugging mask h name items = Ok text ->
  forall k v, In (k, v) items -> visible k ->
  exists t, repr sep depth debugging h v = Ok t /\ part (k ++ lit "=" ++ t) text.
Proof.
  intros sep depth d mask h name items text O E k v I V. unfold repr_with in E.
  assert (M : (mask && negb d)%bool = false) by (destruct O as [-> | ->]; [reflexivity|apply andb_false_r]).
  rewrite M in E. exact (mapped_shows _ _ _ _ _ _ _ E I V).
Qed.
Print Assumptions C94_shown_values.
(** [repr] is [__repr__] with the default of the class. *)
Theorem C94_defaults : forall sep depth debugging h i masks name cls items,
  nth_error h i = Some (Mapped masks name cls items) ->
  repr sep (S depth) debugging h (Ref i) = repr_with sep depth debugging masks h name items.
Proof. intros sep depth d h i m name cls items E. cbn [repr]. rewrite E. reflexivity. Qed.
Print Assumptions C94_defaults.

(** Displays do not always succeed: an item whose name is empty cannot be displayed, and an
    object which displays its values and contains itself cannot either. *)
Theorem C94_empty_names_refuted : forall sep depth debugging h i masks name cls v items,
  nth_error h i = Some (Mapped masks name cls (([], v) :: items)) ->
  repr sep (S depth) debugging h (Ref i) = Err IndexErr.
Proof. intros sep depth d h i m name cls v items E. cbn [repr]. rewrite E. reflexivity. Qed.
Print Assumptions C94_empty_names_refuted.
Theorem C94_cycles_refuted : forall sep depth debugging masks name cls key, visible key ->
  masks = false \/ debugging = true ->
  repr sep depth debugging [Mapped masks name cls [(key, Ref 0)]] (Ref 0) = Err RuntimeErr.
Proof.
  intros sep depth d m name cls key (c & r & -> & C) O.
  assert (M : (m && negb d)%bool = false) by (destruct O as [-> | ->]; [reflexivity|apply andb_false_r]).
  induction depth as [|depth IH]; [reflexivity|]. cbn [repr nth_error]. rewrite M. unfold mapped_text. cbn [pieces].
  destruct (N.eqb_spec c 95) as [|_]; [contradiction|]. rewrite IH. reflexivity.
Qed.
Print Assumptions C94_cycles_refuted.

(** The debug mode is the one last asked for, whatever the functions do which are called when it
    changes. *)
Theorem C94_mode : forall warn switches os c,
  mode (control_run warn switches os c) = asked (match warn with Err _ => true | Ok _ => false end) os (mode c).
Proof.
  intros warn switches os. induction os as [|o os IH]; intros c; [reflexivity|].
  change (control_run warn switches (o :: os) c) with (control_run warn switches os (fst (control_step warn switches o c))).
  rewrite IH, step_mode. now destruct o.
Qed.
Print Assumptions C94_mode.

(** If none of those functions raises, each is called once when the mode changes, in their order and
    with the new mode, and not otherwise; so what each was told last is the mode. *)
Theorem C94_switches : forall warn switches os, Forall (fun f => forall b, f b = Ok tt) switches ->
  let c := control_run warn switches os imported in
  (forall i, (i < List.length switches)%nat -> told i c = mode c) /\
  forall o, let c' := fst (control_step warn switches o c) in
    (mode c' = mode c -> calls c' = calls c) /\
    (mode c' <> mode c -> calls c' = calls c ++ map (fun i => (i, mode c')) (seq 0 (List.length switches))).
Proof.
  intros warn switches os F c. split.
  - intros i L. unfold c, control_run.
    assert (G : forall c0, told i c0 = mode c0 ->
      told i (fold_left (fun c o => fst (control_step warn switches o c)) os c0) = mode (fold_left (fun c o => fst (control_step warn switches o c)) os c0)).
    { induction os as [|o os IH]; intros c0 T; [exact T|]. cbn [fold_left]. apply IH. now apply step_told. }
    now apply G.
  - intros o c'. pose proof (step_calls warn switches o c F) as S. cbv zeta in S. fold c' in S. split; intros M.
    + rewrite M, Bool.eqb_reflx, app_nil_r in S. exact S.
    + destruct (Bool.eqb (mode c) (mode c')) eqn:E; [|exact S]. apply Bool.eqb_prop in E. congruence.
Qed.
Print Assumptions C94_switches.

(** A call of [enable_debugging] that raises, because one of the functions does, has enabled
    debugging nevertheless: values are then displayed. *)
Theorem C94_failed_calls_refuted : forall sep warn switches e c key secret cls, visible key ->
  mode c = false -> snd (control_step warn switches (Enable true) c) = Err e ->
  let c' := fst (control_step warn switches (Enable true) c) in
  mode c' = true /\
  exists text, repr sep 1 (mode c') [Mapped true (lit "Namespace") (lit "<class>") [(key, Plain cls secret)]] (Ref 0) = Ok text /\
    part secret text.
Proof.
  intros sep warn switches e c key secret cls V M _ c'.
  assert (M' : mode c' = true) by (unfold c'; rewrite step_mode; reflexivity). split; [exact M'|]. rewrite M'.
  destruct (repr sep 1 true [Mapped true (lit "Namespace") (lit "<class>") [(key, Plain cls secret)]] (Ref 0)) as [text|e'] eqn:E.
  - exists text. split; [reflexivity|]. rewrite (C94_defaults sep 0 true [Mapped true (lit "Namespace") (lit "<class>") [(key, Plain cls secret)]] 0 true _ _ _ eq_refl) in E.
    destruct (C94_shown_values sep 0 true true _ _ _ text (or_intror eq_refl) E key (Plain cls secret) (or_introl eq_refl) V) as (t & S & P).
    injection S as <-. destruct P as (a & b & ->). exists (a ++ key ++ lit "="), b. now rewrite <- !app_assoc.
  - exfalso. destruct V as (x & r & -> & X). cbn [repr nth_error andb negb] in E. unfold mapped_text in E. cbn [pieces] in E.
    destruct (N.eqb_spec x 95); [contradiction|discriminate].
Qed.
Print Assumptions C94_failed_calls_refuted.

(** ** Examples *)
Definition a_secret : list object :=
  [Mapped true (lit "Keys") (lit "<class 'Keys'>") [(lit "key", Plain (lit "<class 'bytes'>") (lit "b'one'")); (lit "_hidden", Plain (lit "<class 'int'>") (lit "1")); (lit "me", Ref 0)];
   Mapped false (lit "Open") (lit "<class 'Open'>") [(lit "keys", Ref 0); (lit "kdf", Ref 2); (lit "size", Plain (lit "<class 'int'>") (lit "8"))];
   Instance (lit "KDF") (lit "<class 'KDF'>") [(lit "payload", Some (Plain (lit "<class 'bytes'>") (lit "b'three'"))); (lit "empty", None); (lit "_x", Some (Ref 0))]].
Definition another_secret : list object :=
  [Mapped true (lit "Keys") (lit "<class 'Keys'>") [(lit "key", Plain (lit "<class 'bytes'>") (lit "b'two'")); (lit "_hidden", Plain (lit "<class 'str'>") (lit "''")); (lit "me", Ref 0)];
   Mapped false (lit "Open") (lit "<class 'Open'>") [(lit "keys", Ref 0); (lit "kdf", Ref 2); (lit "size", Plain (lit "<class 'int'>") (lit "8"))];
   Instance (lit "KDF") (lit "<class 'KDF'>") [(lit "payload", Some (Plain (lit "<class 'bytes'>") (lit "b'four'"))); (lit "empty", None); (lit "_x", None)]].
Example C94_case :
  alike false a_secret another_secret /\
  repr (lit "/") 5 false a_secret (Ref 1) =
    Ok (lit "Open(/    keys=Keys(/    key=<omitted><class 'bytes'>,/    me=<omitted><class 'Keys'>,/),/    kdf=KDF(/    payload=<set><class 'bytes'>,/    empty=<unset>,/),/    size=8,/)") /\
  repr (lit "/") 5 true a_secret (Ref 2) = repr (lit "/") 5 true another_secret (Ref 2) /\
  repr (lit "/") 5 true a_secret (Ref 1) = Err RuntimeErr /\ visible (lit "key") /\
  Forall (fun kv : str * value => fst kv <> []) [(lit "key", Ref 0); (lit "me", Ref 0)].
Proof.
  split.
  { repeat apply Forall2_cons; try apply Forall2_nil; cbn [objects_agree andb negb]; repeat split;
      repeat (apply Forall2_cons || apply Forall2_nil); cbn [fst snd]; try (split; [reflexivity|]);
      try (intros (c & r & E & C); injection E as <- <-; first [congruence|reflexivity]);
      first [left; reflexivity|left; exact I|right; reflexivity]. }
  split; [vm_compute; reflexivity|]. split; [vm_compute; reflexivity|]. split; [vm_compute; reflexivity|].
  split; [eexists _, _; split; [reflexivity|discriminate]|]. repeat apply Forall_cons; try apply Forall_nil; discriminate.
Qed.
(** Twice enabled and once disabled with two functions; and a function that raises. *)
Example C94_modes :
  let fine := fun _ : bool => Ok tt in
  control_run (Ok tt) [fine; fine] [Enable false; Enable true; Disable; Disable] imported =
    {| mode := false; calls := [(0, true); (1, true); (0, false); (1, false)]%nat |} /\
  control_run (Err ValueErr) [fine] [Enable false] imported = imported /\
  control_step (Ok tt) [fun _ => Err RuntimeErr; fine] (Enable true) imported = ({| mode := true; calls := [(0, true)]%nat |}, Err RuntimeErr).
Proof. vm_compute. repeat split. Qed.
