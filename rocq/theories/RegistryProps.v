(** * The registry of types: the property C112 *)
From Coq Require Import Strings.String.
From Verif Require Import Base BaseFacts StrModel StrFacts RegistryModel RegistrySpec RegistryProofs.
Open Scope list_scope.

Section R.
Variables isidentifier isupper : str -> bool.
Notation add_type := (add_type isidentifier isupper).
Notation adds := (adds isidentifier isupper).
Notation proper := (proper isidentifier isupper).

(** C112: a type is accepted if and only if it is one, its name is proper and the class does not have the name. *)
Theorem C112_accepted_iff : forall cls t,
  (exists cls', add_type cls t = Ok cls') <->
  exists name, qualname t = Some name /\ is_type t /\ proper name /\ ~ In name (map fst cls).
Proof.
  intros cls t. split.
  - intros (cls' & E). apply add_spec in E as (n & Q & T & G & P & _). exists n. repeat split; try tauto; try apply T; try apply P.
    now apply (get_none (V := N) str_eqb str_eqb_eq).
  - intros (n & Q & T & P & G). eexists. apply add_spec. exists n. repeat split; try apply T; try apply P; try exact Q.
    now apply (get_none (V := N) str_eqb str_eqb_eq).
Qed.

(** C112: an accepted type is found by its name, and every other name stands for what it stood for. *)
Theorem C112_accepted_is_found : forall cls t cls' name, add_type cls t = Ok cls' -> qualname t = Some name ->
  dict_get str_eqb cls' name = Some (t_id t) /\ forall other, other <> name -> dict_get str_eqb cls' other = dict_get str_eqb cls other.
Proof.
  intros cls t cls' name E Q. apply add_spec in E as (n & Q' & _ & _ & _ & ->). rewrite Q in Q'. injection Q' as <-. split; [|intros o NE];
    rewrite (get_set (V := N) str_eqb str_eqb_eq); [now rewrite str_eqb_refl|]. destruct (str_eqb name o) eqn:X; [|reflexivity]. apply str_eqb_eq in X. congruence.
Qed.

(** C112: why a type is refused: it is none (TypeError); its name is taken (AttributeError); or its name is not proper
    (ValueError, for an empty name IndexError). *)
Theorem C112_reasons : forall cls t name, qualname t = Some name ->
  (~ is_type t -> add_type cls t = Err TypeErr) /\
  (is_type t -> proper name -> In name (map fst cls) -> add_type cls t = Err AttributeErr) /\
  (is_type t -> ~ proper name -> ~ In name (map fst cls) -> add_type cls t = Err (match name with [] => IndexErr | _ => ValueErr end)).
Proof.
  intros cls t name Q. unfold RegistryModel.add_type. rewrite Q. split; [|split].
  - intros T. rewrite <- is_type_spec in T. unfold test_type in *. destruct (_ && _ && _ && _); [congruence|reflexivity].
  - intros T (I & M & c & r & -> & U) G. apply is_type_spec in T. rewrite T. cbn [bind]. unfold test_type_name. rewrite I. cbn [negb].
    apply (get_some_in (V := N) str_eqb str_eqb_eq) in G as (v & ->). reflexivity.
  - intros T P G. apply is_type_spec in T. rewrite T. cbn [bind]. apply (get_none (V := N) str_eqb str_eqb_eq) in G.
    destruct (test_type_name isidentifier isupper cls name) as [[]|e] eqn:E; [apply name_spec in E; tauto|]. cbn [bind]. unfold test_type_name in E. rewrite G in E. cbv zeta in E.
    destruct name as [|c r]; [now injection E as <-|]. destruct (isidentifier (c :: r)); cbn [negb] in E; [|now injection E as <-].
    destruct (_ || _) in E; [now injection E as <-|discriminate].
Qed.

(** C112: after any calls, on the registry and on classes derived from it, what the registry's names stand for has not
    changed; and what is new in a class has been added to that class, is a type, and has a proper name, its own. *)
Theorem C112_names_are_never_changed : forall (cs : classes) (calls : list (nat * thing)) j d name v,
  nth_error cs j = Some d -> dict_get str_eqb d name = Some v ->
  exists d', nth_error (adds cs calls) j = Some d' /\ dict_get str_eqb d' name = Some v.
Proof. intros cs calls j d name v N G. destruct (many isidentifier isupper calls cs j name v) as [A _]. exact (A d N G). Qed.
Theorem C112_what_is_new : forall (cs : classes) (calls : list (nat * thing)) j d d' name v,
  nth_error cs j = Some d -> nth_error (adds cs calls) j = Some d' -> dict_get str_eqb d name = None -> dict_get str_eqb d' name = Some v ->
  exists t, In (j, t) calls /\ qualname t = Some name /\ is_type t /\ proper name /\ t_id t = v.
Proof.
  intros cs calls j d d' name v N N' G G'. destruct (many isidentifier isupper calls cs j name v) as [_ B]. destruct (B d' N' G') as [(d2 & N2 & G2)|H]; [|exact H]. pose proof (eq_trans (eq_sym N) N2) as X. injection X as <-. rewrite G in G2. discriminate.
Qed.
(** C112: calls on derived classes do not change what is found in the registry. *)
Theorem C112_derived_classes_do_not_reach_up : forall (cs : classes) (calls : list (nat * thing)) k name, Forall (fun it => fst it < k) calls ->
  lookup (skipn k (adds cs calls)) name = lookup (skipn k cs) name.
Proof. intros cs calls k name F. now rewrite adds_skip. Qed.

(** C112: the public constants are all that are upper case and do not begin with ["_"], with their values. *)
Theorem C112_constants : forall (mapping : list (str * N)) name,
  (public isupper name -> dict_get str_eqb (collect_non_private_constants isupper mapping) name = dict_get str_eqb mapping name) /\
  (~ public isupper name -> dict_get str_eqb (collect_non_private_constants isupper mapping) name = None).
Proof. intros mapping name. apply collect_get. Qed.
End R.
Print Assumptions C112_accepted_iff.
Print Assumptions C112_accepted_is_found.
Print Assumptions C112_reasons.
Print Assumptions C112_names_are_never_changed.
Print Assumptions C112_what_is_new.
Print Assumptions C112_derived_classes_do_not_reach_up.
Print Assumptions C112_constants.

(** For the cases, the two predicates for ASCII. *)
Definition upper (c : N) : bool := (65 <=? c)%N && (c <=? 90)%N.
Definition lower (c : N) : bool := (97 <=? c)%N && (c <=? 122)%N.
Definition digit (c : N) : bool := (48 <=? c)%N && (c <=? 57)%N.
Definition ascii_upper (s : str) : bool := existsb upper s && negb (existsb lower s).
Definition ascii_identifier (s : str) : bool :=
  match s with
  | [] => false
  | c :: _ => negb (digit c) && forallb (fun c => upper c || lower c || digit c || (c =? 95)%N) s
  end.
Definition a_class (n : N) (name : string) : thing :=
  {| t_id := n; qualname := Some (lit name); has_mro := true; has_mro_tuple := true; has_bases := true; has_prepare := true |}.
Definition an_instance (n : N) : thing :=
  {| t_id := n; qualname := Some (lit "Guest"); has_mro := false; has_mro_tuple := false; has_bases := false; has_prepare := false |}.
Definition typing : own := [(lit "Any", 1%N); (lit "add_type", 2%N)].
Example C112_case : adds ascii_identifier ascii_upper [[]; typing]
    [(1, a_class 3 "Token"); (1, a_class 4 "Any"); (1, a_class 5 "Outer.Inner"); (1, a_class 6 "small"); (1, a_class 7 "My_Type");
     (1, an_instance 8); (0, a_class 9 "Token"); (1, a_class 10 "")] =
  [[(lit "Token", 9%N)]; [(lit "Any", 1%N); (lit "add_type", 2%N); (lit "Token", 3%N)]].
Proof. vm_compute. reflexivity. Qed.
Example C112_case_of_constants : collect_non_private_constants ascii_upper [(lit "SIZE", 1%N); (lit "_SIZE", 2%N); (lit "size", 3%N); (lit "MAX_2", 4%N)] =
  [(lit "SIZE", 1%N); (lit "MAX_2", 4%N)].
Proof. vm_compute. reflexivity. Qed.

(** C112 refuted: a name that a class has cannot be added to it.  A derived class has the names of the registry, but only
    its own dictionary is looked at: the addition is accepted, and the name stands for something else afterwards. *)
Theorem C112_inherited_names_refuted :
  lookup [[]; typing] (lit "Any") = Some 1%N /\
  (exists cls', add_type ascii_identifier ascii_upper [] (a_class 9 "Any") = Ok cls') /\
  lookup (adds ascii_identifier ascii_upper [[]; typing] [(0, a_class 9 "Any")]) (lit "Any") = Some 9%N.
Proof. split; [vm_compute; reflexivity|]. split; [eexists; vm_compute; reflexivity|]. vm_compute. reflexivity. Qed.
Print Assumptions C112_inherited_names_refuted.
