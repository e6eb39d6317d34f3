(** * Replacing modules by their public parts: the property C111 *)
From Coq Require Import Strings.String.
From Verif Require Import Base BaseFacts StrModel StrFacts RemakeModel RemakeSpec RemakeProofs.
Open Scope list_scope.

(** C111: of every package and module, at whatever depth, what can be imported is what can be reached by attributes from
    the top, and both are exactly the names that its author has declared public, its subpackages and modules, and the
    five that every module has. *)
Theorem C111_what_is_importable : forall p sys v sys' path q, tidy p -> NoDup (all_names p) -> remake_subpackage p sys = Ok (v, sys') ->
  at_path p path q ->
  exists d name, walk v path = Some (Frozen d) /\ import_name q = Some name /\ dict_get str_eqb sys' name = Some d /\
    forall a, ~ In a (map fst (below q)) ->
      dict_get str_eqb d a = match dict_get str_eqb (api_of q) a with Some x => Some x | None => dict_get str_eqb (blank name) a end.
Proof. intros p sys v sys' path q T N E A. destruct (all_done p sys v sys' T N E) as [_ G]. exact (G path q A). Qed.
Print Assumptions C111_what_is_importable.

(** C111: a private name cannot be imported. *)
Theorem C111_private_names_are_gone : forall p sys v sys' path q name a d, tidy p -> NoDup (all_names p) -> remake_subpackage p sys = Ok (v, sys') ->
  at_path p path q -> import_name q = Some name -> dict_get str_eqb sys' name = Some d ->
  ~ In a (map fst (api_of q)) -> ~ In a (map fst (below q)) ->
  ~ In a [lit "__name__"; lit "__doc__"; lit "__package__"; lit "__loader__"; lit "__spec__"] ->
  dict_get str_eqb d a = None.
Proof.
  intros p sys v sys' path q name a d T N E A I D X B Y. destruct (C111_what_is_importable p sys v sys' path q T N E A) as (d2 & n2 & _ & I2 & D2 & G).
  rewrite I in I2. injection I2 as <-. rewrite D in D2. injection D2 as <-. rewrite (G a B).
  rewrite (proj2 (get_none (V := value) str_eqb str_eqb_eq (api_of q) a) X).
  apply (get_none (V := value) str_eqb str_eqb_eq). exact Y.
Qed.
Print Assumptions C111_private_names_are_gone.

(** C111: modules that are not of the package are as they were. *)
Theorem C111_other_modules_are_untouched : forall p sys v sys' name, tidy p -> NoDup (all_names p) -> remake_subpackage p sys = Ok (v, sys') ->
  ~ In name (all_names p) -> dict_get str_eqb sys' name = dict_get str_eqb sys name.
Proof. intros p sys v sys' name T N E X. destruct (all_done p sys v sys' T N E) as [F _]. now apply F. Qed.
Print Assumptions C111_other_modules_are_untouched.

(** C111: it succeeds if every part has an import name. *)
Theorem C111_succeeds : forall p sys, tidy p -> (forall path q, at_path p path q -> import_name q <> None) -> exists r, remake_subpackage p sys = Ok r.
Proof. intros p sys. apply succeeds. Qed.
Print Assumptions C111_succeeds.

(** A package with a subpackage that has a module, and a module of its own. *)
Definition named (n : string) (more : names_of) : names_of := (lit "__name__", Text (lit n)) :: more.
Definition deep : package := Package (named "top" [(lit "x", Thing 1)])
  [(lit "sub", Package (named "top.sub" [(lit "__doc__", Text (lit "hello"))]) [] [(lit "leaf", named "top.sub.leaf" [(lit "y", Thing 2)])])]
  [(lit "util", named "top.util" [])].
Definition before : modules := [(lit "top.util", named "top.util" [(lit "_private", Thing 3)]); (lit "os", named "os" [])].
Lemma deep_tidy : tidy deep.
Proof.
  assert (forall api, NoDup (map fst api) -> tidy (Package api [] [])) as Z. { intros api N. constructor; cbn; auto; try constructor; try tauto. }
  assert (forall (x y : str), x <> y -> NoDup [x; y]) as TWO. { intros x y N. constructor; [intros [E|[]]; congruence|]. constructor; [intros []|constructor]. }
  constructor; cbn.
  - apply TWO. discriminate.
  - apply TWO. discriminate.
  - intros [E|[E|[]]]; discriminate.
  - intros n q [E|[E|[]]]; injection E as <- <-.
    + constructor; cbn; [apply TWO; discriminate|constructor; [intros []|constructor]|intros [E|[]]; discriminate|].
      intros n q [E|[]]. injection E as <- <-. apply Z. cbn. apply TWO. discriminate.
    + apply Z. constructor; [intros []|constructor].
Qed.
Example C111_case : match remake_subpackage deep before with
  | Ok (v, sys) =>
    map fst sys = [lit "top.util"; lit "os"; lit "top.sub.leaf"; lit "top.sub"; lit "top"] /\
    option_map (fun d => dict_get str_eqb d (lit "_private")) (dict_get str_eqb sys (lit "top.util")) = Some None /\
    walk v [lit "sub"; lit "leaf"; lit "y"] = Some (Thing 2) /\ walk v [lit "sub"; lit "__doc__"] = Some (Text (lit "hello")) /\
    walk v [lit "__doc__"] = Some Nothing
  | Err _ => False
  end.
Proof. vm_compute. repeat split; reflexivity. Qed.
Lemma no_common (l : list str) : (fix f l := match l with [] => true | x :: l => negb (existsb (str_eqb x) l) && f l end) l = true -> NoDup l.
Proof.
  induction l as [|x l IH]; intros H; [constructor|]. apply andb_prop in H as [A B]. constructor; [|now apply IH]. intros I.
  apply negb_true_iff in A. rewrite <- not_true_iff_false in A. apply A. apply existsb_exists. exists x. split; [exact I|apply str_eqb_refl].
Qed.
Example C111_case_of_theorem : tidy deep /\ NoDup (all_names deep) /\ at_path deep [lit "sub"; lit "leaf"] (Package (named "top.sub.leaf" [(lit "y", Thing 2)]) [] []).
Proof.
  split; [exact deep_tidy|]. split; [apply no_common; vm_compute; reflexivity|].
  eapply Down; [left; reflexivity|]. eapply Down; [left; reflexivity|]. apply Here.
Qed.

(** C111 refuted: without the condition on names, what is imported is what is reached by attributes.  Of two parts with
    one import name the last is imported; and a part hides a public name of the package that is called like it. *)
Definition twice : package := Package (named "top" [(lit "b", Thing 1)]) [] [(lit "a", named "same" [(lit "x", Thing 2)]); (lit "b", named "same" [(lit "x", Thing 3)])].
Theorem C111_names_refuted : match remake_subpackage twice [] with
  | Ok (v, sys) => walk v [lit "a"; lit "x"] = Some (Thing 2) /\
    option_map (fun d => dict_get str_eqb d (lit "x")) (dict_get str_eqb sys (lit "same")) = Some (Some (Thing 3)) /\
    walk v [lit "b"] <> Some (Thing 1)
  | Err _ => False
  end.
Proof. vm_compute. repeat split; try reflexivity. discriminate. Qed.
Print Assumptions C111_names_refuted.
