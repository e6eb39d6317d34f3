(** * The registry of types: vocabulary of the specification *)
From Coq Require Import Strings.String.
From Verif Require Import Base StrModel RegistryModel.
Open Scope list_scope.

(** Something that has all that a class has. *)
Definition is_type (t : thing) : Prop := has_mro t = true /\ has_mro_tuple t = true /\ has_bases t = true /\ has_prepare t = true.
(** A name in capital or title case: an identifier without ["_"] that begins with an upper case letter. *)
Definition proper (isidentifier isupper : str -> bool) (name : str) : Prop :=
  isidentifier name = true /\ ~ In 95%N name /\ exists c rest, name = c :: rest /\ isupper [c] = true.
(** A public constant: upper case, and no ["_"] in front. *)
Definition public (isupper : str -> bool) (name : str) : Prop := isupper name = true /\ forall rest, name <> 95%N :: rest.
