(** * The mapping that is also a namespace: vocabulary of the specification *)
From Coq Require Import Strings.String.
From Verif Require Import Base StrModel BagModel.
Open Scope list_scope.

(** What an instance should hold: a function from names to values, or nothing. *)
Definition holds := str -> option N.
(** A dict as an argument; the first function where it has a value, else the second. *)
Definition of_dict (d : bag) : holds := fun n => dict_get str_eqb d n.
Definition over (top bottom : holds) : holds := fun n => match top n with Some v => Some v | None => bottom n end.
Definition only (name : str) (v : option N) (h : holds) : holds := fun n => if str_eqb name n then v else h n.
(** What it should hold after an operation that has not raised. *)
Definition after (h : holds) (o : op) : holds :=
  match o with
  | SetItem name v | SetAttr name v => only name (Some v) h
  | DelItem name | DelAttr name => only name None h
  | Update mapping kw => over (of_dict kw) (over (of_dict mapping) h)
  | Clear => fun _ => None
  end.
(** Arguments are dicts: no name occurs twice. *)
Definition fair (o : op) : Prop := match o with Update mapping kw => NoDup (map fst mapping) /\ NoDup (map fst kw) | _ => True end.
