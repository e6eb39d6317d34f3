(** * Defining classes with typed slots: vocabulary of the specification *)
From Verif Require Import Base StrModel ContainersModel ContainersSpec DefineModel.
Local Open Scope N_scope.

(** The type that a class gives to a slot, and that the body of a class declares. *)
Definition type_of (d : defined) (s : str) : option N :=
  match d_types d with Some l => dict_get str_eqb l s | None => None end.
Definition own_type (b : body) (s : str) : option N :=
  match b_types b with Some l => dict_get str_eqb l s | None => None end.
Definition is_typed (d : defined) : Prop := d_types d <> None.
(** The type given by the first class that gives one. *)
Fixpoint first_type (mro : list defined) (s : str) : option N :=
  match mro with
  | [] => None
  | d :: mro => match type_of d s with Some t => Some t | None => first_type mro s end
  end.
(** The type declared by the first body that declares one. *)
Fixpoint nearest (bs : list body) (s : str) : option N :=
  match bs with
  | [] => None
  | b :: bs => match own_type b s with Some t => Some t | None => nearest bs s end
  end.
(** A dict has each key once. *)
Definition proper (b : body) : Prop := forall l, b_types b = Some l -> NoDup (map fst l).
(** The classes of a program. *)
Definition program (checkable : N -> bool) (l : list (body * list nat)) : list defined :=
  define_all checkable [slots_root; typed_root] l.
(** Single inheritance from TypedSlots: the last class first, and its order of resolution. *)
Fixpoint line (checkable : N -> bool) (bs : list body) : option (list defined) :=
  match bs with
  | [] => Some [typed_root; slots_root]
  | b :: bs =>
    match line checkable bs with
    | Some mro => match define checkable b mro with Ok d => Some (d :: mro) | Err _ => None end
    | None => None
    end
  end.
(** A class whose slots other than [__dict__] are just the names that have a type, and these types can be checked. *)
Definition fully_typed (checkable : N -> bool) (d : defined) : Prop :=
  (forall s, (In s (d_slots d) /\ s <> DICT) <-> exists t, type_of d s = Some t) /\
  (forall s t, type_of d s = Some t -> checkable t = true).
(** The names that a class about to be defined has as slots, those that it may not have, and its own declarations. *)
Definition has_slot (b : body) (mro : list defined) (s : str) : Prop :=
  In s (b_slots b) \/ exists d, In d mro /\ In s (d_slots d).
Definition reserved_name (b : body) (mro : list defined) (s : str) : Prop :=
  In s (b_restricted b) \/ exists d, In d mro /\ In s (d_restricted d).
Definition declares (b : body) (s : str) (t : N) : Prop := exists l, b_types b = Some l /\ In (s, t) l.
