(** * Containers: vocabulary of the specification *)
From Verif Require Import Base StrModel ContainersModel.
From Coq Require Import Strings.String.
Local Open Scope N_scope.

(** Frozen classes without and with an instance dict, and classes whose slots are
    all typed, as [TypedSlots.__init_subclass__] makes sure. *)
Definition frozen_slots {V} (c : klass V) : Prop := c_frozen V c = true /\ ~ In (lit "__dict__") (c_slots V c).
Definition frozen_namespace {V} (c : klass V) : Prop := c_frozen V c = true /\ In (lit "__dict__") (c_slots V c).

(** An operation that assigns to [k]. *)
Definition assigns {V} (p : op V) (k : name) : Prop :=
  match p with
  | SetItem _ k' _ => k' = k
  | Update _ items => In k (map fst items)
  | DelItem _ _ | Clear _ => False
  end.
(** The operations that do not clear the container and do not hide [s]. *)
Definition plain {V} (s : string) (p : op V) : Prop := p <> Clear V /\ ~ assigns p (Str (lit s)).

(** The value of an attribute or item of the instance. *)
Definition holds {V} (c : klass V) (o : inst V) (k : name) (v : V) : Prop := getitem V c o k = Ok v.

(** A registry: [k] is bound to the object [r]. *)
Definition bound (g : registry) (k : name) (r : ref) : Prop := registered g k = Some r.
Definition of_class (g : registry) (r : ref) : Prop := exists i, nth_error (r_heap g) r = Some {| cfg_class_ok := true; cfg_id := i |}.
Definition has_id (g : registry) (r : ref) (k : name) : Prop := exists b, nth_error (r_heap g) r = Some {| cfg_class_ok := b; cfg_id := Some k |}.
