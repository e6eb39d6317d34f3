(** * What is said about saving a database that is in use *)
From Verif Require Import Base TasksModel TasksSpec SaveModel.

Section Spec.
Context {V : Type}.
Variable seal : V -> bytes.
Variable unseal : bytes -> option V.
Variable munseal : bytes -> option (list nat).

(** Setting a tag and keeping it in the cache; querying it. *)
Definition harmless (o : op V) : Prop := match o with Set_ _ keep => keep = true | Query _ _ => True | _ => False end.

(** What a process that opens the database now is told about a tag: whether the manifest
    lists it, and the reply to a query, with an empty cache. *)
Definition elsewhere_listed (y : dbase V) (g : nat) : option bool :=
  match root y with
  | None => Some false
  | Some c => option_map (existsb (Nat.eqb g)) (munseal c)
  end.
Definition elsewhere (y : dbase V) (g : nat) : task V :=
  let s := SaveModel.slots y g in
  fst (alone seal unseal (Query false false) {| cached := None; listed := true; file := file s; born := born s |}).
End Spec.
