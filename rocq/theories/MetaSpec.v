(** * What is said about tasks that use sub-databases *)
From Verif Require Import Base TasksModel MetaModel.

(** The sub-database an operation is about. *)
Definition about (o : mop) : nat := match o with Meta g | Delete g | MetaModel.Save g => g end.
(** The answer of the [i]-th task, when it has one. *)
Definition answer {S} (y : family S) (i : nat) : option mreply :=
  match nth_error (tasks y) i with Some (MDone r) => Some r | _ => None end.
(** The parent knows the sub-database by its name: it lists it and has it as an attribute. *)
Definition has {S} (y : family S) (g o : nat) : Prop := In g (metatags y) /\ attrs y g = Some o.
(** The parent does not know the name. *)
Definition lacks {S} (y : family S) (g : nat) : Prop := ~ In g (metatags y) /\ attrs y g = None.
(** The parent is consistent: no name is listed twice, and those that are listed are those with
    an object, which is one of that name. *)
Definition consistent {S} (y : family S) : Prop :=
  NoDup (metatags y) /\ (forall g, (exists o, has y g o) \/ lacks y g) /\
  forall g o, has y g o -> exists x, nth_error (objects y) o = Some x /\ name x = g.
(** The salt a process finds that opens the sub-database from its file. *)
Definition on_disk_salt {S} (y : family S) (g : nat) : option S :=
  match roots y g with Some (_, Sealed c) => c | _ => None end.
(** All tasks have ended. *)
Definition ended {S} (y : family S) : Prop := forall i t, nth_error (tasks y) i = Some t -> exists r, t = MDone r.
