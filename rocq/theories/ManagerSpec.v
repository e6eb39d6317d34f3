(** * Guards on many targets: vocabulary of the specification *)
From Verif Require Import Base GuardModel GuardSpec ManagerModel.

Definition seen (exclusive : nat -> bool) (of : nat -> nat) (l : list command) : list event :=
  fst (manage exclusive of l nobody).
Definition reached (exclusive : nat -> bool) (of : nat -> nat) (l : list command) : manager :=
  snd (manage exclusive of l nobody).

(** Guard [i] was entered and its clean-up is still to come. *)
Definition in_use (m : manager) (i g : nat) : Prop := stages m i = Bound g.

(** Guard [i] was entered and now sleeps on the way in (concurrency_guard.py: before
    taking its place in the queue, or while polling the queue). *)
Definition on_the_way_in (m : manager) (i g : nat) : Prop :=
  in_use m i g /\ (pcs (pairs m g) i = Idle \/ pcs (pairs m g) i = Waiting).

(** A stretch of a schedule in which only guards of [gs] act and each of them
    acts at least once. *)
Definition mround (gs : list nat) (b : list command) : Prop :=
  (forall c, In c b -> exists i, c = Go i /\ In i gs) /\
  (forall i, In i gs -> In (Go i) b).
