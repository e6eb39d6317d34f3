(** * Concurrency guards: vocabulary of the specification *)
From Verif Require Import Base GuardModel.

(** What was seen and what is the case after a schedule, from fresh guards. *)
Definition trace (exclusive manual : nat -> bool) (l : list action) : list event :=
  fst (run exclusive manual l start).
Definition after (exclusive manual : nat -> bool) (l : list action) : state :=
  snd (run exclusive manual l start).

(** The guards in the order in which they joined the queue. *)
Fixpoint joins (t : list event) : list nat :=
  match t with
  | [] => []
  | Joined i :: t => i :: joins t
  | _ :: t => joins t
  end.

(** A stretch of a schedule in which only guards of [gs] act and each of them
    acts at least once. *)
Definition round (gs : list nat) (b : list action) : Prop :=
  (forall a, In a b -> exists i, a = Step i /\ In i gs) /\
  (forall i, In i gs -> In (Step i) b).

(** As seen from outside: guard [i] has entered its block and not yet left it. *)
Definition busy (t : list event) (i : nat) : Prop :=
  In (Entered i) t /\ ~ In (Left i) t.

Definition uses_guard (a : action) (i : nat) : Prop := a = Step i \/ a = Reuse i \/ a = Cancel i.

(** No cancellation hits a guard between joining the queue and leaving. *)
Definition harmless_cancels (exclusive manual : nat -> bool) (l : list action) : Prop :=
  forall l1 i l2, l = l1 ++ Cancel i :: l2 ->
    ~ In (Joined i) (trace exclusive manual l1) \/ In (Left i) (trace exclusive manual l1).
