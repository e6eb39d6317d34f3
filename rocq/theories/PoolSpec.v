(** * What is said about [new] and [gather] *)
From Verif Require Import Base PoolModel.

Section Spec.
Context {V E : Type}.

(** What a caller who runs the functions one after the other gets: all results in
    order, or the exception of the first that fails. *)
Fixpoint one_by_one (fs : list (outcome V E)) : ending V E :=
  match fs with
  | [] => Results []
  | Raises e :: _ => Fails e
  | Returns v :: fs => match one_by_one fs with Results l => Results (v :: l) | r => r end
  end.

(** A call of [gather] is over, with this ending. *)
Definition over (p : pool V E) (r : ending V E) : Prop := exists tasks, gather_ p = Ended r tasks.

(** What the caller itself would get from the function. *)
Definition direct (o : outcome V E) : answer V E := match o with Returns v => Value v | Raises e => Raised e end.
(** The steps of a schedule that the child makes. *)
Definition of_child (m : move) : bool := match m with Child _ => true | Caller => false end.
Definition child_steps (l : list move) : nat := length (filter of_child l).
End Spec.
