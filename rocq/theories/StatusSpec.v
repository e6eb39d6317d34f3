(** * What a guard says about itself: vocabulary of the specification *)
From Verif Require Import Base GuardModel GuardSpec StatusModel.

(** The five questions, and the answers a guard gives after a schedule. *)
Inductive question := Unused_q | Pending_q | Running_q | Done_q | Faulted_q.
Definition asks (q : question) : tracker -> bool :=
  match q with
  | Unused_q => is_unused | Pending_q => is_pending | Running_q => is_running
  | Done_q => is_done | Faulted_q => has_faulted
  end.
Definition says (exclusive manual : nat -> bool) (l : list action) (i : nat) (q : question) : Prop :=
  asks q (uses (after exclusive manual l) i) = true.

(** The order in which a guard passes through them. *)
Definition rank (q : question) : nat :=
  match q with Unused_q => 0 | Pending_q => 1 | Running_q => 2 | Done_q => 3 | Faulted_q => 4 end.

(** Guard [i] is neither used a second time nor cancelled. *)
Definition proper (l : list action) (i : nat) : Prop := ~ In (Reuse i) l /\ ~ In (Cancel i) l.

(** As in asyncio, where nothing is awaited between the two operations of leaving: when guard
    [i] begins to leave, the next operation is its own. *)
Definition leaves_at_once (exclusive manual : nat -> bool) (l : list action) (i : nat) : Prop :=
  forall l1 l2, l = l1 ++ Step i :: l2 ->
    In (Left i) (trace exclusive manual (l1 ++ [Step i])) -> ~ In (Left i) (trace exclusive manual l1) ->
    exists l3, l2 = Step i :: l3.
