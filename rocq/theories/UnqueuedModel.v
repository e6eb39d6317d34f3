(** * Guards that their callers forgot to queue: aiootp/asynchs/guards

    A guard with a [QueueManually] policy does not append itself to the order queue when it is
    entered: its caller has to do that.  In [GuardModel] the callers do it before they enter the
    guard.  Here some callers do not do it, or do it when it is too late.  Everything else is as in
    [GuardModel]. *)
From Verif Require Import Base GuardModel.

(** policies.py 118-135, 221-242 [get_in_queue]: the guards in [forgotten] are entered without having been
    appended.  The next operation of a manually queued guard which was appended is [policy.use], and that is where
    these are too.  concurrency_guard.py 63-83, state_machine.py 136-147: two empty deques and fresh guard objects. *)
Definition unqueued_start (forgotten : nat -> bool) : state :=
  {| queue := []; observers := []; pcs := fun i => if forgotten i then Queued else Idle; uses := fun _ => Some Unused |}.

(** The caller's [guard.queue.append(guard)], when it comes later. policies.py 118-135, 221-242. *)
Definition enqueue (i : nat) (s : state) : state := set_queue s (queue s ++ [i]).

(** No counterpart: what the scheduler or a caller does, with appends that come later. *)
Inductive late_action := Does (a : action) | Appends (i : nat).
(** One of these. policies.py 118-135, 221-242. *)
Definition late_act (exclusive manual : nat -> bool) (x : late_action) (s : state) : list event * state :=
  match x with
  | Does a => act exclusive manual a s
  | Appends i => ([Joined i], enqueue i s)
  end.
(** No counterpart: one after another. *)
Fixpoint late_run (exclusive manual : nat -> bool) (l : list late_action) (s : state) : list event * state :=
  match l with
  | [] => ([], s)
  | x :: l =>
    let '(e1, s1) := late_act exclusive manual x s in
    let '(e2, s2) := late_run exclusive manual l s1 in
    (e1 ++ e2, s2)
  end.
