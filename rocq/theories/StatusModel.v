(** * What a guard says about itself: aiootp/asynchs/guards/state_machine.py 238-289
    with concurrency_guard.py 278-317, over GuardModel.v

    A status method reads the state deque of the guard once, which is atomic.  In
    GuardModel.v a transition is one operation, except in [tstep], where the pop and
    the append of a transition are two; an exclusive guard's [queue.popleft] and its
    transition to the done state are one operation there, two in policies.py 88-97. *)
From Verif Require Import Base GuardModel.

(** state_machine.py 238-247, concurrency_guard.py 278-284. *)
Definition is_unused (t : tracker) : bool :=
  match t with Some Unused => true | _ => false end.
(** state_machine.py 249-259, concurrency_guard.py 286-293. *)
Definition is_pending (t : tracker) : bool :=
  match t with Some Pending => true | _ => false end.
(** state_machine.py 261-271, concurrency_guard.py 295-302. *)
Definition is_running (t : tracker) : bool :=
  match t with Some Running => true | _ => false end.
(** state_machine.py 273-281, concurrency_guard.py 304-309. *)
Definition is_done (t : tracker) : bool :=
  match t with Some Finished => true | _ => false end.
(** state_machine.py 283-289, concurrency_guard.py 311-317. *)
Definition has_faulted (t : tracker) : bool :=
  match t with None => true | _ => false end.
