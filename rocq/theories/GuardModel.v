(** * Concurrency guards: aiootp/asynchs/guards

    Threads (or tasks) run guards over one pair of deques.  Each operation on a
    [collections.deque] is atomic; anything can happen between two of them.  A
    schedule is a list of actions; the guard that acts performs its next atomic
    operation.  The synchronous and asynchronous context managers perform the
    same operations; sleeping is not an operation.  Memory and time are not
    modelled. *)
From Verif Require Import Base.

(** state_machine.py 52-117: the states of a guard; [None] is the empty deque,
    the state of a faulted guard. *)
Inductive use := Unused | Pending | Running | Finished.
(** state_machine.py 120-147 [_state]. *)
Definition tracker := option use.

(** state_machine.py 194-228: a transition pops the state; if it is the wrong one
    or there is none, nothing is put back and InvalidStateTransition is raised. *)
Definition transition (from to : use) (t : tracker) : bool * tracker :=
  match t, from with
  | Some Unused, Unused | Some Pending, Pending | Some Running, Running => (true, Some to)
  | _, _ => (false, None)
  end.
(** state_machine.py 52-117, 194-228. *)
Definition to_pending := transition Unused Pending.
(** state_machine.py 52-117, 194-228. *)
Definition to_running := transition Pending Running.
(** state_machine.py 52-117, 194-228. *)
Definition to_done := transition Running Finished.

(** What a guard is about to do. concurrency_guard.py 319-397 with policies.py 46-242: the
    places between two operations on what guards share. *)
Inductive pc :=
| Idle                 (* nothing done yet *)
| Queued               (* a manually queued guard was appended by its caller *)
| Used                 (* after policy.use; about to notify_on *)
| Notified             (* about to get_in_queue *)
| Waiting              (* about to read queue[0] in is_free_to_run *)
| Checked (next : bool)(* exclusive: has read queue[0], about to read observers[0] *)
| Head                 (* non-exclusive: is queue[0], about to observers.appendleft *)
| Prepended            (* non-exclusive: about to queue.popleft *)
| Free                 (* about to transition_to_running *)
| Inside               (* __enter__ has returned; the block runs, then notify_off *)
| Off                  (* about to get_off_queue *)
| Complete             (* __exit__ has returned *)
| Fault1 (e : exn)     (* running the fault signals *)
| Fault2 (e : exn)
| Failed (e : exn)     (* the exception has propagated *)
| Gone (q o : bool).   (* cancelled: whether it left itself in the two deques *)

(** concurrency_guard.py 37-83: the two deques; 179-186: the slots of each guard. *)
Record state := {
  queue : list nat;
  observers : list nat;
  pcs : nat -> pc;
  uses : nat -> tracker;
}.

(** What can be seen from outside. No counterpart: enters, leaves and exceptions of
    concurrency_guard.py 319-397. *)
Inductive event :=
| Joined (i : nat)     (* appended to the order queue *)
| Entered (i : nat)    (* about to run its block *)
| Left (i : nat)       (* the block is over, the guard begins to leave *)
| Raised (i : nat) (e : exn).

(** Actions: the next operation of a guard; a second [with] on a guard object which is in use
    already (its [policy.use] raises, and empties the state); CancelledError in a task which
    sleeps in [__aenter__] or [__aexit__]. No counterpart: what the scheduler or a caller does. *)
Inductive action :=
| Step (i : nat)
| Reuse (i : nat)
| Cancel (i : nat).

Section Guards.
Variable exclusive : nat -> bool.   (* the policy of each guard *)
Variable manual : nat -> bool.      (* queued manually by the caller *)

(** No counterpart: a guard proceeds. *)
Definition set_pc (s : state) (i : nat) (p : pc) : state :=
  {| queue := queue s; observers := observers s;
     pcs := fun j => if Nat.eqb j i then p else pcs s j; uses := uses s |}.
(** No counterpart: a new queue. *)
Definition set_queue (s : state) (q : list nat) : state :=
  {| queue := q; observers := observers s; pcs := pcs s; uses := uses s |}.
(** No counterpart: a new deque of observers. *)
Definition set_observers (s : state) (o : list nat) : state :=
  {| queue := queue s; observers := o; pcs := pcs s; uses := uses s |}.
(** No counterpart: a new state of a guard. *)
Definition set_use (s : state) (i : nat) (t : tracker) : state :=
  {| queue := queue s; observers := observers s; pcs := pcs s;
     uses := fun j => if Nat.eqb j i then t else uses s j |}.

(** deque.pop: the list without its last element. As used in policies.py 46-218. *)
Definition pop {A} (l : list A) : option (list A) :=
  match l with
  | [] => None
  | _ => Some (removelast l)
  end.

(** One operation of guard [i]: concurrency_guard.py 338-354 [__enter__],
    378-397 [__exit__] with policies.py 46-115 (exclusive) and 138-218
    (non-exclusive); 118-135, 221-242 do not queue themselves. *)
Definition step_guard (i : nat) (s : state) : list event * state :=
  match pcs s i with
  | Idle =>
    if manual i
    then ([Joined i], set_pc (set_queue s (queue s ++ [i])) i Queued)   (* by the caller *)
    else
      let '(ok, t) := to_pending (uses s i) in
      if ok then ([], set_pc (set_use s i t) i Used)
      else ([Raised i InvalidStateTransition], set_pc (set_use s i t) i (Failed InvalidStateTransition))
  | Queued =>
    let '(ok, t) := to_pending (uses s i) in
    if ok then ([], set_pc (set_use s i t) i Used)
    else ([Raised i InvalidStateTransition], set_pc (set_use s i t) i (Failed InvalidStateTransition))
  | Used =>
    ([], if exclusive i
         then set_pc (set_observers s (observers s ++ [i])) i Notified
         else set_pc s i Notified)
  | Notified =>
    if manual i then ([], set_pc s i Waiting)
    else ([Joined i], set_pc (set_queue s (queue s ++ [i])) i Waiting)
  | Waiting =>
    match queue s with
    | [] => ([Raised i IndexErr], set_pc s i (Failed IndexErr))
    | h :: _ =>
      ([], set_pc s i (if exclusive i then Checked (Nat.eqb h i)
                       else if Nat.eqb h i then Head else Waiting))
    end
  | Checked next =>
    match observers s with
    | [] => ([Raised i IndexErr], set_pc s i (Failed IndexErr))
    | h :: _ => ([], set_pc s i (if next && exclusive h then Free else Waiting))
    end
  | Head => ([], set_pc (set_observers s (i :: observers s)) i Prepended)
  | Prepended =>
    match queue s with
    | [] => ([Raised i IndexErr], set_pc s i (Fault1 IndexErr))
    | h :: q =>
      if Nat.eqb h i then ([], set_pc (set_queue s q) i Free)
      else ([Raised i IncoherentConcurrencyState], set_pc (set_queue s q) i (Fault1 IncoherentConcurrencyState))
    end
  | Free =>
    let '(ok, t) := to_running (uses s i) in
    if ok then ([Entered i], set_pc (set_use s i t) i Inside)
    else ([Raised i InvalidStateTransition], set_pc (set_use s i t) i (Fault1 InvalidStateTransition))
  | Fault1 e =>
    (* the first fault signal: observers.pop or observers.popleft *)
    if exclusive i
    then match pop (observers s) with
         | None => ([], set_pc s i (Failed IndexErr))
         | Some o => ([], set_pc (set_observers s o) i (Fault2 e))
         end
    else match observers s with
         | [] => ([], set_pc s i (Failed IndexErr))
         | _ :: o => ([], set_pc (set_observers s o) i (Failed e))
         end
  | Fault2 e =>
    (* the second: queue.popleft *)
    match queue s with
    | [] => ([], set_pc s i (Failed IndexErr))
    | _ :: q => ([], set_pc (set_queue s q) i (Failed e))
    end
  | Inside =>
    if exclusive i
    then match pop (observers s) with
         | None => ([Left i; Raised i IndexErr], set_pc s i (Failed IndexErr))
         | Some o => ([Left i], set_pc (set_observers s o) i Off)
         end
    else match observers s with
         | [] => ([Left i; Raised i IndexErr], set_pc s i (Failed IndexErr))
         | _ :: o => ([Left i], set_pc (set_observers s o) i Off)
         end
  | Off =>
    if exclusive i
    then match queue s with
         | [] => ([Raised i IndexErr], set_pc s i (Failed IndexErr))
         | h :: q =>
           if Nat.eqb h i then
             let '(ok, t) := to_done (uses s i) in
             if ok then ([], set_pc (set_use (set_queue s q) i t) i Complete)
             else ([Raised i InvalidStateTransition],
                   set_pc (set_use (set_queue s q) i t) i (Failed InvalidStateTransition))
           else ([Raised i IncoherentConcurrencyState],
                 set_pc (set_use (set_queue s q) i None) i (Failed IncoherentConcurrencyState))
         end
    else
      let '(ok, t) := to_done (uses s i) in
      if ok then ([], set_pc (set_use s i t) i Complete)
      else ([Raised i InvalidStateTransition], set_pc (set_use s i t) i (Failed InvalidStateTransition))
  | Complete | Failed _ | Gone _ _ => ([], s)
  end.

(** The guard object is in use or was used. (Entering an object again which was cancelled before
    its [policy.use] is not modelled.). state_machine.py 52-117. *)
Definition begun (t : tracker) : bool :=
  match t with Some Unused => false | _ => true end.

(** concurrency_guard.py 319-336, 356-376: the points where a task sleeps: at
    the start (nothing has happened yet), between two probes, and before leaving. *)
Definition cancel_guard (i : nat) (s : state) : state :=
  match pcs s i with
  | Idle => set_pc s i (Gone false false)
  | Queued => set_pc s i (Gone true false)
  | Waiting => set_pc s i (Gone true (exclusive i))
  | Inside => set_pc s i (Gone (exclusive i) true)
  | _ => s
  end.

(** No counterpart: one action. *)
Definition act (a : action) (s : state) : list event * state :=
  match a with
  | Step i => step_guard i s
  | Reuse i => ([], if begun (uses s i) then set_use s i (snd (to_pending (uses s i))) else s)
  | Cancel i => (match pcs s i with Inside => [Left i] | _ => [] end, cancel_guard i s)
  end.

(** No counterpart: actions one after another. *)
Fixpoint run (schedule : list action) (s : state) : list event * state :=
  match schedule with
  | [] => ([], s)
  | a :: schedule =>
    let '(e1, s1) := act a s in
    let '(e2, s2) := run schedule s1 in
    (e1 ++ e2, s2)
  end.

End Guards.

(** concurrency_guard.py 63-83 [DequePair], state_machine.py 136-147: two empty
    deques and fresh guard objects. *)
Definition start : state :=
  {| queue := []; observers := []; pcs := fun _ => Idle; uses := fun _ => Some Unused |}.

(** ** The use tracker of one guard The three transitions called one after the other.
    state_machine.py 52-117. *)
Inductive move := Wait | Run | Finish.
(** state_machine.py 52-117. *)
Definition source (m : move) : use :=
  match m with Wait => Unused | Run => Pending | Finish => Running end.
(** state_machine.py 52-117. *)
Definition target (m : move) : use :=
  match m with Wait => Pending | Run => Running | Finish => Finished end.
(** state_machine.py 194-228. *)
Definition try_move (m : move) (t : tracker) : bool * tracker := transition (source m) (target m) t.

(** No counterpart: calls one after another. *)
Fixpoint try_moves (l : list move) (t : tracker) : list bool * tracker :=
  match l with
  | [] => ([], t)
  | m :: l =>
    let '(ok, t1) := try_move m t in
    let '(oks, t2) := try_moves l t1 in
    (ok :: oks, t2)
  end.

(** state_machine.py 194-228 with the pop and the append of a transition as two
    operations, and any number of threads which call one transition each. *)
Inductive tpc :=
| Calling              (* about to pop the state *)
| Holding (u : use)    (* has popped; about to append the next state *)
| Passed
| Refused.
(** No counterpart: the cell and the threads. *)
Record tstate := { cell : tracker; tpcs : nat -> tpc }.
(** state_machine.py 194-228: one operation of a thread. *)
Definition tstep (what : nat -> move) (k : nat) (s : tstate) : list nat * tstate :=
  let set c p := {| cell := c; tpcs := fun j => if Nat.eqb j k then p else tpcs s j |} in
  match tpcs s k with
  | Calling =>
    let '(ok, _) := try_move (what k) (cell s) in
    ([], if ok then set None (Holding (target (what k))) else set None Refused)
  | Holding u => ([k], set (Some u) Passed)
  | Passed | Refused => ([], s)
  end.
(** No counterpart: the operations of the threads as the scheduler orders them. *)
Fixpoint trun (what : nat -> move) (schedule : list nat) (s : tstate) : list nat * tstate :=
  match schedule with
  | [] => ([], s)
  | k :: schedule =>
    let '(e1, s1) := tstep what k s in
    let '(e2, s2) := trun what schedule s1 in
    (e1 ++ e2, s2)
  end.
(** state_machine.py 136-147: a new guard, and no thread has begun. *)
Definition tstart : tstate := {| cell := Some Unused; tpcs := fun _ => Calling |}.
