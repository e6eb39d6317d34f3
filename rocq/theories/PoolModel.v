(** * Model of aiootp/asynchs/concurrency_interface.py, threads.py and processes.py

    The asynchronous variants probe with [asyncio.sleep] and are otherwise the same.
    The threads, processes, queues and futures of the standard library are modelled as
    far as they are used. *)
From Verif Require Import Base.
Local Open Scope N_scope.

(** ** [new]: one function in a thread or process of its own *)
Section Call.
(** What functions return, and what they raise. *)
Variables V E : Type.
(** [pickle]: the number of bytes a value takes up in a pipe, with its header; None if
    it cannot be pickled. *)
Variable size : V -> option N.
(** threads.py 49-54: a [queue.Queue] holds the value itself.  processes.py 50-56: a
    [multiprocessing.Queue] is a pipe that holds [capacity] bytes, filled by a thread
    of the child; a child ends when its thread has written everything. *)
Inductive kind := Thread | Process (capacity : N).
(** The child: before and in the function, with that many bytes to write, over.
    concurrency_interface.py 94-107. *)
Inductive child := Working | Flushing (rest : N) (v : option V) | Gone.
(** What the caller gets: the value, the exception of the function, or [queue.Empty].
    concurrency_interface.py 140-169. *)
Inductive answer := Value (v : V) | Raised (e : E) | Empty.
(** concurrency_interface.py 140-169. *)
Inductive caller := Probing | Returned (a : answer).
(** [in_pipe] counts the bytes in the pipe, [item] is the value that can be got from the queue.
    concurrency_interface.py 140-169. *)
Record call := { ch : child; in_pipe : N; item : option V; cl : caller }.
(** concurrency_interface.py 140-169: the child has been started. *)
Definition called : call := {| ch := Working; in_pipe := 0; item := None; cl := Probing |}.

(** concurrency_interface.py 94-107 [_run_func], 70-92 [_arun_func], in the child:
    [outcome] is what the function does.  An exception ends the child; so does the end
    of a thread that has filled the queue.  A step of a process that writes moves [k]
    bytes, at least one if there is room. *)
Inductive outcome := Returns (v : V) | Raises (e : E).
(** concurrency_interface.py 94-107. *)
Definition child_step (q : kind) (o : outcome) (k : N) (s : call) : call :=
  match ch s with
  | Working =>
    match o with
    | Raises _ => {| ch := Gone; in_pipe := in_pipe s; item := item s; cl := cl s |}
    | Returns v =>
      match q with
      | Thread => {| ch := Flushing 0 None; in_pipe := in_pipe s; item := Some v; cl := cl s |}
      | Process _ =>
        match size v with
        | None => {| ch := Flushing 0 None; in_pipe := in_pipe s; item := item s; cl := cl s |}
        | Some n => {| ch := Flushing n (Some v); in_pipe := in_pipe s; item := item s; cl := cl s |}
        end
      end
    end
  | Flushing rest v =>
    if rest =? 0 then {| ch := Gone; in_pipe := in_pipe s; item := match v with Some v => Some v | None => item s end; cl := cl s |}
    else
      let room := match q with Thread => 0 | Process capacity => capacity - in_pipe s end in
      let n := N.min (N.max 1 k) (N.min rest room) in
      {| ch := Flushing (rest - n) v; in_pipe := in_pipe s + n; item := item s; cl := cl s |}
  | Gone => s
  end.
(** concurrency_interface.py 140-169 [new], 109-138 [anew]: the loop [while task.is_alive()], [join] and
    [get_nowait]. *)
Definition caller_step (s : call) : call :=
  match cl s, ch s with
  | Probing, Gone =>
    {| ch := ch s; in_pipe := in_pipe s; item := item s; cl := Returned (match item s with Some v => Value v | None => Empty end) |}
  | _, _ => s
  end.
(** No counterpart: the scheduler chooses. *)
Inductive move := Child (k : N) | Caller.
(** No counterpart: one step of the child or the caller. *)
Definition call_step (q : kind) (o : outcome) (m : move) (s : call) : call :=
  match m with Child k => child_step q o k s | Caller => caller_step s end.
(** concurrency_interface.py 140-169 under a schedule. *)
Definition new (q : kind) (o : outcome) (l : list move) : call := fold_left (fun s m => call_step q o m s) l called.
End Call.
Arguments Value {V E}. Arguments Raised {V E}. Arguments Empty {V E}.
Arguments Returns {V E}. Arguments Raises {V E}. Arguments Probing {V E}. Arguments Returned {V E}.
Arguments Working {V}. Arguments Flushing {V}. Arguments Gone {V}.
Arguments ch {V E}. Arguments in_pipe {V E}. Arguments item {V E}. Arguments cl {V E}.

(** ** [gather]: several functions in the pool *)
Section Pool.
Variables V E : Type.
(** The number of functions handed to the workers at a time: for a ThreadPoolExecutor
    the number of threads; for a ProcessPoolExecutor one more than that of processes. *)
Variable workers : nat.

(** [concurrent.futures.Future]. No counterpart: part of the standard library. *)
Inductive future := Pending | Running | Cancelled | Finished.
(** concurrency_interface.py 286-303 [gather], 264-284 [agather]: the functions to
    submit and the futures so far; the results so far and the futures to wait for; the
    futures to cancel and how the call will end; ended. *)
Inductive ending := Results (l : list V) | Fails (e : E) | Interrupted.
(** concurrency_interface.py 286-303. *)
Inductive gathering :=
| Submitting (todo : list (outcome V E)) (tasks : list nat)
| Waiting (results : list V) (rest tasks : list nat)
| Cancelling (rest tasks : list nat) (r : ending)
| Ended (r : ending) (tasks : list nat).
(** The pool. Submissions are numbered: the function and future of each, the queue of work, the
    number of submissions, and the submissions handed to workers so far, last first.
    concurrency_interface.py 59: the shared pool. *)
Record pool := { work : nat -> outcome V E; futures : nat -> future; queue : list nat; count : nat; handed : list nat; gather_ : gathering }.

(** No counterpart: a value changes. *)
Definition set_at {A} (i : nat) (x : A) (f : nat -> A) : nat -> A := fun j => if Nat.eqb j i then x else f j.
(** No counterpart: [Future.running]. *)
Definition is_running (x : future) : bool := match x with Running => true | _ => false end.
(** No counterpart: the number of busy workers. *)
Definition running (p : pool) : nat := length (filter (fun i => is_running (futures p i)) (seq 0 (count p))).
(** concurrency_interface.py 220-240 [asubmit], 242-262 [submit]: [pool.submit]. *)
Definition submit (o : outcome V E) (g : gathering) (p : pool) : pool :=
  {| work := set_at (count p) o (work p); futures := set_at (count p) Pending (futures p);
     queue := queue p ++ [count p]; count := S (count p); handed := handed p; gather_ := g |}.
(** [Future.cancel]. As used in concurrency_interface.py 286-303. *)
Definition cancel (i : nat) (p : pool) : nat -> future :=
  match futures p i with Pending => set_at i Cancelled (futures p) | _ => futures p end.
(** No counterpart: a future changes. *)
Definition with_future (f : nat -> future) (p : pool) : pool :=
  {| work := work p; futures := f; queue := queue p; count := count p; handed := handed p; gather_ := gather_ p |}.
(** No counterpart: the call proceeds. *)
Definition with_gather (g : gathering) (p : pool) : pool :=
  {| work := work p; futures := futures p; queue := queue p; count := count p; handed := handed p; gather_ := g |}.

(** concurrency_interface.py 171-218: [result] probes until the future is done, and gives or raises what the
    function did. *)
Definition gather_step (p : pool) : pool :=
  match gather_ p with
  | Submitting (f :: fs) tasks => submit f (Submitting fs (tasks ++ [count p])) p
  | Submitting [] tasks => with_gather (Waiting [] tasks tasks) p
  | Waiting l [] tasks => with_gather (Cancelling tasks tasks (Results l)) p
  | Waiting l (i :: rest) tasks =>
    match futures p i with
    | Pending | Running => p
    | Cancelled => with_gather (Cancelling tasks tasks Interrupted) p
    | Finished =>
      match work p i with
      | Returns v => with_gather (Waiting (l ++ [v]) rest tasks) p
      | Raises e => with_gather (Cancelling tasks tasks (Fails e)) p
      end
    end
  | Cancelling (i :: rest) tasks r => with_gather (Cancelling rest tasks r) (with_future (cancel i p) p)
  | Cancelling [] tasks r => with_gather (Ended r tasks) p
  | Ended _ _ => p
  end.
(** The futures of the call. No counterpart: for the specification. *)
Definition mine (p : pool) : list nat :=
  match gather_ p with Submitting _ t => t | Waiting _ _ t => t | Cancelling _ t _ => t | Ended _ t => t end.

(** A worker takes the next piece of work ([_WorkItem.run] with [set_running_or_notify_cancel];
    [_ExecutorManagerThread.add_call_item_to_queue]), a function ends, the call of [gather]
    proceeds, others submit work or cancel theirs. No counterpart: the scheduler chooses. *)
Inductive event := Take | End (i : nat) | Gather | OthersSubmit (o : outcome V E) | OthersCancel (i : nat).
(** No counterpart: one event. *)
Definition pool_step (e : event) (p : pool) : pool :=
  match e with
  | Take =>
    match queue p with
    | [] => p
    | i :: q =>
      match futures p i with
      | Pending =>
        if Nat.ltb (running p) workers
        then {| work := work p; futures := set_at i Running (futures p); queue := q; count := count p; handed := i :: handed p; gather_ := gather_ p |}
        else p
      | _ => {| work := work p; futures := futures p; queue := q; count := count p; handed := handed p; gather_ := gather_ p |}
      end
    end
  | End i => match futures p i with Running => with_future (set_at i Finished (futures p)) p | _ => p end
  | Gather => gather_step p
  | OthersSubmit o => submit o (gather_ p) p
  | OthersCancel i => if existsb (Nat.eqb i) (mine p) then p else with_future (cancel i p) p
  end.
(** A call of [gather] with the functions [fs], in a pool that others use as well. No
    counterpart: the state in which the call begins. *)
Definition idle (fs : list (outcome V E)) (none : outcome V E) : pool :=
  {| work := fun _ => none; futures := fun _ => Cancelled; queue := []; count := 0; handed := []; gather_ := Submitting fs [] |}.
(** No counterpart: events one after another. *)
Definition run_pool (p : pool) (l : list event) : pool := fold_left (fun p e => pool_step e p) l p.
End Pool.
Arguments Results {V E}. Arguments Fails {V E}. Arguments Interrupted {V E}.
Arguments Submitting {V E}. Arguments Waiting {V E}. Arguments Cancelling {V E}. Arguments Ended {V E}.
Arguments work {V E}. Arguments futures {V E}. Arguments queue {V E}. Arguments count {V E}. Arguments handed {V E}. Arguments gather_ {V E}.
Arguments running {V E}. Arguments submit {V E}. Arguments cancel {V E}. Arguments with_future {V E}. Arguments with_gather {V E}.
Arguments gather_step {V E}. Arguments mine {V E}. Arguments pool_step {V E}. Arguments idle {V E}. Arguments run_pool {V E}.
Arguments Take {V E}. Arguments End {V E}. Arguments Gather {V E}. Arguments OthersSubmit {V E}. Arguments OthersCancel {V E}.
