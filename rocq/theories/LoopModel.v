(** * One event loop for all: aiootp/randoms/rng.py 64-65 and 220-283, [random_number_generator]

    The synchronous generator runs the asynchronous one on an event loop that was made when the package was imported
    and that all threads share. [run_until_complete] is asyncio's; it is modelled from CPython's base_events.py, where
    the loop is checked twice and then marked as running. Each of these is one step here, and so is each round of the
    loop. What the asynchronous generator does is in RandomModel.v; here it is a number of rounds. *)
From Verif Require Import Base.

(** No counterpart: a call: how many rounds of the loop it takes, and whether the thread that makes it is itself
    running an event loop, as it is within a coroutine. rng.py 278-282: the coroutine. *)
Record request := { rounds : nat; within_loop : bool }.
(** No counterpart: a task of the shared loop: whose it is, what is left of it, and whether its end stops the loop. *)
Record task := { owner : nat * nat; left_over : nat; stops : bool }.
(** No counterpart: where in asyncio's [run_until_complete] a thread is: not in it; after the first check, with its
    task on the loop; after the check of [run_forever]; in the loop; after it. *)
Inductive place := Outside | Scheduled | Checked | Looping | After.
(** rng.py 64-65 [_run]: the loop, and the threads with the calls that they have yet to make. *)
Record world := {
  running : bool;                (* asyncio: [_thread_id is not None] *)
  stopping : bool;               (* asyncio: [_stopping] *)
  tasks : list task;
  ended : list (nat * nat);
  calls : nat -> list request;
  places : nat -> place;
}.
(** No counterpart: how calls end. The second number counts the calls that the thread has left. *)
Inductive outcome := Returned (i k : nat) | Refused (i k : nat).

(** No counterpart: assignments. *)
Definition put {A : Type} (f : nat -> A) (i : nat) (x : A) : nat -> A := fun j => if Nat.eqb j i then x else f j.
(** No counterpart: the number of the call that thread [i] makes. *)
Definition number (w : world) (i : nat) : nat := length (tl (calls w i)).
(** No counterpart: asyncio's [remove_done_callback]. *)
Definition forget (id : nat * nat) (l : list task) : list task :=
  map (fun t => {| owner := owner t; left_over := left_over t;
                   stops := stops t && negb (Nat.eqb (fst (owner t)) (fst id) && Nat.eqb (snd (owner t)) (snd id)) |}) l.
(** rng.py 283: the call is over. *)
Definition leave (w : world) (i : nat) : world :=
  {| running := running w; stopping := stopping w; tasks := forget (i, number w i) (tasks w); ended := ended w;
     calls := put (calls w) i (tl (calls w i)); places := put (places w) i Outside |}.
(** No counterpart: a thread goes on within [run_until_complete]. *)
Definition go (w : world) (i : nat) (p : place) : world :=
  {| running := running w; stopping := stopping w; tasks := tasks w; ended := ended w; calls := calls w;
     places := put (places w) i p |}.

(** rng.py 278-283: one step of thread [i]. *)
Definition step (i : nat) (w : world) : list outcome * world :=
  match calls w i with
  | [] => ([], w)
  | c :: _ =>
    match places w i with
    | Outside =>
      (* asyncio: _check_running: this loop runs, or the thread runs another one *)
      if running w || within_loop c then ([Refused i (number w i)], leave w i)
      else ([], {| running := running w; stopping := stopping w;
                   tasks := tasks w ++ [{| owner := (i, number w i); left_over := rounds c; stops := true |}];
                   ended := ended w; calls := calls w; places := put (places w) i Scheduled |})
    | Scheduled =>
      (* asyncio: run_forever checks again *)
      if running w then ([Refused i (number w i)], leave w i) else ([], go w i Checked)
    | Checked =>
      ([], {| running := true; stopping := stopping w; tasks := tasks w; ended := ended w; calls := calls w;
              places := put (places w) i Looping |})
    | Looping =>
      (* asyncio: _run_once for all tasks, then the test of _stopping *)
      let over := filter (fun t => Nat.eqb (left_over t) 0) (tasks w) in
      let rest := map (fun t => {| owner := owner t; left_over := Nat.pred (left_over t); stops := stops t |})
                    (filter (fun t => negb (Nat.eqb (left_over t) 0)) (tasks w)) in
      let stop := stopping w || existsb stops over in
      ([], {| running := running w && negb stop; stopping := false; tasks := rest; ended := map owner over ++ ended w;
              calls := calls w; places := if stop then put (places w) i After else places w |})
    | After =>
      (* asyncio: "Event loop stopped before Future completed." *)
      if existsb (fun id => Nat.eqb (fst id) i && Nat.eqb (snd id) (number w i)) (ended w)
      then ([Returned i (number w i)], leave w i) else ([Refused i (number w i)], leave w i)
    end
  end.
(** No counterpart: the steps of the threads as the scheduler orders them. *)
Fixpoint run (l : list nat) (w : world) : list outcome * world :=
  match l with
  | [] => ([], w)
  | i :: l =>
    let '(e, w) := step i w in
    let '(es, w) := run l w in
    (e ++ es, w)
  end.
(** rng.py 64-65: a new event loop. *)
Definition fresh (program : nat -> list request) : world :=
  {| running := false; stopping := false; tasks := []; ended := []; calls := program; places := fun _ => Outside |}.
