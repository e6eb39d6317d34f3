(** * Guards on many targets: aiootp/asynchs/guards/manager.py

    The manager keeps a mapping from targets to a pair of deques and a deque of
    users.  The deque pairs that were ever created are numbered; [pairs] is the
    guards' state over each.  What runs under the manager's lock is one step.
    Of the users only the number matters: the deque is appended to, popped from the
    left and tested for emptiness.  Guards that are queued manually are left out
    (the caller would need the manager's private mapping). *)
From Verif Require Import Base GuardModel.

(** manager.py 257-345: before the guard, in it, after it. *)
Inductive stage :=
| Fresh              (* not entered yet *)
| Bound (g : nat)    (* uses deque pair [g] *)
| Over (g : nat)     (* its references were cleaned up *)
| Lost (g : option nat). (* cancelled without clean-up *)

(** manager.py 413-419, 50-133. *)
Record manager := {
  targets : nat -> option nat;     (* target -> deque pair *)
  users : nat -> nat;              (* deque pair -> number of users *)
  pairs : nat -> state;            (* deque pair -> state of its guards *)
  next : nat;                      (* number of deque pairs created *)
  stages : nat -> stage;
}.

(** No counterpart: what the scheduler or a caller does. *)
Inductive command :=
| Go (i : nat)       (* the next operation of guard [i] *)
| Again (i : nat)    (* a second [with] on the same guard object *)
| Abort (i : nat).   (* CancelledError in a task that sleeps *)

Section Manager.
Variable exclusive : nat -> bool.
Variable of : nat -> nat.            (* the target each guard was made for *)

(** policies.py 46-115, 138-218: guards of a manager queue themselves. *)
Definition automatic (_ : nat) : bool := false.

(** No counterpart: the mapping changes. *)
Definition set_target (m : manager) (t : nat) (x : option nat) : manager :=
  {| targets := fun u => if Nat.eqb u t then x else targets m u;
     users := users m; pairs := pairs m; next := next m; stages := stages m |}.
(** No counterpart: a count changes. *)
Definition set_users (m : manager) (g n : nat) : manager :=
  {| targets := targets m; users := fun h => if Nat.eqb h g then n else users m h;
     pairs := pairs m; next := next m; stages := stages m |}.
(** No counterpart: a pair of deques changes. *)
Definition set_pair (m : manager) (g : nat) (s : state) : manager :=
  {| targets := targets m; users := users m;
     pairs := fun h => if Nat.eqb h g then s else pairs m h; next := next m; stages := stages m |}.
(** No counterpart: a guard proceeds. *)
Definition set_stage (m : manager) (i : nat) (x : stage) : manager :=
  {| targets := targets m; users := users m; pairs := pairs m; next := next m;
     stages := fun j => if Nat.eqb j i then x else stages m j |}.

(** manager.py 50-70 [TargetState], 87-133 [DefaultDictOfStates]: looking up a
    target makes an entry for it. *)
Definition look_up (m : manager) (t : nat) : nat * manager :=
  match targets m t with
  | Some g => (g, m)
  | None =>
    let g := next m in
    (g, {| targets := fun u => if Nat.eqb u t then Some g else targets m u;
           users := fun h => if Nat.eqb h g then 0 else users m h;
           pairs := fun h => if Nat.eqb h g then start else pairs m h;
           next := S (next m); stages := stages m |})
  end.

(** manager.py 444-470 [_initialize_guard]: one more user. *)
Definition add_user (m : manager) (t : nat) : nat * manager :=
  let '(g, m1) := look_up m t in
  (g, set_users m1 g (S (users m1 g))).

(** manager.py 587-611 [_cleanup_references]: one user less; the target is
    forgotten if there are none and both deques are empty.  IndexError from
    [users.popleft] is reported as [None]. *)
Definition cleanup (m : manager) (t : nat) : option manager :=
  let '(g, m1) := look_up m t in
  match users m1 g with
  | O => None
  | S n =>
    let m2 := set_users m1 g n in
    match n, queue (pairs m2 g), observers (pairs m2 g) with
    | O, [], [] => Some (set_target m2 t None)
    | _, _, _ => Some m2
    end
  end.

(** The context has ended, normally or with an exception. No counterpart: for manager.py
    274-345. *)
Definition ended (p : pc) : bool :=
  match p with Complete | Failed _ => true | _ => false end.

(** manager.py 257-345: [__enter__] takes the deque pair of the target, then the
    guard runs as any other; clean-up comes after its end. *)
Definition go (i : nat) (m : manager) : list event * manager :=
  match stages m i with
  | Fresh =>
    let '(g, m1) := add_user m (of i) in
    ([], set_stage m1 i (Bound g))
  | Bound g =>
    if ended (pcs (pairs m g) i)
    then match cleanup m (of i) with
         | Some m1 => ([], set_stage m1 i (Over g))
         | None => ([Raised i IndexErr], set_stage (snd (look_up m (of i))) i (Over g))
         end
    else
      let '(ev, s) := step_guard exclusive automatic i (pairs m g) in
      (ev, set_pair m g s)
  | Over _ | Lost _ => ([], m)
  end.

(** A second [with]: manager.py 444-470: the user is added, then [_set_deques]
    raises (the slots are set already, typed_slots.py, slots.py 354-378) outside
    the [try] of 270-275, 288-293, so nothing is cleaned up. *)
Definition again (i : nat) (m : manager) : list event * manager :=
  match stages m i with
  | Fresh => ([], m)
  | _ => ([], snd (add_user m (of i)))
  end.

(** The sleeps: manager.py 257-275 before anything else; then those of the guard.
    [except Exception] (273) does not catch CancelledError: no clean-up on the
    way in.  On the way out clean-up is in [finally]. *)
Definition abort (i : nat) (m : manager) : list event * manager :=
  match stages m i with
  | Fresh => ([], set_stage m i (Lost None))
  | Bound g =>
    let '(ev, s) := act exclusive automatic (Cancel i) (pairs m g) in
    match pcs (pairs m g) i with
    | Idle | Waiting => (ev, set_stage (set_pair m g s) i (Lost (Some g)))
    | Inside =>
      match cleanup (set_pair m g s) (of i) with
      | Some m1 => (ev, set_stage m1 i (Over g))
      | None => (ev ++ [Raised i IndexErr], set_stage (set_pair m g s) i (Over g))
      end
    | _ => ([], m)
    end
  | _ => ([], m)
  end.

(** No counterpart: one command. *)
Definition obey (c : command) (m : manager) : list event * manager :=
  match c with
  | Go i => go i m
  | Again i => again i m
  | Abort i => abort i m
  end.

(** No counterpart: commands one after another. *)
Fixpoint manage (l : list command) (m : manager) : list event * manager :=
  match l with
  | [] => ([], m)
  | c :: l =>
    let '(e1, m1) := obey c m in
    let '(e2, m2) := manage l m1 in
    (e1 ++ e2, m2)
  end.

End Manager.

(** manager.py 413-419: no targets. *)
Definition nobody : manager :=
  {| targets := fun _ => None; users := fun _ => 0; pairs := fun _ => start; next := 0;
     stages := fun _ => Fresh |}.
