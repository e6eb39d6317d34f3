(** * One authenticator shared by asyncio tasks: vocabulary of the specification *)
From Verif Require Import Base CanonModel CipherModel AuthModel AuthSpec AwaitModel.

(** Nothing done yet. *)
Definition fresh (b : bundle) : shared :=
  {| s_world := unused b; s_claimed := fun _ => false; s_running := fun _ => false; s_tasks := fun _ => None |}.

(** The calls that ended, with their replies, in the order in which they ended; and the state. *)
Definition ended (H : hasher) (c : cfg) (b : bundle) (l : list action) : list (call * reply) :=
  fst (run H c l (fresh b)).
Definition state_after (H : hasher) (c : cfg) (b : bundle) (l : list action) : shared :=
  snd (run H c l (fresh b)).

(** A call that was turned away since another one is under way: it does nothing. *)
Definition turned_away (x : call * reply) : bool :=
  match x with
  | (Finalize _, Raised PermissionErr) => true
  | (Feed _ _, Raised RuntimeErr) => true
  | _ => false
  end.

(** Calls made one at a time, nothing overlapping; between them generators may be closed. *)
Inductive turn := Call (k : call) | Close (g : nat).
Fixpoint one_at_a_time (H : hasher) (c : cfg) (w : world) (l : list turn) : list (call * reply) * world :=
  match l with
  | [] => ([], w)
  | Call k :: l =>
    let '(r, w') := step H c w k in
    let '(rs, w'') := one_at_a_time H c w' l in
    ((k, r) :: rs, w'')
  | Close g :: l => one_at_a_time H c (close g w) l
  end.

(** How many generators are closed in between; how many cancellations there are. *)
Definition closes (l : list turn) : nat := length (filter (fun x => match x with Close _ => true | Call _ => false end) l).
Definition cancellations (l : list action) : nat := length (filter (fun a => match a with Cancel _ => true | _ => false end) l).

(** A task waits inside its call of afinalize on an object. *)
Definition finalizing (H : hasher) (c : cfg) (b : bundle) (l : list action) (t i : nat) : Prop :=
  s_tasks (state_after H c b l) t = Some (Finalizing i).

(** The replies that show a tag. *)
Definition shows (i : nat) (t : bytes) (x : call * reply) : Prop :=
  x = (Finalize i, Got t) \/ x = (Result i, Got t) \/ x = (TestShmac i t, Done).
