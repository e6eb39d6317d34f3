(** * One authenticator of Chunky2048 shared by asyncio tasks: vocabulary of the specification *)
From Verif Require Import Base CanonModel CipherModel AuthModel AuthSpec AwaitModel AwaitSpec DualModel.

(** Nothing done yet. *)
Definition j_fresh (b : bundle) : joint :=
  {| j_world := unused b; j_claimed := fun _ => false; j_running := fun _ => false; j_tasks := fun _ => None |}.
(** The calls that ended, with their replies, in the order in which they ended; and the state. *)
Definition j_ended (H : hasher) (c : cfg) (b : bundle) (l : list action) : list (call * reply) := fst (j_run H c l (j_fresh b)).
Definition j_after (H : hasher) (c : cfg) (b : bundle) (l : list action) : joint := snd (j_run H c l (j_fresh b)).

(** The first block of a generator is half hashed: its header and the key of the header are hashed,
    and the task waits before it hashes the rest. *)
Definition half_hashed (s : joint) (t g : nat) : Prop :=
  (exists block out hashed, j_tasks s t = Some (Hashing g block out hashed)) /\
  (exists x, nth_error (w_gens (j_world s)) g = Some x /\ g_first x = true).

(** A block under way will be refused, being too large. *)
Definition doomed (H : hasher) (c : cfg) (s : joint) (t : nat) : Prop :=
  exists g block key e, j_tasks s t = Some (Waiting g block key) /\
    fst (step H c (j_world s) (Feed g block)) = Raised e /\ e <> AttributeErr.

(** The action makes a tag. *)
Definition makes_tag (s : joint) (a : action) : Prop :=
  match a with
  | Make _ (Finalize _) asynchronous => asynchronous = false
  | Resume u => exists i, j_tasks s u = Some (Finalizes i)
  | _ => False
  end.

(** What must not be done: while the first block is half hashed, make a tag, make another
    authenticator of the same bundle, or cancel the task; while a block under way is one that will be
    refused, make a tag. *)
Definition disturbs (H : hasher) (c : cfg) (s : joint) (a : action) : Prop :=
  (exists t g, half_hashed s t g /\ (makes_tag s a \/ (exists u asynchronous, a = Make u NewShmac asynchronous) \/ a = Cancel t)) \/
  (exists t, doomed H c s t /\ makes_tag s a).
Definition undisturbed (H : hasher) (c : cfg) (b : bundle) (l : list action) : Prop :=
  forall l1 a l2, l = l1 ++ a :: l2 -> ~ disturbs H c (j_after H c b l1) a.

(** The objects are the same, except for the keystream. *)
Definition same_objects (w w' : world) : Prop :=
  w_shmacs w = w_shmacs w' /\ w_gens w = w_gens w' /\
  set_hashes (w_bundle w) (b_mac (w_bundle w)) [] [] = set_hashes (w_bundle w') (b_mac (w_bundle w')) [] [].
