(** * What is said about databases with mutable values *)
From Verif Require Import Base AliasModel.

Section Alias.
Context {A K : Type}.

(** The object [a], and all that it refers to, directly or not, looks like the tree; all these
    objects are among those that [P] holds of. *)
Inductive looks (P : nat -> Prop) (h : heap A K) : nat -> tree A K -> Prop :=
| looks_atom a x : P a -> nth_error h a = Some (Atom A K x) -> looks P h a (TAtom A K x)
| looks_many a l ts : P a -> nth_error h a = Some (Many A K l) -> looks_all P h l ts -> looks P h a (TMany A K ts)
with looks_all (P : nat -> Prop) (h : heap A K) : list (K * nat) -> list (K * tree A K) -> Prop :=
| looks_nil : looks_all P h [] []
| looks_cons k a t l ts : looks P h a t -> looks_all P h l ts -> looks_all P h ((k, a) :: l) ((k, t) :: ts).
(** Any objects. *)
Definition any (a : nat) : Prop := True.
(** How deep a tree is. *)
Fixpoint depth (t : tree A K) : nat :=
  match t with
  | TAtom _ _ _ => 1
  | TMany _ _ ts => S (fold_right (fun p => Nat.max (depth (snd p))) 0 ts)
  end.
(** A memory without dangling references, and a cache that refers to objects in it, each tag once. *)
Definition sound (b : base A K) : Prop :=
  (forall a x c, nth_error (memory A K b) a = Some x -> In c (parts A K x) -> c < length (memory A K b)) /\
  (forall n a, get n (cache A K b) = Some a -> a < length (memory A K b)) /\
  NoDup (map fst (cache A K b)).
(** The operation may write or delete the file of the tag. *)
Definition stores (n : nat) (o : op A K) : Prop :=
  match o with
  | Save _ _ m _ | Pop _ _ m _ => m = n
  | Set_ _ _ m _ cache_ => m = n /\ cache_ = false
  | SaveAll _ _ => True
  | _ => False
  end.
(** The operation may put another object in the place of the tag's, or drop it. *)
Definition displaces (n : nat) (o : op A K) : Prop :=
  match o with
  | Set_ _ _ m _ _ | Pop _ _ m _ | Rollback _ _ m _ => m = n
  | Save _ _ m drop_cache => m = n /\ drop_cache = true
  | Clear _ _ => True
  | _ => False
  end.
(** The user changes no object of those that [P] holds of. *)
Definition spares (P : nat -> Prop) (o : op A K) : Prop :=
  match o with Change _ _ a _ => ~ P a | _ => True end.
End Alias.
