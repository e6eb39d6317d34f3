(** * What is said about reading, writing and appending files *)
From Coq Require Import ZArith.
From Verif Require Import Base FileModel.

(** [a] is how [b] begins. *)
Definition begins {A} (a b : list A) : Prop := exists c, b = a ++ c.
(** The contents of a path, empty if there is no file. *)
Definition contents (d : disk) (p : nat) : bytes := match d p with Some l => l | None => [] end.
(** What a call to [read] returns if nobody writes: all, or the first [size] bytes. *)
Definition wanted (size : Z) (l : bytes) : bytes :=
  if (size =? -1)%Z then l else firstn (Z.to_nat size) l.
(** What the [i]-th writer has put into [l], of which [owners] says who put each byte. *)
Fixpoint share {A} (i : nat) (owners : list nat) (l : list A) : list A :=
  match owners, l with
  | o :: owners, x :: l => if Nat.eqb o i then x :: share i owners l else share i owners l
  | _, _ => []
  end.
(** The operating system never fails, and writes whatever it is given in one piece. *)
Definition whole (cs : list call) (es : list (nat * answer)) : Prop :=
  forall e, In e es -> exists n, snd e = Transfer n /\ forall p data, In (Append p data) cs -> length data <= S n.
(** The call writes to or appends to the path. *)
Definition changes (c : call) (p : nat) : Prop :=
  match c with Read _ _ => False | Write q _ | Append q _ => q = p end.
(** No call but the [i]-th changes the path. *)
Definition only (i : nat) (cs : list call) (p : nat) : Prop :=
  forall j c, nth_error cs j = Some c -> changes c p -> j = i.
(** Calls change the path only by appending to it. *)
Definition appended (cs : list call) (p : nat) : Prop :=
  forall j c, nth_error cs j = Some c -> changes c p -> exists data, c = Append p data.
(** How often the [i]-th call is served. *)
Definition served (i : nat) (es : list (nat * answer)) : nat :=
  length (filter (fun e => Nat.eqb (fst e) i) es).
(** What the [i]-th call appends to the path. *)
Definition piece_of (cs : list call) (p i : nat) : bytes :=
  match nth_error cs i with Some (Append q data) => if Nat.eqb q p then data else [] | _ => [] end.
