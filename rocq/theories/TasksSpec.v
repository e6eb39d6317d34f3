(** * What is said about tasks that use one database *)
From Verif Require Import Base TasksModel.

Section Spec.
Context {V : Type}.
Variable seal : V -> bytes.
Variable unseal : bytes -> option V.

(** A task that nobody interrupts.  No operation takes more than eight steps. *)
Fixpoint steps (n : nat) (t : task V) (s : slot V) : task V * slot V :=
  match n with O => (t, s) | S n => let '(t', s') := step seal unseal t s in steps n t' s' end.
Definition alone (o : op V) (s : slot V) : task V * slot V := steps 8 (Start o) s.

(** Operations on one tag, one after the other in the order of their numbers. *)
Fixpoint in_turn (os : list (op V)) (order : list nat) (s : slot V) : list (nat * task V) * slot V :=
  match order with
  | [] => ([], s)
  | i :: order =>
    match nth_error os i with
    | None => in_turn os order s
    | Some o => let '(t, s') := alone o s in let '(r, s'') := in_turn os order s' in ((i, t) :: r, s'')
    end
  end.
(** The orders of some numbers. *)
Fixpoint everywhere (x : nat) (l : list nat) : list (list nat) :=
  match l with [] => [[x]] | y :: r => (x :: l) :: map (cons y) (everywhere x r) end.
Fixpoint orders (l : list nat) : list (list nat) :=
  match l with [] => [[]] | x :: r => flat_map (everywhere x) (orders r) end.

(** What can be seen of a tag. *)
Definition seen (s : slot V) : option V * bool * option bytes := (cached s, listed s, option_map snd (file s)).
(** The operations ended with these replies, and the tag looks like this in the end. *)
Definition ended (os : list (op V)) (l : list nat) (s : slot V) (rs : list (reply V)) (e : option V * bool * option bytes) : Prop :=
  let y := run seal unseal l (started (map (pair 0%nat) os) (fun _ => s)) in
  map snd (tasks y) = map Done rs /\ seen (slots y 0%nat) = e.
(** No order of the operations has these replies and this end. *)
Definition in_no_order (os : list (op V)) (s : slot V) (rs : list (reply V)) (e : option V * bool * option bytes) : Prop :=
  forall order, In order (orders (seq 0 (length os))) ->
    ~ ((forall i t, In (i, t) (fst (in_turn os order s)) -> nth_error (map Done rs) i = Some t) /\ seen (snd (in_turn os order s)) = e).
(** The same for the orders in which an operation that ended before another one began comes
    before it. *)
Definition ended_before (l : list nat) (i j : nat) : Prop :=
  In i l /\ In j l /\ forall a b, nth_error l a = Some i -> nth_error l b = Some j -> (a < b)%nat.
Definition in_no_order_of (l : list nat) (os : list (op V)) (s : slot V) (rs : list (reply V)) (e : option V * bool * option bytes) : Prop :=
  forall order, In order (orders (seq 0 (length os))) ->
    (forall i j, ended_before l i j -> ended_before order i j) ->
    ~ ((forall i t, In (i, t) (fst (in_turn os order s)) -> nth_error (map Done rs) i = Some t) /\ seen (snd (in_turn os order s)) = e).

(** The values that are set in a run, in the order of the first steps of the tasks that
    set them. *)
Fixpoint values_set (os : list (op V)) (l : list nat) (begun : list nat) : list V :=
  match l with
  | [] => []
  | i :: l =>
    if existsb (Nat.eqb i) begun then values_set os l begun
    else match nth_error os i with
         | Some (Set_ v _) => v :: values_set os l (i :: begun)
         | _ => values_set os l (i :: begun)
         end
  end.
(** Operations that neither take values out of the cache nor put read ones into it. *)
Definition steady (o : op V) : Prop :=
  match o with Set_ _ keep => keep = true | Query _ keep => keep = false | Save drop => drop = false | _ => False end.
End Spec.
