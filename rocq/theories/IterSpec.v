(** * What is said about generators over other iterators *)
From Verif Require Import Base IterModel.

(** [s] is the first of the shortest of the iterators [l], the [j]-th. *)
Definition first_shortest {A} (l : list (source A)) (j : nat) (s : source A) : Prop :=
  nth_error l j = Some s /\
  (forall i t, nth_error l i = Some t -> length (items s) <= length (items t))%nat /\
  (forall i t, (i < j)%nat -> nth_error l i = Some t -> length (items s) < length (items t))%nat.
(** [row] has the [k]-th item of each. *)
Definition row_of {A} (l : list (source A)) (k : nat) (row : list A) : Prop :=
  Forall2 (fun s x => nth_error (items s) k = Some x) l row.
(** How a generator ends over an iterator with or without an exception behind its items. *)
Definition ending (f : option exn) : status := match f with None => Ended | Some e => Failed e end.
(** All items of iterators one after another, up to the first exception, and that exception. *)
Fixpoint in_turn {A} (l : list (source A)) : list A * option exn :=
  match l with
  | [] => ([], None)
  | s :: l => match fault s with
              | Some e => (items s, Some e)
              | None => (items s ++ fst (in_turn l), snd (in_turn l))
              end
  end.
(** What was appended to a queue. *)
Definition appended {A} (es : list (queue_event A)) : list A :=
  flat_map (fun e => match e with Append x => [x] | Next => [] end) es.
