(** * Vocabulary for tasks that share one AsyncCipherStream *)
From Coq Require Import ZArith.
From Verif Require Import Base CipherModel StreamModel FeedModel.

(** No task is cancelled. *)
Definition uncancelled (es : list event) : Prop := Forall (fun e => match e with Cancel _ => False | _ => True end) es.
(** Nobody has begun to finalize. *)
Definition unclosed (es : list event) : Prop := Forall (fun e => match e with Close _ => False | _ => True end) es.

(** The feeders in the order in which they made their calls: in which they first ran. *)
Fixpoint in_order (seen : list nat) (es : list event) : list nat :=
  match es with
  | [] => []
  | Feeder i :: es => if existsb (Nat.eqb i) seen then in_order seen es else i :: in_order (i :: seen) es
  | _ :: es => in_order seen es
  end.
(** The calls that have returned. *)
Definition returned (y : system) (i : nat) : bool :=
  match nth_error (feeders y) i with Some (Ended Done) => true | _ => false end.
(** What they fed, in the order of the calls. *)
Definition message (datas : list bytes) (es : list event) (y : system) : bytes :=
  concat (map (fun i => nth i datas []) (filter (returned y) (in_order [] es))).

(** The only consumer has run [afinalize] to its end. *)
Definition finalized (y : system) : Prop := consumers y = [Finished].
(** All calls of [abuffer] are over. *)
Definition all_ended (y : system) : Prop := forall f, In f (feeders y) -> exists o, f = Ended o.
(** Where a task stands with the guard: it has not asked for it or has left it, it waits, or it
    is inside. *)
Inductive stand := Away | Waits | Inside.
Definition stands (y : system) (w : who) : stand :=
  match w with
  | Feeds i => match nth_error (feeders y) i with
               | Some (Waiting _) => Waits
               | Some (Filling _) | Some (Looping _) => Inside
               | _ => Away
               end
  | Closes j => match nth_error (consumers y) j with
                | Some Joining => Waits
                | Some (Padding _) | Some (Appending _) | Some Flushing | Some (Pulling true) | Some (Naming true _) => Inside
                | _ => Away
                end
  end.
