(** * Starting and cancelling the entropy daemon: vocabulary of the specification *)
From Verif Require Import Base DaemonModel.
Open Scope list_scope.

(** How often the i-th thread gets to run in a history; how many threads are started in it. *)
Definition turns (i : nat) (es : list event) : nat := length (filter (fun e => match e with Step j => Nat.eqb i j | _ => false end) es).
Definition starts (es : list event) : nat := length (filter (fun e => match e with Start => true | _ => false end) es).
