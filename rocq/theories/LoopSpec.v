(** * One event loop for all: vocabulary of the specification *)
From Verif Require Import Base LoopModel.

(** The call with which thread [i] has [k] more to make. *)
Definition call_at (program : nat -> list request) (i k : nat) : option request := nth_error (rev (program i)) k.
(** Calls one after another: no thread takes a step while another is in a call. *)
Definition one_at_a_time (program : nat -> list request) (l : list nat) : Prop :=
  forall before j after, l = before ++ j :: after ->
    forall i, i <> j -> places (snd (run before (fresh program))) i = Outside.
