(** * Messages of exceptions: vocabulary of the specification *)
From Verif Require Import Base StrModel IssueModel.

(** The text [x] has [k] in it. *)
Definition contains (k x : str) : Prop := exists p q, x = p ++ k ++ q.
