(** * Vocabulary for statements about file names. *)
From Verif Require Import Base.
Local Open Scope N_scope.

(** Lower case letters, digits, minus and underscore: no separator, no dot, no
    null, and nothing that a file system which ignores case could confuse. *)
Definition safe_char (c : byte) : Prop :=
  97 <= bval c <= 122 \/ 48 <= bval c <= 57 \/ c = x2d \/ c = x5f.

(** The bytewise XOR of blocks of one size. *)
Fixpoint xor_blocks (size : N) (blocks : list bytes) : bytes :=
  match blocks with
  | [] => repeat x00 (N.to_nat size)
  | b :: bs => xor_bytes b (xor_blocks size bs)
  end.

(** A message made of whole blocks. *)
Definition whole_blocks (size : N) (x : bytes) : Prop := blen x mod size = 0.
