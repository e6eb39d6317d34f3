(** * Specification vocabulary for base conversion and text encodings. *)
From Verif Require Import Base TransformModel.
Local Open Scope N_scope.

(** A table of distinct symbols, at least two of which are used. *)
Definition valid_base (base : option N) (table : bytes) : Prop :=
  NoDup table /\ 2 <= base_or base table <= blen table.

(** The byte string without its leading zero bytes. *)
Fixpoint strip_zeros (l : bytes) : bytes :=
  match l with
  | [] => []
  | b :: l' => if byte_eqb b x00 then strip_zeros l' else l
  end.

(** Letters, digits, minus and underscore. *)
Definition b64_alphabet_b (c : byte) : bool :=
  let n := bval c in
  ((65 <=? n) && (n <=? 90)) || ((97 <=? n) && (n <=? 122)) || ((48 <=? n) && (n <=? 57))
  || (n =? 45) || (n =? 95).
