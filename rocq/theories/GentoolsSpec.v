(** * Vocabulary for statements about chunking. *)
From Verif Require Import Base.
Local Open Scope N_scope.

(** [chunked n l x]: [x] is [l] cut into pieces of exactly [n] elements, except
    that the last piece may be shorter; no piece is empty. *)
Inductive chunked {A} (n : N) : list A -> list (list A) -> Prop :=
| chunked_nil : chunked n [] []
| chunked_last l : 0 < blen l <= n -> chunked n l [l]
| chunked_cons b l cs : blen b = n -> l <> [] -> chunked n l cs -> chunked n (b ++ l) (b :: cs).
