(** * Python's [str] values, as lists of code points. *)
From Verif Require Import Base.
From Coq Require Import Strings.String Strings.Ascii.
Local Open Scope N_scope.

(** No counterpart: part of Python. *)
Definition str := list N.
(** A string literal of the source. No counterpart: part of Python. *)
Definition lit (s : string) : str := map N_of_ascii (list_ascii_of_string s).

(** [==] and [<] of strings: code point by code point. No counterpart: part of Python. *)
Fixpoint str_eqb (a b : str) : bool :=
  match a, b with
  | [], [] => true
  | x :: a, y :: b => (x =? y) && str_eqb a b
  | _, _ => false
  end.
(** No counterpart: [<] of strings. *)
Fixpoint str_ltb (a b : str) : bool :=
  match a, b with
  | [], _ :: _ => true
  | x :: a, y :: b => (x <? y) || ((x =? y) && str_ltb a b)
  | _, [] => false
  end.

(** A dict, in insertion order: reading, assigning and deleting a key. *)
Section Dict.
Context {K V : Type}.
Variable eqb : K -> K -> bool.
(** No counterpart: reading a key of a dict. *)
Fixpoint dict_get (d : list (K * V)) (k : K) : option V :=
  match d with
  | [] => None
  | (k', v) :: d => if eqb k' k then Some v else dict_get d k
  end.
(** No counterpart: assigning to a key of a dict. *)
Fixpoint dict_set (d : list (K * V)) (k : K) (v : V) : list (K * V) :=
  match d with
  | [] => [(k, v)]
  | (k', v') :: d => if eqb k' k then (k', v) :: d else (k', v') :: dict_set d k v
  end.
(** No counterpart: deleting a key of a dict. *)
Fixpoint dict_del (d : list (K * V)) (k : K) : list (K * V) :=
  match d with
  | [] => []
  | (k', v') :: d => if eqb k' k then d else (k', v') :: dict_del d k
  end.
(** [dict.update] with the items of another mapping. No counterpart: part of Python. *)
Definition dict_update (d : list (K * V)) (items : list (K * V)) : list (K * V) :=
  fold_left (fun d kv => dict_set d (fst kv) (snd kv)) items d.
(** [dict(items)]. No counterpart: part of Python. *)
Definition dict_of (items : list (K * V)) : list (K * V) := dict_update [] items.
End Dict.
