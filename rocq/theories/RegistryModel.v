(** * Model of the registry of types and of the choice of public constants

    aiootp/_typing/interface.py and _constants/__init__.py.  The text predicates of Python that depend on Unicode's tables
    are arguments. *)
From Coq Require Import Strings.String.
From Verif Require Import Base StrModel.
Open Scope list_scope.

(** No counterpart: an object that is offered as a type: its [__qualname__], and whether it has the attributes [mro],
    [__mro__], [__bases__] and [__prepare__]. *)
Record thing := { t_id : N; qualname : option str; has_mro : bool; has_mro_tuple : bool; has_bases : bool; has_prepare : bool }.
(** No counterpart: a class's own dictionary; and the registry class with subclasses of it, the last one first, each derived
    from the next ([Typing] is the last of the list). *)
Definition own := list (str * N).
(** No counterpart: see [own]. *)
Definition classes := list own.

Section Registry.
(** No counterpart: [str.isidentifier] and [str.isupper]. *)
Variables isidentifier isupper : str -> bool.

(** interface.py 86-99 [_test_type]. *)
Definition test_type (t : thing) : result unit :=
  if has_mro t && has_mro_tuple t && has_bases t && has_prepare t then Ok tt else Err TypeErr.
(** interface.py 101-116 [_test_type_name]; [name[0]] of no text is an IndexError. *)
Definition test_type_name (cls : own) (name : str) : result unit :=
  let attribute_already_defined := match dict_get str_eqb cls name with Some _ => true | None => false end in
  let is_mixed_case := existsb (fun c => N.eqb c 95) name in
  match name with
  | [] => Err IndexErr
  | c :: _ =>
    let is_capitalized := isupper [c] in
    if negb (isidentifier name) then Err ValueErr
    else if attribute_already_defined then Err AttributeErr
    else if is_mixed_case || negb is_capitalized then Err ValueErr
    else Ok tt
  end.
(** interface.py 118-138 [add_type] of one class.  [__qualname__] is a text if it is there. *)
Definition add_type (cls : own) (t : thing) : result own :=
  match qualname t with
  | None => Err AttributeErr
  | Some name =>
    _ <- test_type t ;;
    _ <- test_type_name cls name ;;
    Ok (dict_set str_eqb cls name (t_id t))
  end.
(** interface.py 118-138: [add_type] called on the i-th class; after an exception nothing has been set. *)
Fixpoint add_to (cs : classes) (i : nat) (t : thing) : classes :=
  match cs, i with
  | [], _ => []
  | c :: cs, O => match add_type c t with Ok c' => c' :: cs | Err _ => c :: cs end
  | c :: cs, S i => c :: add_to cs i t
  end.
(** No counterpart: any sequence of calls. *)
Definition adds (cs : classes) (calls : list (nat * thing)) : classes := fold_left (fun cs it => add_to cs (fst it) (snd it)) calls cs.
(** No counterpart: Python's attribute lookup on the first of the classes. *)
Fixpoint lookup (cs : classes) (name : str) : option N :=
  match cs with
  | [] => None
  | c :: cs => match dict_get str_eqb c name with Some v => Some v | None => lookup cs name end
  end.

(** _constants/__init__.py 79-90 [collect_non_private_constants]; the names are not empty. *)
Definition collect_non_private_constants {V} (mapping : list (str * V)) : list (str * V) :=
  filter (fun nv => isupper (fst nv) && negb (match fst nv with c :: _ => N.eqb c 95 | [] => false end)) mapping.
End Registry.
