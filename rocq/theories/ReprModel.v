(** * Model of how objects are displayed, and of the debug mode

    aiootp/commons/slots.py 247-269, aiootp/commons/instances.py 51-65,
    aiootp/_debug_control.py. *)
From Coq Require Import Strings.String.
From Verif Require Import Base StrModel.
Local Open Scope N_scope.
Open Scope list_scope.

(** Values: those of other classes, with the text of [value.__class__] and what [repr] of them
    gives; and objects of the classes below, by their place in memory, as an object can be
    reached in many ways, also from itself. No counterpart: part of Python. *)
Inductive value := Plain (cls text : str) | Ref (i : nat).

(** An object with the name of its class and the text of its class.
    [Mapped]: of a subclass of Slots (slots.py 39-411, namespaces.py, typed_slots.py), with the
    default of [mask], which is True (slots.py 247) but False in OpenSlots, OpenFrozenSlots
    (slots.py 347, 392), OpenNamespace, OpenFrozenNamespace (namespaces.py 77, 124),
    OpenTypedSlots and OpenFrozenTypedSlots (typed_slots.py 191, 240); and with its items, which
    are the names as [str] shows them and the values, in the order of [items()] (slots.py 301-306).
    [Instance]: of a subclass of FrozenInstance (instances.py 28-79), with the slots of the classes
    in its [__mro__] and the values of those that are set. *)
Inductive object :=
| Mapped (masks : bool) (name cls : str) (items : list (str * value))
| Instance (name cls : str) (slots : list (str * option value)).
(** Memory. No counterpart: part of Python. *)
Definition memory := list object.
(** [value.__class__]. No counterpart: part of Python. *)
Definition class_of (h : memory) (v : value) : str :=
  match v with
  | Plain c _ => c
  | Ref i => match nth_error h i with Some (Mapped _ _ c _) | Some (Instance _ c _) => c | None => [] end
  end.

(** [s.join(l)]. No counterpart: part of Python. *)
Fixpoint join (s : str) (l : list str) : str :=
  match l with [] => [] | [x] => x | x :: l => x ++ s ++ join s l end.

Section Repr.
(** [os.linesep]. *)
Variable sep : str.

(** slots.py 263-267: the pieces of the body. [str(name)[0]] is looked at before the value is
    shown; an empty name has no first character. *)
Fixpoint pieces (show : value -> result str) (items : list (str * value)) : result (list str) :=
  match items with
  | [] => Ok []
  | ([], _) :: _ => Err IndexErr
  | ((c :: _) as name, v) :: items =>
    if c =? 95 then pieces show items
    else
      t <- show v ;;
      l <- pieces show items ;;
      Ok ((name ++ lit "=" ++ t) :: l)
  end.
(** slots.py 261-269: what is around the pieces depends on whether there are items at all. *)
Definition mapped_text (show : value -> result str) (name : str) (items : list (str * value)) : result str :=
  l <- pieces show items ;;
  Ok (name ++ lit "(" ++
      match items with
      | [] => join (lit ", ") l
      | _ => sep ++ lit "    " ++ join (lit "," ++ sep ++ lit "    ") l ++ lit "," ++ sep
      end ++ lit ")").
(** slots.py 252-255: [show] when the values are masked; misc.py 39. *)
Definition omitted (h : memory) (v : value) : result str := Ok (lit "<omitted>" ++ class_of h v).

(** instances.py 55-62: the pieces of the body.  (The names of slots are identifiers.) *)
Fixpoint slot_pieces (h : memory) (slots : list (str * option value)) : list str :=
  match slots with
  | [] => []
  | (name, v) :: slots =>
    if match name with c :: _ => c =? 95 | [] => false end then slot_pieces h slots
    else (name ++ lit "=" ++ match v with Some v => lit "<set>" ++ class_of h v | None => lit "<unset>" end) :: slot_pieces h slots
  end.
(** instances.py 55-65. *)
Definition instance_text (h : memory) (name : str) (slots : list (str * option value)) : str :=
  let body := join (lit "," ++ sep ++ lit "    ") (slot_pieces h slots) in
  name ++ lit "(" ++
  match body with [] => [] | _ => sep ++ lit "    " ++ body ++ lit "," ++ sep end ++ lit ")".

(** [repr(v)] when [DebugControl.is_debugging()] is [debugging]; slots.py 247-269, instances.py
    51-65.  [depth] is how deep calls of [__repr__] may be nested, beyond which Python raises
    RecursionError, a RuntimeError. *)
Fixpoint repr (depth : nat) (debugging : bool) (h : memory) (v : value) : result str :=
  match v with
  | Plain _ t => Ok t
  | Ref i =>
    match depth with
    | O => Err RuntimeErr
    | S depth =>
      match nth_error h i with
      | None => Ok []
      | Some (Instance name _ slots) => Ok (instance_text h name slots)
      | Some (Mapped masks name _ items) =>
        mapped_text (if masks && negb debugging then omitted h else repr depth debugging h) name items
      end
    end
  end.
(** [obj.__repr__(mask=mask)], where obj is the object with these items; slots.py 247-269. *)
Definition repr_with (depth : nat) (debugging mask : bool) (h : memory) (name : str) (items : list (str * value)) : result str :=
  mapped_text (if mask && negb debugging then omitted h else repr depth debugging h) name items.
End Repr.

(** ** The debug mode: _debug_control.py 26-61 *)

(** [_DEBUG_MODE], and which of the functions in [_switches] were called, with what
    [is_debugging()] told them. _debug_control.py 35-41. *)
Record control := { mode : bool; calls : list (nat * bool) }.
(** _debug_control.py 35: when the module is imported. *)
Definition imported : control := {| mode := false; calls := [] |}.

(** The functions in [_switches], called in turn (_debug_control.py 53-54, 60-61): those from the
    [i]-th on.  The one that this package adds (loops.py 55-57) raises RuntimeError in a thread
    that has no event loop. *)
Fixpoint toggle (i : nat) (switches : list (bool -> result unit)) (c : control) : control * result unit :=
  match switches with
  | [] => (c, Ok tt)
  | f :: switches =>
    let c := {| mode := mode c; calls := calls c ++ [(i, mode c)] |} in
    match f (mode c) with
    | Err e => (c, Err e)
    | Ok _ => toggle (S i) switches c
    end
  end.
(** _debug_control.py 43-61: [enable_debugging(silence_warnings=silent)] and
    [disable_debugging()]. *)
Inductive control_op := Enable (silent : bool) | Disable.
(** _debug_control.py 43-61.  [warn] is how [warnings.warn] ends: it raises if warnings were made
    errors. *)
Definition control_step (warn : result unit) (switches : list (bool -> result unit)) (o : control_op) (c : control)
    : control * result unit :=
  match o with
  | Enable silent =>
    match (if silent then Ok tt else warn) with
    | Err e => (c, Err e)
    | Ok _ => if mode c then (c, Ok tt) else toggle 0 switches {| mode := true; calls := calls c |}
    end
  | Disable => if mode c then toggle 0 switches {| mode := false; calls := calls c |} else (c, Ok tt)
  end.
(** No counterpart: calls one after another. *)
Definition control_run (warn : result unit) (switches : list (bool -> result unit)) (os : list control_op) (c : control) : control :=
  fold_left (fun c o => fst (control_step warn switches o c)) os c.
