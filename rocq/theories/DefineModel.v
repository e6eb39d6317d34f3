(** * Defining classes with typed slots: aiootp/commons/slots.py and typed_slots.py, [__init_subclass__]

    A class is defined from its body and from the classes that follow it in its method resolution order, which Python
    finds; any order is allowed here. Classes that define no [__slots__], and names that the containers of the types
    use for themselves ([_slots_set] and the like), are left out. A type is a number, [checkable] says whether
    [isinstance] works with it. *)
From Verif Require Import Base StrModel ContainersModel.
Local Open Scope N_scope.

(** No counterpart: the body of a class statement: its [__slots__], [slots_types] and [_RESTRICTED_ATTRIBUTES]. *)
Record body := { b_slots : list str; b_types : option (list (str * N)); b_restricted : list str }.
(** slots.py 93-117, typed_slots.py 149-155: what a class has in the end. [d_types] is [slots_types]; classes that
    do not come from TypedSlots have none. *)
Record defined := { d_slots : list str; d_types : option (list (str * N)); d_restricted : list str }.

(** slots.py 39-91. *)
Definition slots_root : defined := {| d_slots := []; d_types := None; d_restricted := base_restricted |}.
(** typed_slots.py 36-75: TypedSlots. *)
Definition typed_root : defined := {| d_slots := []; d_types := Some []; d_restricted := typed_restricted |}.

(** No counterpart: a list without repetitions, in the order of first occurrence: the keys of a dict. *)
Fixpoint unique (seen l : list str) : list str :=
  match l with
  | [] => []
  | x :: l => if mem x seen then unique seen l else x :: unique (x :: seen) l
  end.
(** slots.py 93-117: the names of all classes in the order of resolution. *)
Definition all_slots (b : body) (mro : list defined) : list str := unique [] (b_slots b ++ concat (map d_slots mro)).
(** slots.py 93-117. *)
Definition all_restricted (b : body) (mro : list defined) : list str := b_restricted b ++ concat (map d_restricted mro).
(** typed_slots.py 100: [base.slots_types] for the class itself: its own, or the attribute of the first that has one. *)
Fixpoint inherited (mro : list defined) : list (str * N) :=
  match mro with
  | [] => []
  | d :: mro => match d_types d with Some t => t | None => inherited mro end
  end.
(** typed_slots.py 100-110: the declarations of one class are copied. [set] is the dict so far. *)
Fixpoint copy_types (checkable : N -> bool) (slots : list str) (l set : list (str * N)) : result (list (str * N)) :=
  match l with
  | [] => Ok set
  | (s, t) :: l =>
    if negb (checkable t) then Err TypeErr
    else if str_eqb s DICT then Err TypeErr
    else if negb (mem s slots) then Err AttributeErr
    else copy_types checkable slots l (dict_set str_eqb set s t)
  end.
(** typed_slots.py 76-110, 135-138: from the last class of the order of resolution to the first. *)
Fixpoint copy_all (checkable : N -> bool) (slots : list str) (mro : list (list (str * N))) : result (list (str * N)) :=
  match mro with
  | [] => Ok []
  | l :: mro => set <- copy_all checkable slots mro ;; copy_types checkable slots l set
  end.
(** No counterpart: the declarations of the classes in the order of resolution; 98-99: those of other classes are not read. *)
Definition declared (b : body) (mro : list defined) : list (list (str * N)) :=
  match b_types b with Some t => t | None => inherited mro end ::
  map (fun d => match d_types d with Some t => t | None => [] end) mro.
(** typed_slots.py 126-147 [_make_frozen_class_slots_types]: nothing may be left over on either side. *)
Definition make_types (checkable : N -> bool) (b : body) (mro : list defined) : result (list (str * N)) :=
  let slots := all_slots b mro in
  set <- copy_all checkable slots (declared b mro) ;;
  if forallb (fun s => str_eqb s DICT || mem s (map fst set)) slots && forallb (fun s => mem s slots) (map fst set)
  then Ok set else Err AttributeErr.
(** slots.py 93-117 and typed_slots.py 149-155 [__init_subclass__]; [Issue.slots_conflicts_with_class_variables] is a
    ValueError. *)
Definition define (checkable : N -> bool) (b : body) (mro : list defined) : result defined :=
  let slots := all_slots b mro in
  if existsb (fun s => mem s (all_restricted b mro)) slots then Err ValueErr
  else if existsb (fun d => match d_types d with Some _ => true | None => false end) mro then
    types <- make_types checkable b mro ;;
    Ok {| d_slots := slots; d_types := Some types; d_restricted := all_restricted b mro |}
  else Ok {| d_slots := slots; d_types := None; d_restricted := all_restricted b mro |}.

(** No counterpart: class statements one after another; each names the classes of its order of resolution by their
    numbers. A statement that raises defines nothing. *)
Fixpoint define_all (checkable : N -> bool) (env : list defined) (l : list (body * list nat)) : list defined :=
  match l with
  | [] => env
  | (b, m) :: l =>
    let mro := flat_map (fun i => match nth_error env i with Some d => [d] | None => [] end) m in
    define_all checkable (match define checkable b mro with Ok d => env ++ [d] | Err _ => env end) l
  end.

(** No counterpart: the class as ContainersModel.v has it. [isinstance v t] says whether [v] is of type [t]. *)
Definition klass_of (V : Type) (isinstance : V -> N -> bool) (frozen : bool) (reserved : list str) (d : defined) : klass V :=
  {| c_slots := d_slots d; c_frozen := frozen; c_typed := match d_types d with Some _ => true | None => false end;
     c_types := map (fun p => (fst p, fun v => isinstance v (snd p))) (match d_types d with Some t => t | None => [] end);
     c_restricted := d_restricted d; c_reserved := reserved |}.
