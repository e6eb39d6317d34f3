(** * Model of aiootp/commons: instances.py, slots.py, typed_slots.py,
      namespaces.py and configs.py.

    A class is described by the attributes its instances use.  What is reached
    with [object.__setattr__] or by writing into [__dict__] directly, which the
    documentation calls unsupported, is not modelled.  Operations on one object
    are not interleaved. *)
From Verif Require Import Base StrModel.
From Coq Require Import Strings.String.
Local Open Scope N_scope.

(** Names: strings, or any other hashable value (by equality). The keys of slots.py 167-245. *)
Inductive name := Str (s : str) | Obj (n : N).
(** No counterpart: equality of keys. *)
Definition name_eqb (a b : name) : bool :=
  match a, b with
  | Str a, Str b => str_eqb a b
  | Obj a, Obj b => a =? b
  | _, _ => false
  end.
(** No counterpart: [in] for a collection of names. *)
Definition mem (k : str) (l : list str) : bool := existsb (str_eqb k) l.
(** No counterpart: [in] for a collection of names and any key. *)
Definition mem_name (k : name) (l : list str) : bool := match k with Str s => mem s l | Obj _ => false end.

(** slots.py 32. *)
Definition DICT : str := lit "__dict__".
(** slots.py 93-117, 167-173: the class attribute [_slots_set]. *)
Definition SLOTS_SET : str := lit "_slots_set".
(** slots.py 36. *)
Definition RESTRICTED : str := lit "_RESTRICTED_ATTRIBUTES".
(** typed_slots.py 157. *)
Definition VALIDATE : str := lit "_validate_type".

Section Containers.
Variable V : Type.
(** What [k in v] does for a value [v], when an instance attribute hides one of the
    collections of the class, and what happens when a value is called. *)
Variable v_contains : V -> name -> result bool.
Variable v_call : V -> name -> V -> result unit.

(** slots.py 93-117, typed_slots.py 149-155 [__init_subclass__]: [c_slots] are the
    names of [__slots__] of all classes in the MRO, [c_types] are [slots_types],
    [c_restricted] is [_RESTRICTED_ATTRIBUTES].  [c_frozen]: the class inherits
    from FrozenSlots, FrozenNamespace or FrozenTypedSlots.  [c_typed]: it inherits
    from TypedSlots.  [c_reserved]: names that are data descriptors of [object],
    such as [__class__]. *)
Record klass := {
  c_slots : list str;
  c_frozen : bool;
  c_typed : bool;
  c_types : list (str * (V -> bool));
  c_restricted : list str;
  c_reserved : list str;
}.
(** slots.py 84-90, typed_slots.py 72. *)
Definition base_restricted : list str := map lit ["keys"; "values"; "items"; "update"; "clear"]%string.
(** typed_slots.py 72. *)
Definition typed_restricted : list str := base_restricted ++ [lit "slots_types"].

(** An instance: the slots that are set, and the items of [__dict__]. slots.py 39-142. *)
Record inst := { i_slots : list (str * V); i_dict : list (name * V) }.
(** slots.py 119-142: an instance before the first assignment. *)
Definition new_inst : inst := {| i_slots := []; i_dict := [] |}.

Variable c : klass.
(** slots.py 172: whether the class gives its instances a dict. *)
Definition has_dict : bool := mem DICT (c_slots c).
(** No counterpart: reading a slot. *)
Definition slot_get (o : inst) (s : str) : option V := dict_get str_eqb (i_slots o) s.
(** No counterpart: reading the dict. *)
Definition item_get (o : inst) (k : name) : option V := dict_get name_eqb (i_dict o) k.
(** [hasattr(self, s)] for a name in [__slots__]. As used in slots.py 326-333. *)
Definition slot_set (o : inst) (s : str) : bool :=
  str_eqb s DICT || match slot_get o s with Some _ => true | None => false end.

(** slots.py 167-173 [__contains__].  The class attribute [_slots_set] is read
    through the instance. *)
Definition contains (o : inst) (k : name) : result bool :=
  in_slots <- (match item_get o (Str SLOTS_SET) with
               | Some v => v_contains v k
               | None => Ok (mem_name k (c_slots c))
               end) ;;
  let in_dict := match item_get o k with Some _ => true | None => false end in
  (* [hasattr] also looks into the dict *)
  Ok ((in_slots && match k with
                   | Str s => (mem s (c_slots c) && slot_set o s) || in_dict
                   | Obj _ => false end) || in_dict).

(** [object.__setattr__] and [object.__delattr__] on an instance. As used in slots.py 217-227. *)
Definition object_setattr (o : inst) (s : str) (v : V) : inst * result unit :=
  if mem s (c_reserved c) || str_eqb s DICT then (o, Err TypeErr)
  else if mem s (c_slots c) then ({| i_slots := dict_set str_eqb (i_slots o) s v; i_dict := i_dict o |}, Ok tt)
  else if has_dict then ({| i_slots := i_slots o; i_dict := dict_set name_eqb (i_dict o) (Str s) v |}, Ok tt)
  else (o, Err AttributeErr).
(** [object.__delattr__], as used in slots.py 238-245. *)
Definition object_delattr (o : inst) (s : str) : inst * result unit :=
  if mem s (c_reserved c) then (o, Err TypeErr)
  else if str_eqb s DICT then (if has_dict then ({| i_slots := i_slots o; i_dict := [] |}, Ok tt) else (o, Err AttributeErr))
  else if mem s (c_slots c) then
    match slot_get o s with
    | Some _ => ({| i_slots := dict_del str_eqb (i_slots o) s; i_dict := i_dict o |}, Ok tt)
    | None => (o, Err AttributeErr)
    end
  else match item_get o (Str s) with
       | Some _ => ({| i_slots := i_slots o; i_dict := dict_del name_eqb (i_dict o) (Str s) |}, Ok tt)
       | None => (o, Err AttributeErr)
       end.

(** slots.py 217-227 [Slots.__setitem__]. *)
Definition slots_setitem (o : inst) (k : name) (v : V) : inst * result unit :=
  match (match item_get o (Str RESTRICTED) with
         | Some w => v_contains w k
         | None => Ok (mem_name k (c_restricted c)) end) with
  | Err e => (o, Err e)
  | Ok true => (o, Err PermissionErr)
  | Ok false =>
    match k with
    | Str s => object_setattr o s v
    | Obj _ => if has_dict then ({| i_slots := i_slots o; i_dict := dict_set name_eqb (i_dict o) k v |}, Ok tt) else (o, Err AttributeErr)
    end
  end.
(** typed_slots.py 157-167 [_validate_type]. *)
Definition validate_type (k : name) (v : V) : result unit :=
  match k with
  | Str s => match dict_get str_eqb (c_types c) s with
             | Some check => if check v then Ok tt else Err TypeErr
             | None => Ok tt
             end
  | Obj _ => Ok tt
  end.
(** typed_slots.py 169-175 [TypedSlots.__setitem__]; the method is read through the
    instance too. *)
Definition typed_setitem (o : inst) (k : name) (v : V) : inst * result unit :=
  if c_typed c then
    match (match item_get o (Str VALIDATE) with
           | Some w => v_call w k v
           | None => validate_type k v end) with
    | Err e => (o, Err e)
    | Ok _ => slots_setitem o k v
    end
  else slots_setitem o k v.
(** slots.py 365-372, namespaces.py 97-104, typed_slots.py 211-218 [__setitem__]. *)
Definition setitem (o : inst) (k : name) (v : V) : inst * result unit :=
  if c_frozen c then
    match contains o k with
    | Err e => (o, Err e)
    | Ok true => (o, Err PermissionErr)
    | Ok false => typed_setitem o k v
    end
  else typed_setitem o k v.
(** slots.py 238-245, 374-378; namespaces.py 106-110; typed_slots.py 220-224
    [__delitem__]. *)
Definition delitem (o : inst) (k : name) : inst * result unit :=
  if c_frozen c then (o, Err PermissionErr)
  else match k with
       | Str s => object_delattr o s
       | Obj _ =>
         if has_dict then
           match item_get o k with
           | Some _ => ({| i_slots := i_slots o; i_dict := dict_del name_eqb (i_dict o) k |}, Ok tt)
           | None => (o, Err KeyErr)
           end
         else (o, Err AttributeErr)
       end.
(** slots.py 175-215: [__setattr__] and [__delattr__] call the two above.
    slots.py 308-324 [update]: [items] are those of [dict(mapping, **kw)]; what
    was set before an exception stays. *)
Fixpoint update (o : inst) (items : list (name * V)) : inst * result unit :=
  match items with
  | [] => (o, Ok tt)
  | (k, v) :: items =>
    match setitem o k v with
    | (o, Ok _) => update o items
    | (o, Err e) => (o, Err e)
    end
  end.
(** slots.py 326-333 [clear]. *)
Fixpoint clear_slots (o : inst) (l : list str) : inst * result unit :=
  match l with
  | [] => (o, Ok tt)
  | s :: l =>
    if slot_set o s then
      match delitem o (Str s) with
      | (o, Ok _) => clear_slots o l
      | (o, Err e) => (o, Err e)
      end
    else clear_slots o l
  end.
(** slots.py 326-333: both parts. *)
Definition clear (o : inst) : inst * result unit :=
  clear_slots {| i_slots := i_slots o; i_dict := [] |} (c_slots c).

(** slots.py 229-236 [__getitem__], for attributes of the instance; the attributes of
    its class are not modelled. *)
Definition getitem (o : inst) (k : name) : result V :=
  match k with
  | Str s => match (if mem s (c_slots c) then slot_get o s else item_get o k) with Some v => Ok v | None => Err AttributeErr end
  | Obj _ => if has_dict then match item_get o k with Some v => Ok v | None => Err KeyErr end else Err AttributeErr
  end.

(** slots.py 279-306 [__iter__], [keys], [items] and 155-165 [__bool__], [__len__], for instances that hide no
    attribute of the class.  [_UNMAPPED_ATTRIBUTES] is [unmapped]. *)
Variable unmapped : list str.
(** slots.py 279-286. *)
Definition iter (o : inst) : list name :=
  filter (fun k => match contains o k with Ok b => b | Err _ => false end && negb (mem_name k unmapped))
    (map Str (c_slots c) ++ map fst (i_dict o)).
(** slots.py 161-165. *)
Definition inst_len (o : inst) : nat := List.length (iter o).

(** Everything a user can do to an instance. slots.py 175-245, 308-333. *)
Inductive op :=
| SetItem (k : name) (v : V)      (* o[k] = v, o.k = v, setattr(o, k, v) *)
| DelItem (k : name)              (* del o[k], del o.k, delattr(o, k) *)
| Update (items : list (name * V))
| Clear.
(** One of these calls, by the methods above: slots.py 175-245, 308-333. *)
Definition do (o : inst) (p : op) : inst * result unit :=
  match p with
  | SetItem k v => setitem o k v
  | DelItem k => delitem o k
  | Update items => update o items
  | Clear => clear o
  end.
(** No counterpart: calls one after another. *)
Definition run (ops : list op) (o : inst) : inst := fold_left (fun o p => fst (do o p)) ops o.
End Containers.

(** ** FrozenInstance *)
Section Instance.
Variable V : Type.
(** [slots] of the class, whether its instances have a dict, and the attributes of
    the class itself. *)
Variable slots : list str.
Variable with_dict : bool.
Variable class_attribute : str -> bool.
(** instances.py 28-79: the attributes of an instance. *)
Definition attributes := list (str * V).
(** instances.py 67-73 [__setattr__]. *)
Definition frozen_setattr (o : attributes) (s : str) (v : V) : attributes * result unit :=
  if class_attribute s || match dict_get str_eqb o s with Some _ => true | None => false end then (o, Err PermissionErr)
  else if mem s slots || with_dict then (dict_set str_eqb o s v, Ok tt)
  else (o, Err AttributeErr).
(** instances.py 75-79 [__delattr__]. *)
Definition frozen_delattr (o : attributes) (s : str) : attributes * result unit := (o, Err PermissionErr).
(** instances.py 67-79. *)
Inductive iop := SetAttr (s : str) (v : V) | DelAttr (s : str).
(** instances.py 67-79. *)
Definition do_iop (o : attributes) (p : iop) : attributes * result unit :=
  match p with
  | SetAttr s v => frozen_setattr o s v
  | DelAttr s => frozen_delattr o s
  end.
(** No counterpart: calls one after another. *)
Definition run_iops (ps : list iop) (o : attributes) : attributes := fold_left (fun o p => fst (do_iop o p)) ps o.
(** instances.py 38-49 [__init__]. *)
Fixpoint frozen_init (o : attributes) (items : list (str * V)) : result attributes :=
  match items with
  | [] => Ok o
  | (s, v) :: items => match frozen_setattr o s v with
                       | (o, Ok _) => frozen_init o items
                       | (_, Err e) => Err e
                       end
  end.
End Instance.

(** ** Config and ConfigMap *)

(** configs.py 29-99: a [Config] object, as far as a [ConfigMap] is concerned: its
    class and the ID it was given.  Objects are references into a heap. *)
Record config := { cfg_class_ok : bool; cfg_id : option name }.
(** No counterpart: the Config objects there are. *)
Definition heap := list config.
(** No counterpart: a reference to a Config object. *)
Definition ref := nat.
(** No counterpart: an object changes. *)
Definition set_nth {A} (l : list A) (i : nat) (a : A) : list A := firstn i l ++ a :: skipn (S i) l.
(** configs.py 87-99 [set_config_id]; IDs are hashable. *)
Definition set_config_id (h : heap) (r : ref) (k : name) : heap * result unit :=
  match nth_error h r with
  | None => (h, Err AttributeErr)
  | Some c =>
    match cfg_id c with
    | None => (set_nth h r {| cfg_class_ok := cfg_class_ok c; cfg_id := Some k |}, Ok tt)
    | Some k' => (h, if name_eqb k k' then Ok tt else Err ValueErr)
    end
  end.

(** configs.py 102-189: a [ConfigMap] has one slot, [CONFIG_TYPE], and a dict.  An ID
    hides an attribute of the class with the same name; this is modelled for the
    methods [update] and [clear], which can then not be called any more, and not
    for [_slots_set]. *)
Definition CONFIG_TYPE : str := lit "CONFIG_TYPE".
(** configs.py 102-189. *)
Record registry := { r_heap : heap; r_items : list (name * ref) }.
(** configs.py 170-189: [self[config_id]]. *)
Definition registered (g : registry) (k : name) : option ref := dict_get name_eqb (r_items g) k.
(** 170-189 [__setitem__].  For [CONFIG_TYPE] and [__dict__] the values in the
    registry are not configs, so they are never the one given.  [reserved]: the
    data descriptors of [object]. *)
Definition register (reserved : list str) (g : registry) (k : name) (r : ref) : registry * result unit :=
  match set_config_id (r_heap g) r k with
  | (h, Err e) => ({| r_heap := h; r_items := r_items g |}, Err e)
  | (h, Ok _) =>
    let g := {| r_heap := h; r_items := r_items g |} in
    match nth_error h r with
    | Some {| cfg_class_ok := true |} =>
      if name_eqb k (Str CONFIG_TYPE) || name_eqb k (Str DICT) then (g, Err PermissionErr)
      else match registered g k with
           | Some r' => if Nat.eqb r' r then (g, Ok tt) else (g, Err PermissionErr)
           | None => if mem_name k reserved then (g, Err TypeErr)
                     else ({| r_heap := h; r_items := dict_set name_eqb (r_items g) k r |}, Ok tt)
           end
    | _ => (g, Err TypeErr)
    end
  end.
(** configs.py 153-168 [__init__], and slots.py 308-324 [update]: one item after another. *)
Fixpoint register_all (reserved : list str) (g : registry) (items : list (name * ref)) : registry * result unit :=
  match items with
  | [] => (g, Ok tt)
  | (k, r) :: items => match register reserved g k r with
                       | (g, Ok _) => register_all reserved g items
                       | (g, Err e) => (g, Err e)
                       end
  end.
(** Whether a registered ID hides a method of the registry. No counterpart of its own: attribute
    lookup on an instance with a dict; see configs.py 102-189. *)
Definition hidden (g : registry) (method : str) : bool :=
  match registered g (Str method) with Some _ => true | None => false end.
(** [clear], inherited from [Slots] (slots.py 326-333): the dict is emptied, then
    deleting [CONFIG_TYPE] raises. *)
Definition registry_clear (g : registry) : registry * result unit :=
  if hidden g (lit "clear") then (g, Err TypeErr) else
  ({| r_heap := r_heap g; r_items := [] |}, Err PermissionErr).
(** [update], inherited from [Slots] (slots.py 308-324). *)
Definition registry_update (reserved : list str) (g : registry) (items : list (name * ref)) : registry * result unit :=
  if hidden g (lit "update") then (g, Err TypeErr) else register_all reserved g items.
(** configs.py 153-189, slots.py 308-333. *)
Inductive cop :=
| Register (k : name) (r : ref)
| RegisterAll (items : list (name * ref))
| Unregister (k : name)
| SetId (r : ref) (k : name)       (* on a config itself *)
| Make (ok : bool)                 (* a new config object *)
| ClearRegistry.
(** configs.py 153-189, slots.py 308-333: one call. *)
Definition do_cop (reserved : list str) (g : registry) (p : cop) : registry * result unit :=
  match p with
  | Register k r => register reserved g k r
  | RegisterAll items => registry_update reserved g items
  | Unregister k => (g, Err PermissionErr)
  | SetId r k => let '(h, x) := set_config_id (r_heap g) r k in ({| r_heap := h; r_items := r_items g |}, x)
  | Make ok => ({| r_heap := r_heap g ++ [{| cfg_class_ok := ok; cfg_id := None |}]; r_items := r_items g |}, Ok tt)
  | ClearRegistry => registry_clear g
  end.
(** No counterpart: calls one after another. *)
Definition run_cops (reserved : list str) (ps : list cop) (g : registry) : registry := fold_left (fun g p => fst (do_cop reserved g p)) ps g.
(** configs.py 153-168: a registry without items. *)
Definition new_registry : registry := {| r_heap := []; r_items := [] |}.
