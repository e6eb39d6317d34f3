(** * Model of the mapping that is also a namespace

    [NamespaceMapping], aiootp/_constants/__init__.py 26-76.  Stored values cannot be called; names are not those of Python's own
    attributes, such as [__dict__] or [__class__]. *)
From Coq Require Import Strings.String.
From Verif Require Import Base StrModel.
Open Scope list_scope.

(** No counterpart: the instance's [__dict__]. *)
Definition bag := list (str * N).
(** _constants/__init__.py 27-33 [__init__]: the keywords first, then the mapping. *)
Definition new_bag (mapping kwargs : bag) : bag := dict_update str_eqb (dict_update str_eqb [] kwargs) mapping.
(** _constants/__init__.py 35-36 [__getitem__]. *)
Definition get_item (b : bag) (name : str) : result N := match dict_get str_eqb b name with Some v => Ok v | None => Err KeyErr end.
(** No counterpart: [b.name]: methods are found after the instance's own names; [None] is a method of the class. *)
Definition methods : list str := map lit ["keys"; "values"; "items"; "update"; "clear"]%string.
(** No counterpart: see [methods]. *)
Definition get_attribute (b : bag) (name : str) : result (option N) :=
  match dict_get str_eqb b name with
  | Some v => Ok (Some v)
  | None => if existsb (str_eqb name) methods then Ok None else Err AttributeErr
  end.
(** No counterpart: [b.name(...)] runs the method, or fails since what is stored cannot be called. *)
Definition call {A} (b : bag) (name : str) (method : A) : result A :=
  v <- get_attribute b name ;;
  match v with None => Ok method | Some _ => Err TypeErr end.
(** _constants/__init__.py 44-45 [__contains__], 47-48 [__len__], 50-56 [__iter__] and [__aiter__] when nothing is changed meanwhile. *)
Definition contains (b : bag) (name : str) : bool := match dict_get str_eqb b name with Some _ => true | None => false end.
(** _constants/__init__.py 47-48 [__len__]. *)
Definition size (b : bag) : nat := List.length b.
(** _constants/__init__.py 50-56 [__iter__]. *)
Definition iterate (b : bag) : list str := map fst b.
(** _constants/__init__.py 58-65 [keys], [values], [items]. *)
Definition keys (b : bag) : result (list str) := call b (lit "keys") (map fst b).
(** _constants/__init__.py 61-62 [values]. *)
Definition values (b : bag) : result (list N) := call b (lit "values") (map snd b).
(** _constants/__init__.py 64-65 [items]. *)
Definition items (b : bag) : result (list (str * N)) := call b (lit "items") b.

(** No counterpart: the changes of an instance. *)
Inductive op := SetItem (name : str) (v : N) | DelItem (name : str) | SetAttr (name : str) (v : N) | DelAttr (name : str) | Update (mapping kw : bag) | Clear.
(** _constants/__init__.py 38-42 [__setitem__], [__delitem__]; 67-76 [update], [clear]; attributes are those of SimpleNamespace. *)
Definition apply_op (b : bag) (o : op) : result bag :=
  match o with
  | SetItem name v | SetAttr name v => Ok (dict_set str_eqb b name v)
  | DelItem name => if contains b name then Ok (dict_del str_eqb b name) else Err KeyErr
  | DelAttr name => if contains b name then Ok (dict_del str_eqb b name) else Err AttributeErr
  | Update mapping kw => call b (lit "update") (dict_update str_eqb (dict_update str_eqb b mapping) kw)
  | Clear => call b (lit "clear") []
  end.
(** No counterpart: operations one after another; one that raises changes nothing. *)
Definition ops (b : bag) (os : list op) : bag := fold_left (fun b o => match apply_op b o with Ok b' => b' | Err _ => b end) os b.
