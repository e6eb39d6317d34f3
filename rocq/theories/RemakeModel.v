(** * Model of how the package's modules are replaced by their public parts

    aiootp/commons/packaging.py.  The objects of the tree are all different. *)
From Coq Require Import Strings.String.
From Verif Require Import Base StrModel.
Open Scope list_scope.

(** No counterpart: what a name can stand for; a FrozenNamespace has the items of the mapping it is made of
    (ContainersModel). *)
Inductive value := Text (s : str) | Thing (n : N) | Nothing | Frozen (items : list (str * value)).
(** No counterpart: a dict of names; [sys.modules] with the dicts of its modules. *)
Definition names_of := list (str * value).
(** No counterpart: [sys.modules]. *)
Definition modules := list (str * names_of).
(** packaging.py 53-62: a package with its [module_api], its [subpackages], and its [modules] with theirs. *)
Inductive package := Package (api : names_of) (subs : list (str * package)) (mods : list (str * names_of)).

(** packaging.py 33: the dict of [ModuleType(name)]. *)
Definition blank (name : str) : names_of :=
  [(lit "__name__", Text name); (lit "__doc__", Nothing); (lit "__package__", Nothing); (lit "__loader__", Nothing); (lit "__spec__", Nothing)].
(** packaging.py 28-36 [make_module]. *)
Definition make_module (name : str) (mapping : names_of) (sys : modules) : value * modules :=
  let d := dict_update str_eqb (blank name) mapping in
  (Frozen d, dict_set str_eqb sys name d).
(** packaging.py 39-50 [remake_module]. *)
Definition remake_module (api : names_of) (sys : modules) : result (value * modules) :=
  match dict_get str_eqb api (lit "__name__") with
  | Some (Text name) => Ok (make_module name api sys)
  | Some _ => Err TypeErr
  | None => Err KeyErr
  end.
(** packaging.py 60-61. *)
Fixpoint remake_modules (l : list (str * names_of)) (api : names_of) (sys : modules) : result (names_of * modules) :=
  match l with
  | [] => Ok (api, sys)
  | (n, m) :: l => ' (v, sys1) <- remake_module m sys ;; remake_modules l (dict_set str_eqb api n v) sys1
  end.
(** packaging.py 53-62 [remake_subpackage].  After an error the import of the package has failed. *)
Fixpoint remake_subpackage (p : package) (sys : modules) : result (value * modules) :=
  match p with
  | Package api subs mods =>
    ' (api1, sys1) <- (fix go (l : list (str * package)) (api : names_of) (sys : modules) : result (names_of * modules) :=
      match l with
      | [] => Ok (api, sys)
      | (n, q) :: l => ' (v, sys1) <- remake_subpackage q sys ;; go l (dict_set str_eqb api n v) sys1
      end) subs api sys ;;
    ' (api2, sys2) <- remake_modules mods api1 sys1 ;;
    remake_module api2 sys2
  end.
