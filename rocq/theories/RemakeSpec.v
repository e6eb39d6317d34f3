(** * Replacing modules: vocabulary of the specification *)
From Coq Require Import Strings.String.
From Verif Require Import Base StrModel RemakeModel.
Open Scope list_scope.

Definition api_of (p : package) : names_of := match p with Package api _ _ => api end.
(** What is below a package: its subpackages and its modules. *)
Definition below (p : package) : list (str * package) :=
  match p with Package _ subs mods => subs ++ map (fun nm => (fst nm, Package (snd nm) [] [])) mods end.
(** [p.a.b.c] as the package's author wrote it; and as the user reads it. *)
Inductive at_path : package -> list str -> package -> Prop :=
| Here p : at_path p [] p
| Down p n q l r : In (n, q) (below p) -> at_path q l r -> at_path p (n :: l) r.
Fixpoint walk (v : value) (path : list str) : option value :=
  match path with
  | [] => Some v
  | n :: l => match v with Frozen d => match dict_get str_eqb d n with Some u => walk u l | None => None end | _ => None end
  end.
(** The import name of a package; and of everything in it. *)
Definition import_name (p : package) : option str := match dict_get str_eqb (api_of p) (lit "__name__") with Some (Text n) => Some n | _ => None end.
Definition own_name (api : names_of) : list str := match dict_get str_eqb api (lit "__name__") with Some (Text n) => [n] | _ => [] end.
Fixpoint all_names (p : package) : list str :=
  match p with
  | Package api subs mods => flat_map (fun nq => all_names (snd nq)) subs ++ flat_map (fun nm => own_name (snd nm)) mods ++ own_name api
  end.
(** A package whose parts have different names, none of them ["__name__"]. *)
Inductive tidy : package -> Prop :=
| Tidy p : NoDup (map fst (api_of p)) -> NoDup (map fst (below p)) -> ~ In (lit "__name__") (map fst (below p)) ->
    (forall n q, In (n, q) (below p) -> tidy q) -> tidy p.
