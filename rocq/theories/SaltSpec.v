(** * What salt files are for

    A salt file is either missing or holds one salt. *)
From Verif Require Import Base SaltModel.
Local Open Scope N_scope.

(** What each call returns and leaves, when it is alone.  Only the superuser can
    make a file that is there already. *)
Definition answer (privileged : bool) (c : call) (s : option bytes) : result (option bytes) * option bytes :=
  let make x :=
    if blen x <? 32 then (Err ValueErr, s)
    else match s with
         | Some _ => if privileged then (Ok None, Some x) else (Err PermissionErr, s)
         | None => (Ok None, Some x)
         end in
  match c, s with
  | Make [] token, _ => make token
  | Make salt _, _ => make salt
  | Read, Some x => (Ok (Some x), s)
  | Read, None => (Err FileNotFoundErr, s)
  | Update salt, _ =>
    if blen salt <? 32 then (Err ValueErr, s)
    else match s with
         | Some _ => (Ok None, Some salt)
         | None => (Err FileNotFoundErr, s)
         end
  | Delete, Some _ => (Ok None, None)
  | Delete, None => (Err FileNotFoundErr, s)
  | EnsureFile _, Some _ => (Ok None, s)
  | EnsureFile token, None => make token
  | _, _ => (Ok None, s)
  end.

Fixpoint answers (privileged : bool) (l : list call) (s : option bytes) : list (result (option bytes)) * option bytes :=
  match l with
  | [] => ([], s)
  | c :: l =>
    let '(r, s) := answer privileged c s in
    let '(rs, s) := answers privileged l s in
    (r :: rs, s)
  end.

(** The directories are there; the file is missing, or holds the salt, of at least
    32 bytes, with all permission bits cleared. *)
Definition settled (need : nat) (d : fs) (s : option bytes) : Prop :=
  dirs d = need /\
  match s with
  | None => file d = None
  | Some x => file d = Some (x, 0) /\ 32 <= blen x
  end.

(** The calls of this module about a file. *)
Definition file_call (c : call) : Prop :=
  match c with
  | Make _ _ | Read | Update _ | Delete | EnsureFile _ => True
  | EnsureDir _ | MakeDir _ => False
  end.

(** The events are those of the calls, one after the other in this order, from [s] to
    [s'] (the test of [EnsureFile] changes nothing); a reader may be refused if
    [refusals] are possible. *)
Inductive history (privileged : bool) (refusals : Prop) : option bytes -> list event -> option bytes -> Prop :=
| Nothing s : history privileged refusals s [] s
| Tested s i token es s' :
    history privileged refusals s es s' ->
    history privileged refusals s (Done i (EnsureFile token) (Ok None) :: es) s'
| Happened s i c r s1 es s' :
    (forall token, c <> EnsureFile token) ->
    answer privileged c s = (r, s1) ->
    history privileged refusals s1 es s' ->
    history privileged refusals s (Done i c r :: es) s'
| Refused s i es s' :
    refusals ->
    history privileged refusals s es s' ->
    history privileged refusals s (Done i Read (Err PermissionErr) :: es) s'.
