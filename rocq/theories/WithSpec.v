(** * Databases as context managers: vocabulary of the specification *)
From Verif Require Import Base DbModel DbSpec WithModel.

Section Spec.
Variable json : Type.
Variable dumps : json -> result bytes.
Variable loads : bytes -> result json.
Variable set_order : list bytes -> list bytes.

(** The calls use the tags [U] and values that can be stored. *)
Fixpoint prog_ok (U : list bytes) (p : prog json) : Prop :=
  match p with
  | Call o => op_ok json dumps loads U o
  | Throw _ => True
  | Seq p q | Try p q => prog_ok U p /\ prog_ok U q
  | With p => prog_ok U p
  end.

(** The same program on the map of DbSpec.v: a block does what its body does, raises what its body
    raises, and however it ends the map is saved. *)
Fixpoint aexec (p : prog json) (a : adb json) : list (reply json) * option exn * adb json :=
  match p with
  | Call o => let '(r, a1) := astep json dumps loads set_order o a in ([r], match r with Raised _ e => Some e | _ => None end, a1)
  | Throw e => ([], Some e, a)
  | Seq p q =>
    let '(rs, exc, a1) := aexec p a in
    match exc with
    | Some e => (rs, Some e, a1)
    | None => let '(rs', exc', a2) := aexec q a1 in (rs ++ rs', exc', a2)
    end
  | Try p q =>
    let '(rs, exc, a1) := aexec p a in
    match exc with
    | None => (rs, None, a1)
    | Some _ => let '(rs', exc', a2) := aexec q a1 in (rs ++ rs', exc', a2)
    end
  | With p =>
    let '(rs, exc, a1) := aexec p a in
    (rs, exc, snd (astep json dumps loads set_order (SaveDatabase _) a1))
  end.
End Spec.
