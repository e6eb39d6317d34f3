(** * Several objects of one database: vocabulary of the specification *)
From Verif Require Import Base DbModel DbSpec ShareModel.

Section Spec.
Variable json : Type.
Variable dumps : json -> result bytes.
Variable loads : bytes -> result json.
Variable set_order : list bytes -> list bytes.
Notation value := (value json).

(** What the objects have in common, and what each has of its own: the values in its cache and the tags it lists. *)
Record abstract := { common : bytes -> option value; record : option (list bytes); own : nat -> option ((bytes -> option value) * list bytes) }.
(** The database as one of the objects sees it. *)
Definition seen (a : abstract) (c : (bytes -> option value) * list bytes) : adb json :=
  {| cached := fst c; stored := common a; listed := snd c; ledger := record a |}.
Definition after (a : abstract) (i : nat) (b : adb json) : abstract :=
  {| common := stored _ b; record := ledger _ b; own := fun j => if Nat.eqb j i then Some (cached _ b, listed _ b) else own a j |}.
(** One call: as for a single object (DbSpec), on what the object sees. *)
Definition aact (x : act json) (a : abstract) : reply json * abstract :=
  match x with
  | Open _ i silent preload =>
    match record a with
    | None => (Raised _ OtherErr, a)
    | Some l =>
      let '(r, b) := aopen json set_order silent preload (seen a (fun _ => None, [])) l in
      (r, match r with Done _ => after a i b | _ => a end)
    end
  | Call _ i o =>
    match own a i with
    | None => (Raised _ OtherErr, a)
    | Some c => let '(r, b) := astep json dumps loads set_order o (seen a c) in (r, after a i b)
    end
  end.
Fixpoint atogether (l : list (act json)) (a : abstract) : list (reply json) * abstract :=
  match l with
  | [] => ([], a)
  | x :: l => let '(r, a1) := aact x a in let '(rs, a2) := atogether l a1 in (r :: rs, a2)
  end.
(** Object 0 alone. *)
Definition first_object (b : adb json) : abstract :=
  {| common := stored _ b; record := ledger _ b; own := fun j => match j with 0 => Some (cached _ b, listed _ b) | _ => None end |}.

Definition act_ok (U : list bytes) (x : act json) : Prop := match x with Open _ _ _ _ => True | Call _ _ o => op_ok json dumps loads U o end.
(** The object that is called. *)
Definition actor (x : act json) : nat := match x with Open _ i _ _ | Call _ i _ => i end.
(** Calls that neither set nor remove the tag. *)
Definition leaves_saved (t : bytes) (x : act json) : Prop :=
  match x with
  | Call _ _ (SetTag _ u _ _) | Call _ _ (PopTag _ u _) | Call _ _ (DelItem _ u) => u <> t
  | _ => True
  end.
(** Nobody opens the database before object 0 has saved it for the first time. *)
Fixpoint opened_after_save (l : list (act json)) : Prop :=
  match l with
  | [] => True
  | Call _ 0 (SaveDatabase _) :: _ => True
  | Call _ _ _ :: l => opened_after_save l
  | Open _ _ _ _ :: _ => False
  end.
Definition saves_database (x : act json) : Prop := match x with Call _ _ (SaveDatabase _) => True | _ => False end.
End Spec.
