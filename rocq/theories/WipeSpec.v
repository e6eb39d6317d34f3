(** * What is said about deleting a database that is in use *)
From Verif Require Import Base WipeModel.

Section Wipe.
Context {V : Type}.

(** The tasks: one, the [d]-th, deletes the database; the others make one call each, which has
    not begun. *)
Definition ready (ts : list (task V)) (d : nat) : Prop :=
  nth_error ts d = Some (Wipe0 V) /\
  forall i t, i <> d -> nth_error ts i = Some t ->
    (exists n v, t = Set0 V n v) \/ (exists n silent keep, t = Query0 V n silent keep) \/ (exists n drop, t = Save0 V n drop).
(** Every tag with a file is listed. *)
Definition complete (b : base V) : Prop := forall n, files V b n <> None -> In n (manifest V b).
(** A task saves the tag [n]. *)
Definition saves (ts : list (task V)) (n : nat) : Prop := exists drop, In (Save0 V n drop) ts.
(** A task sets the tag [n], which the database does not have. *)
Definition adds (b : base V) (ts : list (task V)) (n : nat) : Prop := ~ In n (manifest V b) /\ exists v, In (Set0 V n v) ts.
(** A value that the tag [n] has had. *)
Definition had (b : base V) (ts : list (task V)) (n : nat) (v : V) : Prop :=
  cache V b n = Some v \/ files V b n = Some v \/ In (Set0 V n v) ts.
(** What a call may return or raise. *)
Definition answer (b : base V) (ts : list (task V)) (t : task V) (r : reply V) : Prop :=
  match t with
  | Set0 _ _ _ => r = Fine V \/ r = Raised V AttributeErr
  | Query0 _ n silent _ => (exists v, r = Found V v /\ had b ts n v) \/ r = (if silent then Nothing V else Raised V LookupErr) \/ r = Raised V AttributeErr
  | Save0 _ _ _ => r = Fine V \/ r = Raised V LookupErr \/ r = Raised V AttributeErr
  | _ => True
  end.
(** How often the [d]-th task proceeds. *)
Definition turns (d : nat) (es : list nat) : nat := count_occ Nat.eq_dec es d.
End Wipe.
