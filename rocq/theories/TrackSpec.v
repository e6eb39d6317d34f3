(** * One guard, many threads: vocabulary of the specification *)
From Verif Require Import Base GuardModel TrackModel.

(** The transitions that succeeded, in their order. *)
Fixpoint moves (l : list event) : list use :=
  match l with
  | [] => []
  | Moved _ u :: l => u :: moves l
  | _ :: l => moves l
  end.
(** The life of a guard. *)
Definition life : list use := [Pending; Running; Finished].
(** [p] begins [l]. *)
Definition begins (p l : list use) : Prop := exists r, l = p ++ r.
(** No thread is in the middle of a transition. *)
Definition quiet (w : world) : Prop := forall i, hand w i = None.
(** The same calls made one after another, each transition in one step, as GuardModel has them. *)
Fixpoint one_by_one (i : nat) (l : list call) (t : tracker) : list event * tracker :=
  match l with
  | [] => ([], t)
  | c :: l =>
    let '(e, t1) :=
      match c with
      | Move u =>
        let '(ok, t1) := match u with Pending => to_pending t | Running => to_running t | Finished => to_done t | Unused => (false, None) end in
        (if ok then Moved i u else Refused i, t1)
      | Fault => (Cleared i, None)
      | Ask u => (Answered i c match t with Some s => same_use s u | None => false end, t)
      | AskFault => (Answered i c match t with Some _ => false | None => true end, t)
      end in
    let '(es, t2) := one_by_one i l t1 in
    (e :: es, t2)
  end.
(** The blocks that ended in an exception. *)
Definition failed {signal} (b : block signal) : bool := match ends _ b with Some _ => true | None => false end.
(** [a] is [b] with some entries left out. *)
Inductive within {A} : list A -> list A -> Prop :=
| within_nil : within [] []
| within_keep x a b : within a b -> within (x :: a) (x :: b)
| within_skip x a b : within a b -> within a (x :: b).
