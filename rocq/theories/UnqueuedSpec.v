(** * Guards that their callers forgot to queue: vocabulary of the specification *)
From Verif Require Import Base GuardModel GuardSpec UnqueuedModel.

(** What was seen and what is the case after a schedule, when the guards in [forgotten] are not queued. *)
Definition trace_without (exclusive manual forgotten : nat -> bool) (l : list action) : list event :=
  fst (run exclusive manual l (unqueued_start forgotten)).
Definition after_without (exclusive manual forgotten : nat -> bool) (l : list action) : state :=
  snd (run exclusive manual l (unqueued_start forgotten)).

(** Whom an action or an event concerns. *)
Definition actor (a : action) : nat := match a with Step i | Reuse i | Cancel i => i end.
Definition subject (e : event) : nat := match e with Joined i | Entered i | Left i => i | Raised i _ => i end.
(** The part of a schedule, or of what was seen, that concerns the other guards. *)
Definition others (forgotten : nat -> bool) (l : list action) : list action := filter (fun a => negb (forgotten (actor a))) l.
Definition of_others (forgotten : nat -> bool) (t : list event) : list event := filter (fun e => negb (forgotten (subject e))) t.
(** The guards of a list which both were forgotten and are exclusive. *)
Definition forgotten_exclusive (exclusive forgotten : nat -> bool) (gs : list nat) : list nat :=
  filter (fun i => forgotten i && exclusive i) gs.

(** The same with appends that come later. *)
Definition late_trace (exclusive manual forgotten : nat -> bool) (l : list late_action) : list event :=
  fst (late_run exclusive manual l (unqueued_start forgotten)).
Definition late_after (exclusive manual forgotten : nat -> bool) (l : list late_action) : state :=
  snd (late_run exclusive manual l (unqueued_start forgotten)).
(** The guards that have not been appended at all. *)
Definition left_out (forgotten : nat -> bool) (l : list late_action) (i : nat) : bool :=
  forgotten i && negb (existsb (fun x => match x with Appends j => Nat.eqb j i | Does _ => false end) l).
(** A guard which has not been entered, or is between two looks at the queue. *)
Definition between_looks (p : pc) : Prop := p = Queued \/ p = Used \/ p = Notified \/ p = Waiting.
(** Only guards that are to be queued by hand and were not are appended, once, while they can still notice it. *)
Definition in_time (exclusive manual forgotten : nat -> bool) (l : list late_action) : Prop :=
  forall l1 i l2, l = l1 ++ Appends i :: l2 ->
    left_out forgotten l1 i = true /\ between_looks (pcs (late_after exclusive manual forgotten l1) i).
