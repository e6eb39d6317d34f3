(** * The guards a manager hands out: vocabulary of the specification *)
From Verif Require Import Base GuardModel GuardSpec ManagerModel GateModel.

(** A class that comes from one of the four shipped ones, by inheritance that neither mixes the two kinds nor
    redefines which kind it is. *)
Definition ordinary (c : policy_class) : Prop :=
  (forall x q, In (AUsers x q) c -> x = None) /\ ~ (In AnExclusive c /\ In ANonExclusive c).
(** Arguments that are all right for an exclusive guard, or for a shared one. *)
Definition policy_fits (exclusive : bool) (p : policy_arg) : Prop :=
  p = NoPolicy \/ exists c, p = APolicy c /\ In (if exclusive then AnExclusive else ANonExclusive) c.
Definition delay_fits (d : delay_arg) : Prop := d = NoDelay \/ exists x, d = Delay x /\ (0 < x)%Z.
(** All policies in a program are ordinary. *)
Definition ordinary_program (prog : list call) : Prop :=
  forall i t c d, In (Guard i t (APolicy c) d) prog \/ In (Monitor i t (APolicy c) d) prog -> ordinary c.
(** Guard [i] was made by [guard] (or by [monitor]) for target [t]. *)
Definition made_by_guard (default : Z) (prog : list call) (i t : nat) : Prop :=
  exists before p d rest, prog = before ++ Guard i (Target t) p d :: rest /\ gates default before i = None /\
    exists g, hand_out default true (Target t) p d = Ok g.
Definition made_by_monitor (default : Z) (prog : list call) (i t : nat) : Prop :=
  exists before p d rest, prog = before ++ Monitor i (Target t) p d :: rest /\ gates default before i = None /\
    exists g, hand_out default false (Target t) p d = Ok g.
(** No guard of a program is to be queued by its caller. *)
Definition self_queueing (default : Z) (prog : list call) : Prop :=
  forall i g, gates default prog i = Some g -> queues_itself g = true.
