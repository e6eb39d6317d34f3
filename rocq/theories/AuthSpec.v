(** * Vocabulary for the life cycle of authenticators and key bundles *)
From Verif Require Import Base CanonModel CipherModel AuthModel.

(** A bundle nobody has used yet. *)
Definition unused (b : bundle) : world := {| w_bundle := b; w_shmacs := []; w_gens := [] |}.

(** The state after a history of calls, and the reply which a further call gets. *)
Fixpoint after (H : hasher) (c : cfg) (w : world) (calls : list call) : world :=
  match calls with
  | [] => w
  | k :: calls => after H c (snd (step H c w k)) calls
  end.
Definition reply_to (H : hasher) (c : cfg) (w : world) (calls : list call) (k : call) : reply :=
  fst (step H c (after H c w calls) k).

(** In the history, this call was made and got this reply. *)
Definition happened (H : hasher) (c : cfg) (w : world) (calls : list call) (k : call) (r : reply) : Prop :=
  exists before later, calls = before ++ k :: later /\ reply_to H c w before k = r.

(** The reply says that the call was refused. *)
Definition refused (r : reply) : Prop := exists e, r = Raised e.

(** The replies to a history of calls. *)
Fixpoint replies (H : hasher) (c : cfg) (w : world) (calls : list call) : list reply :=
  match calls with
  | [] => []
  | k :: calls => fst (step H c w k) :: replies H c (snd (step H c w k)) calls
  end.
