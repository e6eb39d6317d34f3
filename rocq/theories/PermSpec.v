(** * Vocabulary for the statements about permutations. *)
From Verif Require Import Base PermModel.
Local Open Scope Z_scope.

(** An integer that fits in [size] bytes. *)
Definition in_domain (size v : Z) : Prop := 0 <= v < 256 ^ size.

(** The domain sizes that the library registers. *)
Definition shipped_size (size : Z) : Prop :=
  1 <= size <= 32 \/ size = 48 \/ size = 64 \/ size = 128 \/ size = 192 \/ size = 256.

(** [f] is a bijection of the domain which always returns, and [g] its inverse. *)
Definition inverse_bijections (size : Z) (f g : Z -> result Z) : Prop :=
  (forall v, in_domain size v ->
     exists w, f v = Ok w /\ in_domain size w /\ g w = Ok v) /\
  (forall w, in_domain size w ->
     exists v, g w = Ok v /\ in_domain size v /\ f v = Ok w).

(** ** Two parties that share a key

    Both apply the same tweaks in the same order. At any moment the sender may
    permute a value and hand the result to the receiver, who inverts it. *)
Inductive event := Tweak (o : chain_op) | Transfer (v : Z).

Fixpoint sender (s : chain) (h : list event) : list (result Z) :=
  match h with
  | [] => []
  | Tweak o :: h => sender (chain_do s o) h
  | Transfer v :: h => chain_permute s v :: sender s h
  end.

(** The receiver consumes one received value at each transfer. *)
Fixpoint receiver (s : chain) (h : list event) (received : list (result Z))
    : list (result Z) :=
  match h, received with
  | [], _ => []
  | Tweak o :: h, _ => receiver (chain_do s o) h received
  | Transfer _ :: h, r :: received =>
    (w <- r ;; chain_invert s w) :: receiver s h received
  | Transfer _ :: h, [] => []
  end.

Definition transferred (h : list event) : list Z :=
  flat_map (fun e => match e with Transfer v => [v] | Tweak _ => [] end) h.

(** The state after a history of calls, and after [n] further steps. *)
Definition after (s : chain) (ops : list chain_op) : chain := fold_left chain_do ops s.
Definition stepped (s : chain) (n : nat) : chain := after s (repeat OpStep n).
