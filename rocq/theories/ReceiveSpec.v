(** * Vocabulary for tasks that share one AsyncDecipherStream *)
From Coq Require Import ZArith.
From Verif Require Import Base CanonModel CipherModel StreamModel StreamSpec FeedModel FeedSpec ReceiveModel.

(** No task is cancelled. *)
Definition undisturbed (es : list revent) : Prop :=
  Forall (fun e => match e with RCancel _ | RStop _ => False | _ => True end) es.
(** The moments at which readers ran. *)
Definition at_moment (es : list revent) (now : Z) : Prop :=
  exists j, In (RLook j now) es \/ In (RClose j now) es \/ In (RGo j now) es.

(** The receivers in the order in which they made their calls: in which they first ran. *)
Fixpoint arrivals (seen : list nat) (es : list revent) : list nat :=
  match es with
  | [] => []
  | Receiver i :: es => if existsb (Nat.eqb i) seen then arrivals seen es else i :: arrivals (i :: seen) es
  | _ :: es => arrivals seen es
  end.
(** The packets of a call which the stream has taken in: of one that ended, as its outcome
    shows; of one that is under way, those in front of the packet at hand. *)
Definition took (c : cfg) (datas : list bytes) (y : channel) (k : nat) : list (bytes * bytes) :=
  match nth_error datas k, nth_error (receivers y) k with
  | Some data, Some (REnded o) => taken c (DFeed data) o
  | Some data, Some (RTesting i b rem) | Some data, Some (RDeciphering i b rem) => taken c (DFeed data) (Refused i b rem)
  | _, _ => []
  end.
(** All packets that were taken in, in the order of the calls. *)
Definition delivered (c : cfg) (datas : list bytes) (es : list revent) (y : channel) : list (bytes * bytes) :=
  concat (map (took c datas y) (arrivals [] es)).
(** The same up to the end of the [k]-th receiver's call. *)
Fixpoint up_to (k : nat) (l : list nat) : list nat :=
  match l with [] => [] | i :: l => if Nat.eqb i k then [i] else i :: up_to k l end.
Definition delivered_up_to (c : cfg) (datas : list bytes) (es : list revent) (y : channel) (k : nat) : list (bytes * bytes) :=
  concat (map (took c datas y) (up_to k (arrivals [] es))).

(** The answers to the calls of a history which iterate (false) or finalize (true). *)
Definition is_final (o : dop) : bool := match o with DFinal _ | DFinalAgain _ => true | _ => false end.
Fixpoint answers (ops : list dop) (outs : list outcome) : list (bool * outcome) :=
  match ops, outs with
  | DFeed _ :: ops, _ :: outs => answers ops outs
  | o :: ops, out :: outs => (is_final o, out) :: answers ops outs
  | _, _ => []
  end.

(** [afinalize] has run to its end, and nothing was raised by it other than the complaint
    that the stream is closed already. *)
Definition read_to_the_end (y : channel) : Prop :=
  In (true, Stop) (heard y) /\ forall e, In (true, Raised e) (heard y) -> e = CipherStreamIsClosed.
(** The readers are between two calls, or at a [yield] of [__aiter__]. *)
Definition at_rest (y : channel) : Prop :=
  Forall (fun x => x = RIdle \/ x = RYielded false) (readers y).
(** All calls of [abuffer] have returned or raised. *)
Definition all_back (y : channel) : Prop := forall f, In f (receivers y) -> exists o, f = REnded o.

(** Where a task stands with the guards of [abuffer] and [afinalize]. *)
Definition rstands (y : channel) (w : who) : stand :=
  match w with
  | Feeds k => match nth_error (receivers y) k with
               | Some (RWaiting _) => Waits
               | Some (RTesting _ _ _) | Some (RDeciphering _ _ _) => Inside
               | _ => Away
               end
  | Closes j => match nth_error (readers y) j with
                | Some RJoining => Waits
                | Some (RDating true _) | Some (RTrimming true) | Some (RYielded true) | Some RSealing | Some (RTail _) => Inside
                | _ => Away
                end
  end.
(** No task is cancelled while it waits for the guard. *)
Definition no_waiter_cancelled (H : hasher) (c : cfg) (ttl : option Z) (es : list revent) (y : channel) : Prop :=
  forall before k after data, es = before ++ RCancel k :: after ->
    nth_error (receivers (rrun H c ttl before y)) k <> Some (RWaiting data).
