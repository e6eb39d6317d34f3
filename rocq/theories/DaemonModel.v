(** * Model of starting and cancelling the entropy daemon

    aiootp/randoms/entropy_daemon.py 128-166.  What is fed and how long it sleeps is in RandomModel. *)
From Verif Require Import Base.
Open Scope list_scope.

(** entropy_daemon.py 136-143 [_araw_loop]: where a background thread is: before the snapshot (137), the hash (138), the feeding of
    the pool (139), the test of [_cancel] after the sleep (140-142); or it has returned. *)
Inductive place := AtSnapshot | AtHash | AtFeed | AtTest | Returned.
(** No counterpart: a background thread, and how often it has fed the pool. *)
Record thread := { at_ : place; feeds : nat }.
(** entropy_daemon.py 63, 145-159: the flag, and all threads that have been started on the object, the first one first. *)
Record daemon := { cancelled : bool; threads : list thread }.
(** entropy_daemon.py 52-67: a new object. *)
Definition new_daemon : daemon := {| cancelled := false; threads := [] |}.

(** entropy_daemon.py 136-143: one step of a thread. *)
Definition advance (cancelled : bool) (t : thread) : thread :=
  match at_ t with
  | AtSnapshot => {| at_ := AtHash; feeds := feeds t |}
  | AtHash => {| at_ := AtFeed; feeds := feeds t |}
  | AtFeed => {| at_ := AtTest; feeds := S (feeds t) |}
  | AtTest => {| at_ := if cancelled then Returned else AtSnapshot; feeds := feeds t |}
  | Returned => t
  end.
(** No counterpart: the i-th element is replaced. *)
Fixpoint change (f : thread -> thread) (i : nat) (l : list thread) : list thread :=
  match l, i with
  | [], _ => []
  | t :: l, O => f t :: l
  | t :: l, S i => t :: change f i l
  end.
(** No counterpart: what can happen next: the user starts or cancels, or the scheduler lets a thread go on. *)
Inductive event := Start | Cancel | Step (i : nat).
(** entropy_daemon.py 145-166 [start], [cancel]. *)
Definition happen (d : daemon) (e : event) : daemon :=
  match e with
  | Start => {| cancelled := cancelled d; threads := threads d ++ [{| at_ := AtSnapshot; feeds := 0 |}] |}
  | Cancel => {| cancelled := true; threads := threads d |}
  | Step i => {| cancelled := cancelled d; threads := change (advance (cancelled d)) i (threads d) |}
  end.
(** No counterpart: a history. *)
Definition history (d : daemon) (es : list event) : daemon := fold_left happen es d.
