(** * The use of one guard object by many threads: aiootp/asynchs/guards/state_machine.py

    GuardModel takes a transition for one step, as it is when a guard has one user.  Here any number of threads call
    the methods of one tracker, and a transition is the two operations on the deque that it consists of. *)
From Verif Require Import Base GuardModel.

(** state_machine.py 194-294: the calls. *)
Inductive call :=
| Move (to : use)      (* transition_to_pending, transition_to_running, transition_to_done *)
| Fault                (* enter_fault_state *)
| Ask (u : use)        (* is_unused, is_pending, is_running, is_done *)
| AskFault.            (* has_faulted *)

(** state_machine.py 52-117: the method of a state that gives another; each state has at most one. *)
Definition next (u : use) : option use :=
  match u with Unused => Some Pending | Pending => Some Running | Running => Some Finished | Finished => None end.
(** No counterpart: whether two states are of one class. *)
Definition same_use (a b : use) : bool :=
  match a, b with Unused, Unused | Pending, Pending | Running, Running | Finished, Finished => true | _, _ => false end.

(** What a caller sees. state_machine.py 194-294. *)
Inductive event :=
| Moved (i : nat) (to : use)
| Refused (i : nat)             (* InvalidStateTransition *)
| Cleared (i : nat)
| Answered (i : nat) (c : call) (b : bool).

(** state_machine.py 131-147: [slot] is the deque [_state], of at most one entry; [hand] is what a thread has taken
    out of it and not yet put back. No counterpart: [todo], the calls that each thread is still to make. *)
Record world := { slot : option use; hand : nat -> option use; todo : nat -> list call }.
(** No counterpart: a table with one entry changed. *)
Definition put {A} (f : nat -> A) (i : nat) (a : A) (j : nat) : A := if Nat.eqb j i then a else f j.

(** One operation of thread [i]. state_machine.py 194-228: [pop], the method of the state, then [append], which drops
    an entry that is there ([maxlen=1]); 230-236: [clear]; 238-294: one look at the deque. *)
Definition step (i : nat) (w : world) : list event * world :=
  match hand w i with
  | Some u => ([Moved i u], {| slot := Some u; hand := put (hand w) i None; todo := todo w |})
  | None =>
    match todo w i with
    | [] => ([], w)
    | c :: l =>
      let t := put (todo w) i l in
      match c with
      | Move u =>
        match slot w with
        | Some s =>
          if match next s with Some v => same_use v u | None => false end
          then ([], {| slot := None; hand := put (hand w) i (Some u); todo := t |})
          else ([Refused i], {| slot := None; hand := hand w; todo := t |})
        | None => ([Refused i], {| slot := None; hand := hand w; todo := t |})
        end
      | Fault => ([Cleared i], {| slot := None; hand := hand w; todo := t |})
      | Ask u => ([Answered i c match slot w with Some s => same_use s u | None => false end], {| slot := slot w; hand := hand w; todo := t |})
      | AskFault => ([Answered i c match slot w with Some _ => false | None => true end], {| slot := slot w; hand := hand w; todo := t |})
      end
    end
  end.
(** No counterpart: the threads take turns in any order. *)
Fixpoint run (schedule : list nat) (w : world) : list event * world :=
  match schedule with
  | [] => ([], w)
  | i :: schedule => let '(es, w1) := step i w in let '(es2, w2) := run schedule w1 in (es ++ es2, w2)
  end.
(** state_machine.py 136-147 [__init__]. *)
Definition start (calls : nat -> list call) : world := {| slot := Some Unused; hand := fun _ => None; todo := calls |}.

(** ** The fault signals of one user: state_machine.py 149-192.  A signal is a callback; [raises] tells which of
    them raise an exception. *)
Section Signals.
Variable signal : Type.
Variable raises : signal -> option exn.
(** A block within the tracker's context. No counterpart: [registers] are the arguments of its calls of [add_fault_signal], in
    order; [ends] is how it ends. *)
Record block := { registers : list signal; ends : option exn }.

(** state_machine.py 188-190: the loop over the signals. Returned are those that ran, those left, and the exception of
    the one that raised. *)
Fixpoint drain (l : list signal) : list signal * list signal * option exn :=
  match l with
  | [] => ([], [], None)
  | s :: l =>
    match raises s with
    | Some e => ([s], l, Some e)
    | None => let '(ran, rest, r) := drain l in (s :: ran, rest, r)
    end
  end.
(** state_machine.py 149-192 [add_fault_signal], [__enter__], [__exit__]: one block, with the signals already queued. *)
Definition perform_block (b : block) (queued : list signal) : list signal * list signal * option exn :=
  let queued := queued ++ registers b in
  match ends b with
  | None => ([], [], None)
  | Some e => let '(ran, rest, r) := drain queued in (ran, rest, match r with Some e2 => Some e2 | None => Some e end)
  end.
(** No counterpart: blocks one after another. *)
Fixpoint perform_blocks (l : list block) (queued : list signal) : list signal * list signal * list (option exn) :=
  match l with
  | [] => ([], queued, [])
  | b :: l =>
    let '(ran, rest, r) := perform_block b queued in
    let '(ran2, rest2, rs) := perform_blocks l rest in
    (ran ++ ran2, rest2, r :: rs)
  end.
End Signals.
