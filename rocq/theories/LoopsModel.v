(** * Model of the debug mode and event loops

    aiootp/_debug_control.py and the switch of aiootp/asynchs/loops.py. *)
From Verif Require Import Base.
Open Scope list_scope.

(** No counterpart: the mode, whether each event loop that exists is in asyncio's debug mode, and which one
    [asyncio.get_event_loop] returns, if it returns one. *)
Record world := { mode : bool; loops : list bool; current : option nat }.
(** No counterpart: the i-th element is replaced. *)
Fixpoint put (i : nat) (x : bool) (l : list bool) : list bool :=
  match l, i with
  | [], _ => []
  | _ :: l, O => x :: l
  | y :: l, S i => y :: put i x l
  end.
(** loops.py 55-57: the switch; without a current loop [get_event_loop] raises RuntimeError. *)
Definition toggle (w : world) : world * option exn :=
  match current w with
  | None => (w, Some RuntimeErr)
  | Some i => ({| mode := mode w; loops := put i (mode w) (loops w); current := current w |}, None)
  end.
(** _debug_control.py 43-54 [enable_debugging]. *)
Definition enable_debugging (w : world) : world * option exn :=
  if mode w then (w, None) else toggle {| mode := true; loops := loops w; current := current w |}.
(** _debug_control.py 56-61 [disable_debugging]. *)
Definition disable_debugging (w : world) : world * option exn :=
  if mode w then toggle {| mode := false; loops := loops w; current := current w |} else (w, None).
(** No counterpart: what a program does: the two calls; a new event loop, which is not in debug mode (PYTHONASYNCIODEBUG is not set); and another loop
    becomes the current one, or none. *)
Inductive deed := Enable | Disable | NewLoop | Use (i : option nat).
(** No counterpart: see [deed]. *)
Definition do (w : world) (d : deed) : world :=
  match d with
  | Enable => fst (enable_debugging w)
  | Disable => fst (disable_debugging w)
  | NewLoop => {| mode := mode w; loops := loops w ++ [false]; current := current w |}
  | Use i => {| mode := mode w; loops := loops w; current := i |}
  end.
(** No counterpart: a program. *)
Definition program (w : world) (ds : list deed) : world := fold_left do ds w.
(** _debug_control.py 35: at import, with one event loop. *)
Definition first_world : world := {| mode := false; loops := [false]; current := Some 0 |}.
