(** * IgnoreProps: claim C92.

    [with Ignore(A, B, if_except=f, if_else=g, finally_run=h): body] does
    what a [try] statement with these blocks does. *)

From Verif Require Import Base IgnoreModel IgnoreSpec IgnoreProofs.

Section Claims.

Context {W E C : Type}.
Variable code : nat -> state W E C -> state W E C * outcome E bool.
Variable instance : E -> C -> bool.
Variable not_awaitable : E.
Variable pause : state W E C -> state W E C * option E.

(** The [with] statement is a [try] statement: every exception is noted as the
    relay's error; one of the ignored classes is handled by the except code,
    and raised again if that returns something false; the else code runs only
    if nothing was raised, and what it raises is not handled; the finally code
    runs last, and what it raises takes over.  The handlers and the classes are
    those the relay has when they are needed, so the body can set them. *)
Theorem C92_with_is_a_try_statement : forall body s,
  snd (with_ code instance body s) =
  try_ body
    (fun e _ => Some (fun s1 =>
       let s2 := set_error e s1 in
       if existsb (instance e) (ignored_exceptions (self s1))
       then unless (call code (except_code (self s2))) e s2
       else (s2, Raised e)))
    (fun s1 => drop (call code (else_code (self s1))) s1)
    (fun s2 => drop (call code (finally_code (self s2))) s2) s.
Proof.
  intros body s. unfold with_, try_, exit_, is_ignored, drop, unless.
  destruct (body s) as [s1 [u|e]]; cbn.
  - destruct (call code (else_code (self s1)) s1) as [s2 [b|e]]; cbn;
      destruct (call code (finally_code (self s2)) s2) as [s3 [b'|e']]; cbn;
      try destruct u; reflexivity.
  - destruct (existsb (instance e) _); cbn.
    + destruct (call code (except_code (self s1)) _) as [s2 [[|]|e2]]; cbn;
        destruct (call code (finally_code (self s2)) s2) as [s3 [b'|e']]; reflexivity.
    + destruct (call code (finally_code (self s1)) _) as [s3 [b'|e']]; reflexivity.
Qed.

(** The same for [async with]: the handlers are awaited, and other tasks run
    once before the body.  A cancellation that comes then is raised and nothing
    else happens. *)
Theorem C92_async_with_is_a_try_statement : forall body s,
  snd (async_with code instance not_awaitable pause body s) =
  match pause s with
  | (s0, Some e) => (s0, Raised e)
  | (s0, None) =>
      try_ body
        (fun e _ => Some (fun s1 =>
           let s2 := set_error e s1 in
           if existsb (instance e) (ignored_exceptions (self s1))
           then unless (acall code not_awaitable pause (except_code (self s2))) e s2
           else (s2, Raised e)))
        (fun s1 => drop (acall code not_awaitable pause (else_code (self s1))) s1)
        (fun s2 => drop (acall code not_awaitable pause (finally_code (self s2))) s2) s0
  end.
Proof.
  intros body s. unfold async_with, try_, aexit, is_ignored, drop, unless.
  destruct (pause s) as [s0 [e0|]]; [reflexivity|].
  destruct (body s0) as [s1 [u|e]]; cbn [exception_of].
  - destruct (acall code not_awaitable pause (else_code (self s1)) s1) as [s2 [b|e]]; cbn [fst snd settle];
      destruct (acall code not_awaitable pause (finally_code (self s2)) s2) as [s3 [b'|e']]; cbn;
      try destruct u; reflexivity.
  - change (ignored_exceptions (self (set_error e s1))) with (ignored_exceptions (self s1)).
    destruct (existsb (instance e) _).
    + destruct (acall code not_awaitable pause (except_code (self (set_error e s1))) _) as [s2 [[|]|e2]];
        cbn [fst snd settle];
        destruct (acall code not_awaitable pause (finally_code (self s2)) s2) as [s3 [b'|e']]; reflexivity.
    + cbn [fst snd settle].
      destruct (acall code not_awaitable pause (finally_code (self (set_error e s1))) _) as [s3 [b'|e']]; reflexivity.
Qed.

(** Which handlers are called, and in which order: the finally code always,
    once and last; before it the else code, if the body raised nothing, or the
    except code, if it raised an exception of one of the ignored classes. *)
Theorem C92_which_handlers_run : forall body s,
  let '(s1, r) := body s in
  fst (with_ code instance body s) =
  match r with
  | Returned _ => [Else; Finally]
  | Raised e =>
      if existsb (instance e) (ignored_exceptions (self s1)) then [Except; Finally] else [Finally]
  end.
Proof.
  intros body s. unfold with_, exit_, is_ignored.
  destruct (body s) as [s1 [u|e]]; cbn.
  - destruct (call code (else_code (self s1)) s1) as [s2 [b|e]]; cbn;
      destruct (call code (finally_code (self s2)) s2) as [s3 [b'|e']]; reflexivity.
  - destruct (existsb (instance e) _); cbn.
    + destruct (call code (except_code (self s1)) _) as [s2 [[|]|e2]]; cbn;
        destruct (call code (finally_code (self s2)) s2) as [s3 [b'|e']]; reflexivity.
    + destruct (call code (finally_code (self s1)) _) as [s3 [b'|e']]; reflexivity.
Qed.

Theorem C92_which_handlers_are_awaited : forall body s s0,
  pause s = (s0, None) ->
  let '(s1, r) := body s0 in
  fst (async_with code instance not_awaitable pause body s) =
  match r with
  | Returned _ => [Else; Finally]
  | Raised e =>
      if existsb (instance e) (ignored_exceptions (self s1)) then [Except; Finally] else [Finally]
  end.
Proof.
  intros body s s0 P. unfold async_with, aexit, is_ignored. rewrite P.
  destruct (body s0) as [s1 [u|e]]; cbn [exception_of].
  - destruct (acall code not_awaitable pause (else_code (self s1)) s1) as [s2 [b|e]]; cbn [fst];
      destruct (acall code not_awaitable pause (finally_code (self s2)) s2) as [s3 [b'|e']]; reflexivity.
  - change (ignored_exceptions (self (set_error e s1))) with (ignored_exceptions (self s1)).
    destruct (existsb (instance e) _).
    + destruct (acall code not_awaitable pause (except_code (self (set_error e s1))) _) as [s2 [[|]|e2]];
        destruct (acall code not_awaitable pause (finally_code (self s2)) s2) as [s3 [b'|e']]; reflexivity.
    + destruct (acall code not_awaitable pause (finally_code (self (set_error e s1))) _) as [s3 [b'|e']]; reflexivity.
Qed.

(** An exception of no ignored class is never swallowed: it comes out, unless
    the finally code, which runs in a state where the exception is noted and
    everything else is as the body left it, raises another one. *)
Theorem C92_foreign_exceptions_come_out : forall body s s1 e s2 r,
  body s = (s1, Raised e) ->
  ~ takes instance (ignored_exceptions (self s1)) e ->
  call code (finally_code (self s1))
    {| self := {| ignored_exceptions := ignored_exceptions (self s1);
                  except_code := except_code (self s1);
                  else_code := else_code (self s1);
                  finally_code := finally_code (self s1);
                  error := Some e |};
       world := world s1 |} = (s2, r) ->
  snd (with_ code instance body s) = (s2, unless_raised r (Raised e)).
Proof.
  intros body s s1 e s2 r B T F. unfold with_, exit_. rewrite B. cbn [exception_of].
  rewrite is_ignored_set, is_ignored_not by assumption.
  cbn in F |- *. unfold set_error. rewrite F. now destruct r.
Qed.

(** An exception of an ignored class is handled by the except code, which finds
    it noted in the relay.  Nothing is raised if the except code returns
    something true and neither it nor the finally code raises. *)
Theorem C92_ignored_exceptions_are_handled : forall body s s1 e s2 r2 s3 r3,
  body s = (s1, Raised e) ->
  takes instance (ignored_exceptions (self s1)) e ->
  call code (except_code (self s1))
    {| self := {| ignored_exceptions := ignored_exceptions (self s1);
                  except_code := except_code (self s1);
                  else_code := else_code (self s1);
                  finally_code := finally_code (self s1);
                  error := Some e |};
       world := world s1 |} = (s2, r2) ->
  call code (finally_code (self s2)) s2 = (s3, r3) ->
  snd (with_ code instance body s) =
  (s3, unless_raised r3
         (match r2 with
          | Returned true => Returned tt
          | Returned false => Raised e
          | Raised e2 => Raised e2
          end)).
Proof.
  intros body s s1 e s2 r2 s3 r3 B T X F. unfold with_, exit_. rewrite B. cbn [exception_of].
  apply is_ignored_takes in T. rewrite is_ignored_set, T.
  cbn in X |- *. unfold set_error. rewrite X, F. destruct r3, r2 as [[|]|]; reflexivity.
Qed.

(** Without handlers the statement swallows what is ignored and nothing else,
    and changes nothing but the relay's error. *)
Theorem C92_without_handlers : forall classes w (body : state W E C -> state W E C * outcome E unit) s1 r,
  body {| self := Ignore classes None None None; world := w |} = (s1, r) ->
  ignored_exceptions (self s1) = classes ->
  except_code (self s1) = Placeholder ->
  else_code (self s1) = Placeholder ->
  finally_code (self s1) = Placeholder ->
  exists s2,
    world s2 = world s1 /\
    ignored_exceptions (self s2) = classes /\
    (forall e, r = Raised e -> error (self s2) = Some e) /\
    (r = Returned tt -> s2 = s1) /\
    ((r = Returned tt \/ (exists e, r = Raised e /\ takes instance classes e)) ->
     snd (with_ code instance body {| self := Ignore classes None None None; world := w |})
     = (s2, Returned tt)) /\
    (forall e, r = Raised e -> ~ takes instance classes e ->
     snd (with_ code instance body {| self := Ignore classes None None None; world := w |})
     = (s2, Raised e)).
Proof.
  intros classes w body s1 r B K X L F.
  exists (match r with Returned _ => s1 | Raised e => set_error e s1 end).
  rewrite C92_with_is_a_try_statement. unfold try_. rewrite B.
  destruct r as [[]|e].
  - split; [reflexivity|]. split; [assumption|]. split; [intros e Q; discriminate|].
    split; [reflexivity|]. split.
    + intros _. unfold drop, call. rewrite L. cbn. now rewrite F.
    + intros e Q. discriminate.
  - split; [reflexivity|]. split; [assumption|]. split; [intros e' Q; now injection Q as ->|].
    split; [discriminate|]. cbn [set_error self except_code].
    rewrite X, K. split.
    + intros [Q|(e' & Q & T)]; [discriminate|]. injection Q as <-.
      assert (existsb (instance e) classes = true) as -> by (apply existsb_exists; exact T).
      cbn. now rewrite F.
    + intros e' Q T. injection Q as <-.
      assert (existsb (instance e) classes = false) as ->.
      { destruct (existsb (instance e) classes) eqn:I; [|reflexivity].
        apply existsb_exists in I. now elim T. }
      cbn. now rewrite F.
Qed.

(** The kinds of handlers must fit the statement: [async with] runs a plain
    function and then raises TypeError, even if the function succeeded. *)
Theorem C92_functions_are_not_awaited : forall f body s s0 s1 e s2 b,
  pause s = (s0, None) ->
  body s0 = (s1, Raised e) ->
  takes instance (ignored_exceptions (self s1)) e ->
  except_code (self s1) = Function f ->
  code f (set_error e s1) = (s2, Returned b) ->
  finally_code (self s2) = Placeholder ->
  snd (pause s2) = None ->
  snd (snd (async_with code instance not_awaitable pause body s)) = Raised not_awaitable.
Proof.
  intros f body s s0 s1 e s2 b P B T X F L P2. unfold async_with, aexit. rewrite P, B.
  cbn [exception_of]. apply is_ignored_takes in T. rewrite is_ignored_set, T.
  cbn [set_error self except_code] in *. rewrite X. cbn [acall].
  cbn in F |- *. unfold set_error in *. rewrite F, L. cbn [acall].
  destruct (pause s2) as [s3 o]. cbn in P2. subst o. reflexivity.
Qed.

(** [async with] and no handlers: the exceptions of the ignored classes are
    dropped, but an exception that is thrown into the task while the relay
    lets other tasks run (a cancellation) comes out, the last of them if there
    are two. *)
Theorem C92_cancellations_come_out : forall body s s0 s1 r s3 o3 s4 o4,
  pause s = (s0, None) ->
  body s0 = (s1, r) ->
  (r = Returned tt \/ exists e, r = Raised e /\ takes instance (ignored_exceptions (self s1)) e) ->
  except_code (self s1) = Placeholder ->
  else_code (self s1) = Placeholder ->
  pause (match r with
         | Returned _ => s1
         | Raised e =>
             {| self := {| ignored_exceptions := ignored_exceptions (self s1);
                           except_code := except_code (self s1);
                           else_code := else_code (self s1);
                           finally_code := finally_code (self s1);
                           error := Some e |};
                world := world s1 |}
         end) = (s3, o3) ->
  finally_code (self s3) = Placeholder ->
  pause s3 = (s4, o4) ->
  snd (async_with code instance not_awaitable pause body s) =
  (s4, match o4, o3 with
       | Some c, _ => Raised c
       | None, Some c => Raised c
       | None, None => Returned tt
       end).
Proof.
  intros body s s0 s1 r s3 o3 s4 o4 P B T X L P3 F P4.
  rewrite C92_async_with_is_a_try_statement, P. unfold try_. rewrite B.
  destruct r as [[]|e].
  - unfold drop. rewrite L. cbn [acall]. rewrite P3.
    destruct o3; cbn; rewrite F; cbn; rewrite P4; destruct o4; reflexivity.
  - destruct T as [T|(e' & Q & T)]; [discriminate|]. injection Q as <-.
    assert (existsb (instance e) (ignored_exceptions (self s1)) = true) as ->
      by (apply existsb_exists; exact T).
    unfold unless, drop. cbn [set_error self except_code]. rewrite X. cbn [acall].
    unfold set_error. rewrite P3.
    destruct o3; cbn; rewrite F; cbn; rewrite P4; destruct o4; reflexivity.
Qed.

End Claims.

(** A plain [with] takes a coroutine function for a handler and never runs it:
    whatever its code would do, and although it would say that the exception
    must be raised, the exception is swallowed. *)
Theorem C92_coroutine_handlers_refuted :
  ~ (forall (code : nat -> state nat nat nat -> state nat nat nat * outcome nat bool)
            instance body s s1 e f,
       body s = (s1, Raised e) ->
       takes instance (ignored_exceptions (self s1)) e ->
       except_code (self s1) = Coroutine f ->
       finally_code (self s1) = Placeholder ->
       snd (code f (set_error e s1)) = Returned false ->
       snd (snd (with_ code instance body s)) = Raised e).
Proof.
  intros H.
  specialize (H (fun _ s => (s, Returned false)) Nat.eqb (fun s => (s, Raised 3%nat))
                {| self := Ignore [3%nat] (Some (Coroutine 0)) None None; world := 0%nat |}
                {| self := Ignore [3%nat] (Some (Coroutine 0)) None None; world := 0%nat |}
                3%nat 0%nat eq_refl).
  assert (takes Nat.eqb [3%nat] 3%nat) as T by (exists 3%nat; split; [now left|reflexivity]).
  specialize (H T eq_refl eq_refl eq_refl). discriminate H.
Qed.

(** A relay that is used again still shows the error of an earlier use when the
    body raises nothing. *)
Theorem C92_error_is_reset_refuted :
  ~ (forall (code : nat -> state nat nat nat -> state nat nat nat * outcome nat bool)
            instance body body' s,
       (forall s, body s = (s, Returned tt)) ->
       error (self s) = None ->
       let s' := fst (snd (with_ code instance body' s)) in
       error (self (fst (snd (with_ code instance body s')))) = None).
Proof.
  intros H.
  specialize (H (fun _ s => (s, Returned false)) Nat.eqb (fun s => (s, Returned tt)) (fun s => (s, Raised 3%nat))
                {| self := Ignore [3%nat] None None None; world := 0%nat |} (fun _ => eq_refl) eq_refl).
  discriminate H.
Qed.

(** A case: the world is a list of notes; the body fails with 3, code 0 writes
    down the error it sees and returns true, code 1 marks the end. *)
Definition notes (f : nat) (s : state (list nat) nat nat)
    : state (list nat) nat nat * outcome nat bool :=
  ({| self := self s;
      world := world s ++ [match f, error (self s) with
                           | O, Some e => e
                           | O, None => 100
                           | S _, _ => 200
                           end]%nat |}, Returned true).

Example C92_case :
  snd (with_ notes Nat.eqb (fun s => ({| self := self s; world := [1%nat] |}, Raised 3%nat))
         {| self := Ignore [2%nat; 3%nat] (Some (Function 0)) (Some (Function 0)) (Some (Function 1));
            world := [] |})
  = ({| self := {| ignored_exceptions := [2%nat; 3%nat]; except_code := Function 0;
                   else_code := Function 0; finally_code := Function 1; error := Some 3%nat |};
        world := [1; 3; 200]%nat |}, Returned tt) /\
  snd (snd (with_ notes Nat.eqb (fun s => (s, Raised 4%nat))
         {| self := Ignore [2%nat; 3%nat] (Some (Function 0)) (Some (Function 0)) (Some (Function 1));
            world := [] |})) = Raised 4%nat /\
  takes Nat.eqb [2%nat; 3%nat] 3%nat /\ ~ takes Nat.eqb [2%nat; 3%nat] 4%nat.
Proof.
  split; [reflexivity|]. split; [reflexivity|]. split.
  - exists 3%nat. split; [now right; left|reflexivity].
  - intros (c & [<-|[<-|[]]] & Q); discriminate Q.
Qed.

(** A task that is cancelled while the relay waits, after an exception that is ignored: the
    cancellation, 7, comes out. *)
Example C92_cancelled_case :
  snd (snd (async_with (E := nat) notes Nat.eqb 9%nat
    (fun s => (s, match error (self s) with Some _ => Some 7%nat | None => None end)) (fun s => (s, Raised 3%nat))
    {| self := Ignore [3%nat] None None None; world := [] |})) = Raised 7%nat.
Proof. reflexivity. Qed.

Example C92_async_case :
  async_with notes Nat.eqb 9%nat (fun s => (s, None)) (fun s => (s, Raised 3%nat))
    {| self := Ignore [3%nat] (Some (Coroutine 0)) None (Some (Coroutine 1)); world := [] |}
  = ([Except; Finally],
     ({| self := {| ignored_exceptions := [3%nat]; except_code := Coroutine 0;
                    else_code := Placeholder; finally_code := Coroutine 1; error := Some 3%nat |};
         world := [3; 200]%nat |}, Returned tt)) /\
  snd (snd (async_with notes Nat.eqb 9%nat (fun s => (s, None)) (fun s => (s, Raised 3%nat))
    {| self := Ignore [3%nat] (Some (Function 0)) None None; world := [] |})) = Raised 9%nat.
Proof. split; reflexivity. Qed.

Print Assumptions C92_with_is_a_try_statement.
Print Assumptions C92_async_with_is_a_try_statement.
Print Assumptions C92_which_handlers_run.
Print Assumptions C92_which_handlers_are_awaited.
Print Assumptions C92_foreign_exceptions_come_out.
Print Assumptions C92_ignored_exceptions_are_handled.
Print Assumptions C92_without_handlers.
Print Assumptions C92_functions_are_not_awaited.
Print Assumptions C92_cancellations_come_out.
Print Assumptions C92_coroutine_handlers_refuted.
Print Assumptions C92_error_is_reset_refuted.
