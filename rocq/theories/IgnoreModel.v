(** * IgnoreModel: the context manager that handles exceptions,
    [aiootp/_exceptions.py], class [Ignore].

    The relay that the [with] statement hands to its body is an object whose
    attributes the body and the handlers may change.  Handlers are therefore
    names of code: [code f s] is what a run of the code [f] does in the state
    [s], which holds the relay and the rest of the world. *)

From Verif Require Import Base.

Section Ignore.

(** No counterpart: [W] is the world, [E] are exception objects and [C] are
    classes of exceptions. *)
Context {W E C : Type}.

(** What a piece of code ends with: a value or an exception.
    No counterpart: Python's control flow. *)
Inductive outcome (A : Type) :=
| Returned (a : A)
| Raised (e : E).
Arguments Returned {A} a.
Arguments Raised {A} e.

(** aiootp/_exceptions.py:147-160, [_PlaceholderHandler], and the two kinds of
    callables a user can hand over: functions and coroutine functions
    (lines 130-134).  A function that returns an awaitable object without doing
    anything else is of the second kind; callables that do both are not
    modelled. *)
Inductive handler :=
| Placeholder
| Function (f : nat)
| Coroutine (f : nat).

(** aiootp/_exceptions.py:137-145, the slots of [Ignore].  [bus] belongs to the
    world, and [traceback], which is assigned together with [error], is left
    out.  Items of [ignored_exceptions] which are not classes are not
    modelled. *)
Record relay := {
  ignored_exceptions : list C;
  except_code : handler;
  else_code : handler;
  finally_code : handler;
  error : option E
}.

(** No counterpart: the relay and everything else that code can see. *)
Record state := { self : relay; world : W }.

(** [code f s]: what the user's code [f], called with the relay, does.  The
    boolean is the truth value of what it returns.
    No counterpart: the user's code. *)
Variable code : nat -> state -> state * outcome bool.

(** No counterpart: [isinstance(e, c)], which [issubclass(type(e), c)] says. *)
Variable instance : E -> C -> bool.

(** No counterpart: the TypeError of awaiting an object that is not
    awaitable. *)
Variable not_awaitable : E.

(** No counterpart: what other tasks do while a task lets them run once, and
    the exception, if any, which is thrown into the task then (a
    cancellation). *)
Variable pause : state -> state * option E.

(** aiootp/_exceptions.py:172-174, [Ignore.__init__]: [None] handlers are
    replaced by the placeholder. *)
Definition or_placeholder (h : option handler) : handler :=
  match h with
  | Some h => h
  | None => Placeholder
  end.

(** aiootp/_exceptions.py:162-177, [Ignore.__init__]. *)
Definition Ignore (exceptions : list C) (if_except if_else finally_run : option handler) : relay :=
  {| ignored_exceptions := exceptions;
     except_code := or_placeholder if_except;
     else_code := or_placeholder if_else;
     finally_code := or_placeholder finally_run;
     error := None |}.

(** aiootp/_exceptions.py:213 and 240, [self.error = exc_value]. *)
Definition set_error (e : E) (s : state) : state :=
  {| self := {| ignored_exceptions := ignored_exceptions (self s);
                except_code := except_code (self s);
                else_code := else_code (self s);
                finally_code := finally_code (self s);
                error := Some e |};
     world := world s |}.

(** aiootp/_exceptions.py:215 and 242, [issubclass(exc_type,
    self.ignored_exceptions)]. *)
Definition is_ignored (e : E) (s : state) : bool :=
  existsb (instance e) (ignored_exceptions (self s)).

(** aiootp/_exceptions.py:238, 243 and 247, [self.<handler>(self)]: a
    placeholder returns itself, which is true (lines 156-160); calling a
    coroutine function only makes a coroutine, which is true. *)
Definition call (h : handler) (s : state) : state * outcome bool :=
  match h with
  | Placeholder => (s, Returned true)
  | Function f => code f s
  | Coroutine _ => (s, Returned true)
  end.

(** aiootp/_exceptions.py:211, 216 and 220, [await self.<handler>(self)]: a
    placeholder lets other tasks run once (lines 152-154); what a function
    returns cannot be awaited. *)
Definition acall (h : handler) (s : state) : state * outcome bool :=
  match h with
  | Placeholder =>
      match pause s with
      | (s, None) => (s, Returned true)
      | (s, Some e) => (s, Raised e)
      end
  | Function f =>
      match code f s with
      | (s, Returned _) => (s, Raised not_awaitable)
      | (s, Raised e) => (s, Raised e)
      end
  | Coroutine f => code f s
  end.

(** No counterpart: which of the three handlers is called.  The functions that
    follow also return the calls they make, in order. *)
Inductive role := Except | Else | Finally.

(** aiootp/_exceptions.py:222-247, [Ignore.__exit__].  [exc_value] is [None] when
    the body raised nothing.  The value is the truth of what is returned:
    [None], which is false, if no exception was raised. *)
Definition exit_ (exc_value : option E) (s : state) : list role * (state * outcome bool) :=
  let '(calls, (s, r)) :=
    match exc_value with
    | None =>
        ([Else],
         match call (else_code (self s)) s with
         | (s, Returned _) => (s, Returned false)
         | (s, Raised e) => (s, Raised e)
         end)
    | Some e =>
        let s := set_error e s in
        if is_ignored e s
        then ([Except], call (except_code (self s)) s)
        else ([], (s, Raised e))
    end in
  match call (finally_code (self s)) s with
  | (s, Returned _) => (calls ++ [Finally], (s, r))
  | (s, Raised e) => (calls ++ [Finally], (s, Raised e))
  end.

(** aiootp/_exceptions.py:195-220, [Ignore.__aexit__]. *)
Definition aexit (exc_value : option E) (s : state) : list role * (state * outcome bool) :=
  let '(calls, (s, r)) :=
    match exc_value with
    | None =>
        ([Else],
         match acall (else_code (self s)) s with
         | (s, Returned _) => (s, Returned false)
         | (s, Raised e) => (s, Raised e)
         end)
    | Some e =>
        let s := set_error e s in
        if is_ignored e s
        then ([Except], acall (except_code (self s)) s)
        else ([], (s, Raised e))
    end in
  match acall (finally_code (self s)) s with
  | (s, Returned _) => (calls ++ [Finally], (s, r))
  | (s, Raised e) => (calls ++ [Finally], (s, Raised e))
  end.

(** What Python makes of the answer of [__exit__]: the exception of the body,
    if there is one, goes on unless the answer is true.
    No counterpart: the [with] statement of the language. *)
Definition settle (exc_value : option E) (r : outcome bool) : outcome unit :=
  match r, exc_value with
  | Raised e, _ => Raised e
  | Returned _, None => Returned tt
  | Returned true, Some _ => Returned tt
  | Returned false, Some e => Raised e
  end.

(** No counterpart: the exception that Python hands to [__exit__]. *)
Definition exception_of {A} (r : outcome A) : option E :=
  match r with
  | Returned _ => None
  | Raised e => Some e
  end.

(** [with relay: body], aiootp/_exceptions.py:189-193, [Ignore.__enter__], which
    does nothing, and lines 222-247. *)
Definition with_ (body : state -> state * outcome unit) (s : state)
    : list role * (state * outcome unit) :=
  let '(s, r) := body s in
  let '(calls, (s, x)) := exit_ (exception_of r) s in
  (calls, (s, settle (exception_of r) x)).

(** [async with relay: body], aiootp/_exceptions.py:182-187,
    [Ignore.__aenter__], which lets other tasks run once, and lines 195-220. *)
Definition async_with (body : state -> state * outcome unit) (s : state)
    : list role * (state * outcome unit) :=
  match pause s with
  | (s, Some e) => ([], (s, Raised e))
  | (s, None) =>
      let '(s, r) := body s in
      let '(calls, (s, x)) := aexit (exception_of r) s in
      (calls, (s, settle (exception_of r) x))
  end.

End Ignore.

Arguments outcome : clear implicits.
Arguments relay : clear implicits.
Arguments state : clear implicits.
Arguments Returned {E A} a.
Arguments Raised {E A} e.
