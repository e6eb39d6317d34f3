(** * IgnoreSpec: what the [with Ignore(...)] statement should be.

    The [try] statement of Python, written over an arbitrary type of states,
    and nothing else. *)

From Verif Require Import Base IgnoreModel.

Section Try.

Context {S E : Type}.

(** A block of code: what it does to the state and how it ends. *)
Definition block := S -> S * outcome E unit.

(** [try: body / except ...: / else: / finally:].  [clause e s] is the except
    clause, if any, that takes the exception [e] in the state [s]. *)
Definition try_ (body : block) (clause : E -> S -> option block) (else_ finally_ : block) : block :=
  fun s =>
    let '(s1, r1) := body s in
    let '(s2, r2) :=
      match r1 with
      | Returned _ => else_ s1
      | Raised e =>
          match clause e s1 with
          | Some handle => handle s1
          | None => (s1, Raised e)
          end
      end in
    let '(s3, r3) := finally_ s2 in
    (s3, match r3 with
         | Returned _ => r2
         | Raised e => Raised e
         end).

(** [relay(...)] as a statement: what is returned is dropped. *)
Definition drop (f : S -> S * outcome E bool) : block :=
  fun s => match f s with
           | (s, Returned _) => (s, Returned tt)
           | (s, Raised e) => (s, Raised e)
           end.

(** [if not f(...): raise], in an except clause that took [e]. *)
Definition unless (f : S -> S * outcome E bool) (e : E) : block :=
  fun s => match f s with
           | (s, Returned true) => (s, Returned tt)
           | (s, Returned false) => (s, Raised e)
           | (s, Raised e') => (s, Raised e')
           end.

End Try.

(** An exception is ignored if it is an instance of one of the classes. *)
Definition takes {E C} (instance : E -> C -> bool) (classes : list C) (e : E) : Prop :=
  exists c, In c classes /\ instance e c = true.

(** What a block ends with when the code of [finally], run after it, ends with
    [r]. *)
Definition unless_raised {E A B} (r : outcome E A) (before : outcome E B) : outcome E B :=
  match r with
  | Returned _ => before
  | Raised e => Raised e
  end.
