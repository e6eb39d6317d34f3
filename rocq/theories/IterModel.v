(** * Model of the generators of aiootp/_gentools.py that run over other iterators

    210-249 [aunpack], [unpack], [azip]; 319-433 [acount], [count], [abytes_range],
    [bytes_range], [arange], [acollate], [collate], [apopleft], [popleft].  The asynchronous
    versions differ from the others in that they yield to the event loop between two items;
    that matters to [popleft] only, whose queue others can change meanwhile. *)
From Verif Require Import Base.
Local Open Scope Z_scope.

Section Iter.
Context {A : Type}.

(** An iterator: the items it has left, and the exception it raises behind them, if it does not
    just stop.  No counterpart: what a caller passes. *)
Record source := { items : list A; fault : option exn }.
(** What [next] does: an item, StopIteration (or StopAsyncIteration), another exception.
    No counterpart: the protocol of iterators. *)
Inductive pulled (B : Type) := Item (x : B) | Stop | Fault (e : exn).
Arguments Item {B}. Arguments Stop {B}. Arguments Fault {B}.
(** [next] of an iterator; behind an exception a generator stops.  No counterpart: the protocol
    of iterators. *)
Definition pull (s : source) : pulled A * source :=
  match items s with
  | x :: l => (Item x, {| items := l; fault := fault s |})
  | [] => match fault s with
          | Some e => (Fault e, {| items := []; fault := None |})
          | None => (Stop, s)
          end
  end.

(** How a generator stands after some calls of [next].  No counterpart: the protocol of
    iterators. *)
Inductive status := Going | Ended | Failed (e : exn).
(** The first [n] calls of [next] of a generator, given one call: what was yielded, how it stands,
    and its state.  A generator that has ended or failed does nothing more.  No counterpart: the
    protocol of iterators. *)
Fixpoint drive {B T} (next : T -> pulled B * T) (n : nat) (x : T) : list B * status * T :=
  match n with
  | O => ([], Going, x)
  | S n =>
    match next x with
    | (Item v, x) => let '(l, st, x) := drive next n x in (v :: l, st, x)
    | (Stop, x) => ([], Ended, x)
    | (Fault e, x) => ([], Failed e, x)
    end
  end.

(** _gentools.py 227-234 [unpack], 210-224 [aunpack]. *)
Definition unpack_next : source -> pulled A * source := pull.
(** _gentools.py 237-249 [azip], the list in 246: one item of each, from left to right, until one
    has none. *)
Fixpoint azip_next (l : list source) : pulled (list A) * list source :=
  match l with
  | [] => (Item [], [])
  | s :: l =>
    match unpack_next s with
    | (Item x, s) =>
      match azip_next l with
      | (Item row, l) => (Item (x :: row), s :: l)
      | (Stop, l) => (Stop, s :: l)
      | (Fault e, l) => (Fault e, s :: l)
      end
    | (Stop, s) => (Stop, s :: l)
    | (Fault e, s) => (Fault e, s :: l)
    end
  end.
(** _gentools.py 397-405 [collate], 380-394 [acollate]: the iterables that are left. *)
Fixpoint collate_next (l : list source) : pulled A * list source :=
  match l with
  | [] => (Stop, [])
  | s :: l =>
    match pull s with
    | (Item x, s) => (Item x, s :: l)
    | (Stop, _) => collate_next l
    | (Fault e, s) => (Fault e, s :: l)
    end
  end.

(** _gentools.py 424-433 [popleft], 408-421 [apopleft]: [next] of the generator, and somebody's
    [queue.append]. *)
Inductive queue_event := Next | Append (x : A).
(** The queue, whether the generator has ended, and what it has yielded.  _gentools.py 424-433. *)
Record popping := { queue : list A; over : bool; yielded : list A }.
(** _gentools.py 424-433 [popleft]. *)
Definition popleft_step (p : popping) (e : queue_event) : popping :=
  match e with
  | Append x => {| queue := queue p ++ [x]; over := over p; yielded := yielded p |}
  | Next =>
    if over p then p
    else match queue p with
         | x :: q => {| queue := q; over := false; yielded := yielded p ++ [x] |}
         | [] => {| queue := []; over := true; yielded := yielded p |}
         end
  end.
(** _gentools.py 424-433 [popleft]: a generator over a queue, and what happens to both. *)
Definition popleft_run (q : list A) (es : list queue_event) : popping :=
  fold_left popleft_step es {| queue := q; over := false; yielded := [] |}.
End Iter.
Arguments source : clear implicits. Arguments pulled : clear implicits. Arguments queue_event : clear implicits. Arguments popping : clear implicits.
Arguments Item {B}. Arguments Stop {B}. Arguments Fault {B}.

(** _gentools.py 332-341 [count], 319-329 [acount]: the state is [index]. *)
Definition count_next (index : Z) : pulled Z * Z := (Item index, index + 1).

(** Python's [range(start, stop, step)], as used in _gentools.py 354, 367, 375. *)
Definition py_range3 (start stop step : Z) : result (list Z) :=
  if step =? 0 then Err ValueErr
  else
    let n := if 0 <? step then (stop - start + step - 1) / step else (start - stop - step - 1) / (- step) in
    Ok (map (fun i => start + Z.of_nat i * step) (seq 0 (Z.to_nat n))).
(** _gentools.py 371-377 [arange]. *)
Definition arange (start stop step : Z) : result (list Z) := py_range3 start stop step.
(** _gentools.py 358-368 [bytes_range], 344-355 [abytes_range], big-endian: what is yielded before the
    end or the first exception, which [to_bytes] raises. *)
Fixpoint to_bytes_each (size : N) (l : list Z) : list bytes * status :=
  match l with
  | [] => ([], Ended)
  | z :: l =>
    if z <? 0 then ([], Failed OverflowErr)
    else match to_bytes_be size (Z.to_N z) with
         | Err e => ([], Failed e)
         | Ok b => let '(bs, st) := to_bytes_each size l in (b :: bs, st)
         end
  end.
(** _gentools.py 358-368 [bytes_range], 344-355 [abytes_range]. *)
Definition bytes_range (start stop step : Z) (size : N) : list bytes * status :=
  match py_range3 start stop step with
  | Err e => ([], Failed e)
  | Ok l => to_bytes_each size l
  end.
