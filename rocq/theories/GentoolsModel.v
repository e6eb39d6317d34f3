(** * Model of aiootp/_gentools.py: chunking generators. *)
From Verif Require Import Base.
Local Open Scope N_scope.

(** _gentools.py 114-147 [batch], 77-111 [abatch]: the list of everything the
    generator yields.  [read(size) or raise_exception(StopIteration)] stops at
    the first empty read.  Every non-empty read consumes at least one byte, so
    [length sequence + 1] rounds are enough. *)
Fixpoint batch_loop (fuel : nat) (size : N) (rem : bytes) : list bytes :=
  match fuel with
  | O => []
  | S fuel' =>
    match take size rem with
    | [] => []
    | chunk => chunk :: batch_loop fuel' size (drop size rem)
    end
  end.
(** _gentools.py 114-147 [batch]. *)
Definition batch (sequence : bytes) (size : N) : list bytes :=
  batch_loop (S (length sequence)) size sequence.

(** Python's [range(start, stop, step)] for naturals and step > 0. As used in _gentools.py
    180-207. *)
Definition py_range (start stop step : N) : list N :=
  map (fun i => start + N.of_nat i * step)
      (seq 0 (N.to_nat (ceil_div (stop - start) step))).

(** _gentools.py 180-207 [resize], 150-177 [aresize]. *)
Definition resize {A} (sequence : list A) (size : N) (blocks : option N)
    : result (list (list A)) :=
  if size <? 1 then Err ValueErr
  else if match blocks with Some b => b <? 1 | None => false end then Err ValueErr
  else
    let length := blen sequence in
    let stop :=
      match blocks with
      | None => length + size
      | Some b => if length <=? b * size then length + size else b * size + 1
      end in
    Ok (map (fun '(previous_end, end_) => slice previous_end end_ sequence)
            (combine (py_range 0 stop size) (py_range size stop size))).

(** _gentools.py 275-285 [cycle], 252-272 [acycle]: the first [n] yielded
    elements.  An empty iterable yields nothing. *)
Definition cycle {A} (iterable : list A) (n : nat) : list A :=
  let fix go (n : nat) (cur : list A) : list A :=
    match n with
    | O => []
    | S n' =>
      match cur with
      | x :: cur' => x :: go n' cur'
      | [] => match iterable with
              | x :: cur' => x :: go n' cur'
              | [] => []
              end
      end
    end in
  go n iterable.

(** _gentools.py 304-316 [bytes_count], 288-301 [abytes_count]: the first [n]
    yields, or the OverflowError of [to_bytes] if it is reached before. *)
Fixpoint bytes_count (n : nat) (index size : N) : result (list bytes) :=
  match n with
  | O => Ok []
  | S n' =>
    x <- to_bytes_be size index ;;
    xs <- bytes_count n' (index + 1) size ;;
    Ok (x :: xs)
  end.
