(** * C90: generators over other iterators give every item once and in order *)
From Coq Require Import Lia.
From Verif Require Import Base BaseFacts IterModel IterSpec IterProofs.

(** Unpacking gives the items of an iterator in their order, and then stops or raises as it
    does; what was not asked for is still in the iterator. *)
Theorem C90_unpack (A : Type) (s : source A) (n : nat) : exists s',
  drive unpack_next n s = (firstn n (items s), if (n <=? length (items s))%nat then Going else ending (fault s), s') /\
  items s' = skipn n (items s).
Proof. apply unpack_drive. Qed.
Print Assumptions C90_unpack.

(** As long as every iterator has items, zipping gives rows: the k-th row has the k-th item of
    each iterator. *)
Theorem C90_azip_rows (A : Type) (l : list (source A)) (n : nat) :
  (forall s, In s l -> n <= length (items s))%nat ->
  exists rows l', drive azip_next n l = (rows, Going, l') /\ length rows = n /\ forall k row, nth_error rows k = Some row -> row_of l k row.
Proof. apply azip_goes. Qed.
Print Assumptions C90_azip_rows.

(** It ends with the first of the shortest iterators, as that one does, after as many rows as
    that one has items.  The iterators in front of that one have then lost one item more than
    there were rows, the others have lost the items of the rows. *)
Theorem C90_azip_ends (A : Type) (l : list (source A)) (n : nat) (j : nat) (s : source A) :
  first_shortest l j s -> (length (items s) < n)%nat ->
  exists rows l', drive azip_next n l = (rows, ending (fault s), l') /\ length rows = length (items s) /\
    (forall k row, nth_error rows k = Some row -> row_of l k row) /\ length l' = length l /\
    (forall i t t', nth_error l i = Some t -> nth_error l' i = Some t' ->
       items t' = skipn (length (items s) + if (i <? j)%nat then 1 else 0) (items t)).
Proof. apply azip_ends. Qed.
Print Assumptions C90_azip_ends.

(** There is a first one of the shortest iterators, unless there are none at all. *)
Theorem C90_some_iterator_is_shortest (A : Type) (l : list (source A)) : l <> [] -> exists j s, first_shortest l j s.
Proof. apply shortest_exists. Qed.
Print Assumptions C90_some_iterator_is_shortest.

(** Zipping no iterators gives empty rows for ever; the function of Python with that name, of
    which this is said to be the asynchronous version, gives none. *)
Theorem C90_azip_of_nothing_ends_refuted (A : Type) (n : nat) :
  drive azip_next n ([] : list (source A)) = (repeat [] n, Going, []).
Proof. induction n as [| n IH]; [reflexivity |]. rewrite drive_S. cbn [azip_next]. now rewrite IH. Qed.
Print Assumptions C90_azip_of_nothing_ends_refuted.

(** Collating gives the items of all iterators, each once, in the order of the iterators and of
    their items, up to the first exception. *)
Theorem C90_collate (A : Type) (l : list (source A)) (n : nat) :
  fst (drive collate_next n l) = (firstn n (fst (in_turn l)), if (n <=? length (fst (in_turn l)))%nat then Going else ending (snd (in_turn l))).
Proof. apply collate_drive. Qed.
Print Assumptions C90_collate.

(** A generator that empties a queue while others append to it: nothing is lost, nothing is
    given twice, the order is kept. *)
Theorem C90_popleft_loses_nothing (A : Type) (q : list A) (es : list (queue_event A)) :
  yielded (popleft_run q es) ++ queue (popleft_run q es) = q ++ appended es.
Proof. apply popleft_all. Qed.
Print Assumptions C90_popleft_loses_nothing.

(** It ends when it finds the queue empty: it has then given all there was, and what is
    appended later stays in the queue. *)
Theorem C90_popleft_ends (A : Type) (q : list A) (es : list (queue_event A)) :
  over (popleft_run q es) = true ->
  exists a b, es = a ++ Next :: b /\ yielded (popleft_run q es) = q ++ appended a /\ queue (popleft_run q es) = appended b.
Proof. apply popleft_over. Qed.
Print Assumptions C90_popleft_ends.

(** Counting gives the numbers from the first one on, for ever. *)
Theorem C90_count (start : Z) (n : nat) :
  drive count_next n start = (map (fun i => start + Z.of_nat i)%Z (seq 0 n), Going, (start + Z.of_nat n)%Z).
Proof. apply count_drive. Qed.
Print Assumptions C90_count.

(** A range has the numbers from [start] on in steps of [step] on this side of [stop], in
    order; it is refused if the step is zero. *)
Theorem C90_range (start stop step : Z) :
  match arange start stop step with
  | Err e => step = 0%Z /\ e = ValueErr
  | Ok l => step <> 0%Z /\
      (forall z, In z l <-> exists i, (0 <= i)%Z /\ z = (start + i * step)%Z /\ ((0 < step)%Z -> (z < stop)%Z) /\ ((step < 0)%Z -> (stop < z)%Z)) /\
      forall k z, nth_error l k = Some z -> z = (start + Z.of_nat k * step)%Z
  end.
Proof.
  destruct (arange start stop step) as [l | e] eqn:E; unfold arange in E.
  - split; [intros ->; discriminate |]. split; [intros z; now apply range_in | intros k z; now apply (range_nth start stop step)].
  - unfold py_range3 in E. destruct (Z.eqb_spec step 0); [| discriminate]. injection E as <-. split; [assumption | reflexivity].
Qed.
Print Assumptions C90_range.

(** A range of bytes has the numbers of the range in the given width, up to the first that is
    negative or does not fit, for which it raises OverflowError. *)
Theorem C90_bytes_range (start stop step : Z) (size : N) (l : list Z) :
  arange start stop step = Ok l ->
  let '(bs, st) := bytes_range start stop step size in
  Forall2 (fun z b => (0 <= z)%Z /\ blen b = size /\ Z.of_N (be_int b) = z) (firstn (length bs) l) bs /\
  match st with
  | Ended => length bs = length l
  | Failed e => e = OverflowErr /\ exists z, nth_error l (length bs) = Some z /\ (z < 0 \/ 256 ^ Z.of_N size <= z)%Z
  | Going => False
  end.
Proof. unfold arange, bytes_range. intros ->. exact (to_bytes_each_ok size l). Qed.
Print Assumptions C90_bytes_range.

Example C90_case :
  let l := [{| items := [1; 2; 3]; fault := None |}; {| items := [4]; fault := Some ValueErr |}; {| items := [5; 6]; fault := None |}]%nat in
  first_shortest l 1 {| items := [4]; fault := Some ValueErr |}%nat /\
  drive azip_next 5 l = ([[1; 4; 5]]%nat, Failed ValueErr, [{| items := [3]; fault := None |}; {| items := []; fault := None |}; {| items := [6]; fault := None |}]%nat) /\
  fst (drive collate_next 9 l) = ([1; 2; 3; 4]%nat, Failed ValueErr) /\
  popleft_run [1; 2]%nat [Next; Append 3%nat; Next; Next; Next; Append 4%nat; Next] = {| queue := [4]; over := true; yielded := [1; 2; 3] |}%nat /\
  arange 10 (-5) (-4) = Ok [10; 6; 2; -2]%Z /\
  bytes_range 254 300 1 1 = ([[xfe]; [xff]], Failed OverflowErr) /\ bytes_range 3 (-9) (-2) 2 = ([[x00; x03]; [x00; x01]], Failed OverflowErr).
Proof.
  cbv zeta. split; [| vm_compute; repeat split].
  split; [reflexivity |]. split.
  - intros i t E. destruct i as [| [| [| [| i]]]]; try discriminate; injection E as <-; cbn; lia.
  - intros i t L E. destruct i as [| [| i]]; try lia. injection E as <-. cbn. lia.
Qed.
