(** * Claim C95: reading, writing and appending files *)
From Coq Require Import ZArith Lia.
From Verif Require Import Base FileModel FileSpec FileProofs.

(** Whatever the operating system and other calls do, a path that nobody writes or appends to
    stays as it is; reading changes nothing. *)
Theorem C95_reading_changes_nothing : forall cs d es p,
  (forall c, In c cs -> ~ changes c p) -> snd (serve_all (calls cs, d) es) p = d p.
Proof. intros cs d es p H. apply untouched_all, H. Qed.
Print Assumptions C95_reading_changes_nothing.

(** At every moment, and so wherever the program is killed, a path that one call writes holds
    what it held or how the data begin, maybe nothing; it holds the data when the call has
    returned. The call raises only an error of the operating system. *)
Theorem C95_write : forall cs d es ts d' i p data,
  nth_error cs i = Some (Write p data) -> only i cs p ->
  serve_all (calls cs, d) es = (ts, d') ->
  (d' p = d p \/ exists part, d' p = Some part /\ begins part data) /\
  (forall r, nth_error ts i = Some (Back (Ok r)) -> d' p = Some data) /\
  (forall e, nth_error ts i = Some (Back (Err e)) -> In (i, Refuse) es).
Proof.
  intros cs d es ts d' i p data N O R.
  pose proof (one_writes_all d p data i cs es N O) as ((s & Ns & W) & _). rewrite R in Ns, W. cbn in Ns, W.
  split; [exact (writes_partly _ _ _ _ _ W)|]. split.
  - intros r H. rewrite H in Ns. injection Ns as <-. exact W.
  - intros e H. rewrite H in Ns. injection Ns as <-. destruct W as (-> & _). apply (refused_only cs d es i). rewrite R. exact H.
Qed.
Print Assumptions C95_write.

(** Calls that append to the same file at the same time lose nothing: at every moment the file
    is what it was, followed by bytes of which each is one of somebody's, in their order: what a
    call has put there is how its data begin, and all of them when it has returned. *)
Theorem C95_append : forall cs d es ts d' p,
  appended cs p -> serve_all (calls cs, d) es = (ts, d') ->
  exists owners l, contents d' p = contents d p ++ l /\ length owners = length l /\
    (forall i, In i owners -> exists data, nth_error cs i = Some (Append p data)) /\
    (forall i data, nth_error cs i = Some (Append p data) -> begins (share i owners l) data) /\
    (forall i data r, nth_error cs i = Some (Append p data) -> nth_error ts i = Some (Back (Ok r)) -> share i owners l = data) /\
    (forall i data e, nth_error cs i = Some (Append p data) -> nth_error ts i = Some (Back (Err e)) -> In (i, Refuse) es).
Proof.
  intros cs d es ts d' p H R. destruct (merged_all d p cs es H) as (owners & l & E & L & A & O & _ & _).
  rewrite R in E, A. cbn in E, A. exists owners, l. split; [exact E|]. split; [exact L|].
  assert (Ap : forall i data, nth_error cs i = Some (Append p data) -> exists s, nth_error ts i = Some s /\
    match s with
    | Before c' => c' = Append p data /\ share i owners l = []
    | Appending q' rest => q' = p /\ rest <> [] /\ data = share i owners l ++ rest
    | Back (Ok _) => share i owners l = data
    | Back (Err e) => e = OtherErr /\ begins (share i owners l) data
    | _ => False
    end).
  { intros i data N. destruct (A _ _ N) as (s & Ns & W). exists s. split; [exact Ns|]. cbn in W. rewrite Nat.eqb_refl in W. exact W. }
  split; [|split; [|split]].
  - intros i Hi. destruct (nth_error cs i) as [c|] eqn:N; [|exfalso; exact (O _ Hi N)].
    destruct (A _ _ N) as (s & _ & W).
    assert (Nn : share i owners l <> []).
    { clear - Hi L. revert l L. induction owners as [|o owners IH]; intros [|x l] L; cbn in *; try discriminate; [contradiction|].
      destruct (Nat.eqb_spec o i) as [->|F]; [discriminate|]. destruct Hi as [Hi|Hi]; [contradiction|]. apply IH; [exact Hi|lia]. }
    destruct c as [q z|q data|q data]; cbn in W; try (destruct W; contradiction).
    destruct (Nat.eqb_spec q p) as [->|F]; [eauto|destruct W; contradiction].
  - intros i data N. destruct (Ap _ _ N) as (s & _ & W). destruct s as [c'| | |q rest|[r|e]]; try contradiction.
    + destruct W as (_ & ->). exists data. reflexivity.
    + destruct W as (_ & _ & W). exists rest. exact W.
    + exists []. rewrite app_nil_r. symmetry. exact W.
    + apply W.
  - intros i data r N B. destruct (Ap _ _ N) as (s & Ns & W). rewrite B in Ns. injection Ns as <-. exact W.
  - intros i data e N B. destruct (Ap _ _ N) as (s & Ns & W). rewrite B in Ns. injection Ns as <-. destruct W as (-> & _).
    apply (refused_only cs d es i). rewrite R. exact B.
Qed.
Print Assumptions C95_append.

(** If the operating system takes everything it is given at once, nobody's data are torn: the
    file is what it was, followed by the data of the calls that have returned, in some order. *)
Theorem C95_whole_appends : forall cs d es ts d' p,
  appended cs p -> whole cs es -> serve_all (calls cs, d) es = (ts, d') ->
  exists order, NoDup order /\ contents d' p = contents d p ++ concat (map (piece_of cs p) order) /\
    forall i, In i order <-> exists data r, nth_error cs i = Some (Append p data) /\ nth_error ts i = Some (Back (Ok r)).
Proof.
  intros cs d es ts d' p H Wh R. destruct (in_order_all d p cs es H Wh) as (order & Nd & Lo & E & B & A).
  rewrite R in E, A, B. cbn in E, A, B. exists order. split; [exact Nd|]. split; [exact E|].
  destruct (merged_all d p cs es H) as (owners & l & _ & _ & Am & _). rewrite R in Am. cbn in Am.
  assert (Fine : forall i data r, nth_error cs i = Some (Append p data) -> nth_error ts i = Some (Back r) -> exists x, r = Ok x).
  { intros i data [x|e] N Ns; [eauto|]. exfalso. destruct (Am _ _ N) as (s & Ns' & W). rewrite Ns in Ns'. injection Ns' as <-.
    cbn in W. rewrite Nat.eqb_refl in W. destruct W as (-> & _).
    assert (X : In (i, Refuse) es) by (apply (refused_only cs d es i); rewrite R; exact Ns).
    destruct (Wh _ X) as (n & T & _). discriminate. }
  intros i. split.
  - intros Hi. destruct (nth_error cs i) as [c|] eqn:N.
    + destruct (A _ _ N) as (s & Ns & W). destruct c as [q z|q data|q data]; try (destruct W; contradiction).
      destruct (Nat.eqb_spec q p) as [->|F]; [|destruct W; contradiction].
      destruct W as (Io & _). apply Io in Hi as (r & ->). destruct (Fine _ _ _ N Ns) as (x & ->). eauto.
    + exfalso. exact (Lo _ Hi N).
  - intros (data & r & N & Ns). destruct (A _ _ N) as (s & Ns' & W). rewrite Ns in Ns'. injection Ns' as <-. rewrite Nat.eqb_refl in W.
    apply W. eauto.
Qed.
Print Assumptions C95_whole_appends.

(** Who reads while others append gets how the file begins at the end of the history, with at least what it held
    at first: all of it, or the first [size] bytes. *)
Theorem C95_read : forall cs d es ts d' i p size,
  nth_error cs i = Some (Read p size) -> appended cs p ->
  serve_all (calls cs, d) es = (ts, d') ->
  (forall got, nth_error ts i = Some (Back (Ok got)) ->
     begins got (contents d' p) /\
     (size = (-1)%Z -> begins (contents d p) got) /\
     (size <> (-1)%Z -> (0 <= size)%Z /\ length got <= Z.to_nat size /\ (length got = Z.to_nat size \/ begins (contents d p) got))) /\
  (forall e, nth_error ts i = Some (Back (Err e)) ->
     e = FileNotFoundErr /\ d p = None \/ e = ValueErr /\ (size < -1)%Z \/ In (i, Refuse) es).
Proof.
  intros cs d es ts d' i p size N A R.
  pose proof (one_reads_all d p size cs i es N A) as (_ & s & Ns & W). rewrite R in Ns, W. cbn in Ns, W. split.
  - intros got H. rewrite H in Ns. injection Ns as <-. cbn in W. destruct W as (Bg & W). split; [exact Bg|].
    destruct (Z.eqb_spec size (-1)); split; intros; try contradiction; assumption.
  - intros e H. rewrite H in Ns. injection Ns as <-. cbn in W. destruct W as [W|[W| ->]]; auto.
    right. right. apply (refused_only cs d es i). rewrite R. exact H.
Qed.
Print Assumptions C95_read.

(** If nobody writes, it gets all of the file or its first [size] bytes, and an error if
    there is no file or the size is below -1. *)
Theorem C95_quiet_read : forall cs d es ts d' i p size r,
  nth_error cs i = Some (Read p size) -> (forall c, In c cs -> ~ changes c p) ->
  serve_all (calls cs, d) es = (ts, d') -> nth_error ts i = Some (Back r) -> ~ In (i, Refuse) es ->
  r = match d p with
      | None => Err FileNotFoundErr
      | Some l => if (size <? -1)%Z then Err ValueErr else Ok (wanted size l)
      end.
Proof.
  intros cs d es ts d' i p size r N Q R B F.
  apply (one_quiet_read cs d es i p size r N Q); [rewrite R; exact B|exact F].
Qed.
Print Assumptions C95_quiet_read.

(** Calls come back: those that write, when they have been served once more than they have bytes; those that read,
    if nobody writes, when they have been served twice more than the file has bytes. *)
Theorem C95_calls_come_back : forall cs d es i c,
  nth_error cs i = Some c ->
  match c with
  | Write _ data | Append _ data => S (length data) <= served i es
  | Read p _ => (forall c, In c cs -> ~ changes c p) /\ 2 + length (contents d p) <= served i es
  end ->
  exists r, nth_error (fst (serve_all (calls cs, d) es)) i = Some (Back r).
Proof.
  intros cs d es i c N L. pose proof (calls_nth _ _ _ N) as Nb. destruct c as [p z|p l|p l].
  - destruct L as (Q & L). apply (readers_come_back p d es (calls cs, d) i _ (untouched_start d p cs Q) Nb); [exists z; reflexivity|exact L].
  - apply (writers_come_back es (calls cs, d) i _ Nb); [exact I|exact L].
  - apply (writers_come_back es (calls cs, d) i _ Nb); [exact I|exact L].
Qed.
Print Assumptions C95_calls_come_back.

(** Not so: who reads a file while it is written gets what it held or what is written. *)
Theorem C95_torn_reads_refuted : ~ (forall p old data es ts d' got,
  serve_all (calls [Write p data; Read p (-1)], fun _ => Some old) es = (ts, d') ->
  nth_error ts 1 = Some (Back (Ok got)) -> got = old \/ got = data).
Proof.
  intros H.
  destruct (H 0 [x01] [x02; x03] [(0, Transfer 0); (0, Transfer 0); (1, Transfer 0); (1, Transfer 5); (1, Transfer 5)]
    _ _ [x02] eq_refl eq_refl); discriminate.
Qed.
Print Assumptions C95_torn_reads_refuted.

(** Nor: when two calls have written the same file, it holds what one of them wrote. *)
Theorem C95_mixed_writes_refuted : ~ (forall p a b es d d' r r',
  serve_all (calls [Write p a; Write p b], d) es = ([Back (Ok r); Back (Ok r')], d') ->
  d' p = Some a \/ d' p = Some b).
Proof.
  intros H.
  destruct (H 0 [x01; x02] [x03] [(0, Transfer 0); (1, Transfer 0); (0, Transfer 5); (1, Transfer 5)] (fun _ => None)
    _ [] [] eq_refl); discriminate.
Qed.
Print Assumptions C95_mixed_writes_refuted.

(** Nor: a call that fails leaves the file as it was. *)
Theorem C95_failed_writes_refuted : ~ (forall p data d es e d',
  serve_all (calls [Write p data], d) es = ([Back (Err e)], d') -> d' p = d p).
Proof.
  intros H.
  specialize (H 0 [x01; x02] (fun _ => Some [x03]) [(0, Transfer 0); (0, Transfer 0); (0, Refuse)] OtherErr _ eq_refl).
  discriminate.
Qed.
Print Assumptions C95_failed_writes_refuted.

(** A case: two calls append, one reads and one writes another file. *)
Definition four_calls : list call :=
  [Append 0 [x01; x02]; Append 0 [x03; x04]; Read 0 (-1); Write 1 [x05]].
Definition some_serving : list (nat * answer) :=
  [(0, Transfer 0); (1, Transfer 0); (0, Transfer 0); (3, Transfer 0); (1, Transfer 1); (2, Transfer 0); (2, Transfer 9);
   (3, Transfer 0); (0, Transfer 0); (2, Transfer 0); (2, Transfer 0)].
Example C95_case :
  appended four_calls 0 /\ only 3 four_calls 1 /\
  let '(ts, d) := serve_all (calls four_calls, fun p => if Nat.eqb p 0 then Some [x00] else None) some_serving in
  ts = [Back (Ok []); Back (Ok []); Back (Ok [x00; x01; x03; x04; x02]); Back (Ok [])] /\
  d 0 = Some [x00; x01; x03; x04; x02] /\ d 1 = Some [x05] /\ d 2 = None.
Proof.
  split; [|split].
  - intros [|[|[|[|[|j]]]]] c; cbn; intros N Ch; try discriminate N; injection N as <-; cbn in Ch; try contradiction; eauto; discriminate.
  - intros [|[|[|[|[|j]]]]] c; cbn; intros N Ch; try discriminate N; injection N as <-; cbn in Ch; try contradiction; try discriminate; reflexivity.
  - cbn. auto.
Qed.
Example C95_whole_case :
  whole four_calls [(0, Transfer 7); (1, Transfer 7); (1, Transfer 7); (0, Transfer 7)] /\
  let '(ts, d) := serve_all (calls four_calls, fun _ => None) [(0, Transfer 7); (1, Transfer 7); (1, Transfer 7); (0, Transfer 7)] in
  d 0 = Some (concat (map (piece_of four_calls 0) [1; 0])).
Proof.
  split; [|reflexivity]. intros e [<-|[<-|[<-|[<-|[]]]]]; exists 7; (split; [reflexivity|]); intros p data [E|[E|[E|[E|[]]]]];
    try discriminate E; injection E as <- <-; cbn; lia.
Qed.
Example C95_quiet_case :
  fst (serve_all (calls [Read 0 2; Read 0 0; Read 0 (-1); Read 0 (-2); Read 1 5], fun p => if Nat.eqb p 0 then Some [x01; x02; x03] else None)
    (concat (map (fun i => repeat (i, Transfer 0) 6) [0; 1; 2; 3; 4])))
  = [Back (Ok [x01; x02]); Back (Ok []); Back (Ok [x01; x02; x03]); Back (Err ValueErr); Back (Err FileNotFoundErr)].
Proof. reflexivity. Qed.
