(** * C60: batching and resizing. *)
From Verif Require Import Base BaseFacts GentoolsModel GentoolsSpec GentoolsProofs.
Local Open Scope N_scope.

(** C60: batching cuts the data into full pieces, the last one possibly
    shorter; joined together the pieces are the data. *)
Theorem C60_batch_chunks : forall data size,
  0 < size -> chunked size data (batch data size) /\ concat (batch data size) = data.
Proof.
  intros data size H. split; [exact (batch_chunked size data H)|exact (batch_concat size data H)].
Qed.
Print Assumptions C60_batch_chunks.

(** C60: a size of zero yields nothing at all: the data is lost silently. *)
Theorem C60_batch_zero_size : forall data, batch data 0 = [].
Proof. intros data. unfold batch. cbn [batch_loop]. now rewrite take_0. Qed.
Print Assumptions C60_batch_zero_size.

(** C60: resizing does the same for the whole sequence, or for its first
    [blocks] pieces when a number of blocks is given. *)
Theorem C60_resize_chunks : forall (A : Type) (sequence : list A) size blocks out,
  resize sequence size blocks = Ok out ->
  let wanted := match blocks with None => sequence | Some b => take (b * size) sequence end in
  chunked size wanted out /\ concat out = wanted.
Proof.
  intros A s size blocks out H. apply resize_chunked in H as [_ C]. cbv zeta.
  split; [exact C|]. now apply chunked_concat in C.
Qed.
Print Assumptions C60_resize_chunks.

(** C60: resizing fails only for a size or number of blocks of zero. *)
Theorem C60_resize_total : forall (A : Type) (sequence : list A) size blocks,
  (exists out, resize sequence size blocks = Ok out) <-> 0 < size /\ blocks <> Some 0.
Proof.
  intros A s size blocks. unfold resize.
  destruct (N.ltb_spec size 1) as [Hs|Hs].
  - split; [intros [? [=]]|lia].
  - destruct blocks as [b|].
    + destruct (N.ltb_spec b 1) as [Hb|Hb].
      * split; [intros [? [=]]|]. intros [_ Hn]. exfalso. apply Hn. f_equal. lia.
      * split; [|intros _; eexists; reflexivity]. intros _. split; [lia|]. intros [= ->]. lia.
    + split; [|intros _; eexists; reflexivity]. intros _. split; [lia|discriminate].
Qed.
Print Assumptions C60_resize_total.

(** C60: there is exactly one way to cut data into such pieces. *)
Theorem C60_chunks_unique : forall (A : Type) (l : list A) size x y,
  0 < size -> chunked size l x -> chunked size l y -> x = y.
Proof. intros A l size x y. apply chunked_fun. Qed.
Print Assumptions C60_chunks_unique.

(** C60: cycling repeats the elements in order for ever. *)
Theorem C60_cycle_repeats : forall (A : Type) (l : list A) d n i,
  l <> [] -> (i < n)%nat ->
  length (cycle l n) = n /\ nth i (cycle l n) d = nth (i mod length l) l d.
Proof. intros A l d n i Hl Hi. split; [now apply cycle_length|now apply cycle_nth]. Qed.
Print Assumptions C60_cycle_repeats.

(** C60: counters are the successive integers in the requested width. *)
Theorem C60_bytes_count : forall n start size l,
  bytes_count n start size = Ok l ->
  length l = n /\
  forall i x, nth_error l i = Some x -> blen x = size /\ be_int x = start + N.of_nat i.
Proof. exact bytes_count_spec. Qed.
Print Assumptions C60_bytes_count.

Example C60_case :
  batch [x01; x02; x03; x04; x05] 2 = [[x01; x02]; [x03; x04]; [x05]] /\
  resize [x01; x02; x03; x04; x05] 2 (Some 2) = Ok [[x01; x02]; [x03; x04]] /\
  resize [x01; x02; x03] 4 None = Ok [[x01; x02; x03]] /\
  cycle [x01; x02] 5 = [x01; x02; x01; x02; x01] /\
  bytes_count 2 255 2 = Ok [[x00; xff]; [x01; x00]].
Proof.
  split; [vm_compute; reflexivity|]. split; [vm_compute; reflexivity|].
  split; [vm_compute; reflexivity|]. split; vm_compute; reflexivity.
Qed.
