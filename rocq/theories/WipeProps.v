(** * C91: deleting a database that is in use *)
From Coq Require Import Lia.
From Verif Require Import Base BaseFacts WipeModel WipeSpec WipeProofs.

(** C91: a task deletes a database while others set, query and save tags.  However they are
    interleaved: a deletion that ends well has deleted the manifest and every file, except files
    of tags which another task saves, and the object is unusable.  If there was no other task,
    nothing is left in memory either. *)
Theorem C91_what_a_deletion_leaves : forall V b ts d es, alive V b = true -> complete b -> ready ts d ->
  let y := run V es {| data := b; tasks := ts |} in
  nth_error (tasks V y) d = Some (Done V (Nothing V)) ->
  root V (data V y) = false /\ alive V (data V y) = false /\
  (forall n, files V (data V y) n <> None -> saves ts n) /\
  (ts = [Wipe0 V] -> manifest V (data V y) = [] /\ forall n, cache V (data V y) n = None).
Proof.
  intros V b ts d es A C R y Q. destruct (inv_run V b ts d A es _ (inv_start V b ts d A C R)) as (_ & (t & Qt & St) & _). fold y in Qt, St.
  assert (t = Done V (Nothing V)) by congruence. subst t. cbn in St. destruct St as (B1 & B2 & B3 & B4). split; [exact B2|]. split; [exact B1|]. split.
  - intros n N. destruct (B3 n N) as [[]|K]. exact K.
  - intros ->. apply B4. destruct R as [R _]. intros i I. destruct i as [|i]; [|now destruct i]. destruct d as [|d]; [reflexivity|now destruct d].
Qed.
Print Assumptions C91_what_a_deletion_leaves.

(** C91: it ends well unless another task sets a tag that the database did not have; it then may
    raise RuntimeError, but nothing else. *)
Theorem C91_how_a_deletion_ends : forall V b ts d es r, alive V b = true -> complete b -> ready ts d ->
  nth_error (tasks V (run V es {| data := b; tasks := ts |})) d = Some (Done V r) ->
  r = Nothing V \/ r = Raised V RuntimeErr /\ exists n, adds b ts n.
Proof.
  intros V b ts d es r A C R Q. destruct (inv_run V b ts d A es _ (inv_start V b ts d A C R)) as (_ & (t & Qt & St) & _).
  assert (t = Done V r) by congruence. subst t. cbn in St. destruct r; try contradiction; [now left|]. destruct St as (-> & K). now right.
Qed.
Print Assumptions C91_how_a_deletion_ends.

(** C91: so if the others only query tags and set tags that the database has, nothing is left. *)
Theorem C91_nothing_is_left : forall V b ts d es r, alive V b = true -> complete b -> ready ts d ->
  (forall n, ~ saves ts n) -> (forall n, ~ adds b ts n) ->
  let y := run V es {| data := b; tasks := ts |} in
  nth_error (tasks V y) d = Some (Done V r) ->
  r = Nothing V /\ root V (data V y) = false /\ forall n, files V (data V y) n = None.
Proof.
  intros V b ts d es r A C R NS NA y Q.
  destruct (C91_how_a_deletion_ends V b ts d es r A C R Q) as [->|(_ & n & K)]; [|exfalso; now apply (NA n)].
  destruct (C91_what_a_deletion_leaves V b ts d es A C R Q) as (B1 & _ & B3 & _). split; [reflexivity|]. split; [exact B1|].
  intros n. fold y in B3. destruct (files V (data V y) n) eqn:E; [|reflexivity]. exfalso. apply (NS n), B3. congruence.
Qed.
Print Assumptions C91_nothing_is_left.

(** C91: a deletion ends when it is given enough turns. *)
Theorem C91_can_end : forall V b ts d es, alive V b = true -> complete b -> ready ts d ->
  exists k r, nth_error (tasks V (run V (es ++ repeat d k) {| data := b; tasks := ts |})) d = Some (Done V r).
Proof.
  intros V b ts d es A C R. pose proof (inv_run V b ts d A es _ (inv_start V b ts d A C R)) as I. pose proof I as (_ & (t & Qt & St) & _).
  exists (rank V (data V (run V es {| data := b; tasks := ts |})) t). unfold run. rewrite fold_left_app.
  apply (ends V b ts d A _ _ t I Qt). apply le_n.
Qed.
Print Assumptions C91_can_end.

(** C91: the other calls return what they should or raise: a query gives a value that the tag has
    had, or does not find it, or finds the database gone. *)
Theorem C91_answers : forall V b ts d es i t r, alive V b = true -> complete b -> ready ts d ->
  i <> d -> nth_error ts i = Some t -> nth_error (tasks V (run V es {| data := b; tasks := ts |})) i = Some (Done V r) ->
  answer b ts t r.
Proof.
  intros V b ts d es i t r A C R N E Q. destruct (inv_run V b ts d A es _ (inv_start V b ts d A C R)) as (_ & _ & Ot & _).
  destruct (Ot i t N E) as (u & Qu & F). assert (u = Done V r) by congruence. subst u.
  destruct R as [_ R]. destruct (R i t N E) as [(n & v & ->)|[(n & s & k & ->)|(n & p & ->)]]; cbn [fits] in F.
  - destruct F as [F|[F|(q & F & An)]]; try discriminate. now injection F as ->.
  - destruct F as [F|[F|[F|[(v & [F|F] & _)|(q & F & An)]]]]; try discriminate. now injection F as ->.
  - destruct F as [F|[F|[(v & [F|F] & _)|[F|(q & F & An)]]]]; try discriminate. now injection F as ->.
Qed.
Print Assumptions C91_answers.

(** C91: a database that was deleted refuses every call, and nothing changes. *)
Theorem C91_deleted_databases_refuse : forall V b t, alive V b = false ->
  (exists n v, t = Set0 V n v) \/ (exists n s k, t = Query0 V n s k) \/ (exists n p, t = Save0 V n p) \/ t = Wipe0 V ->
  step V t b = (Done V (Raised V AttributeErr), b).
Proof. intros V b t A [(n & v & ->)|[(n & s & k & ->)|[(n & p & ->)| ->]]]; cbn; now rewrite A. Qed.
Print Assumptions C91_deleted_databases_refuse.

(** C91: and no file appears any more, unless one is being written at the moment when the object
    becomes unusable. *)
Theorem C91_no_file_appears_later : forall V y es, alive V (data V y) = false ->
  (forall n drop v, ~ In (Save3 V n drop v) (tasks V y)) ->
  forall n, files V (data V (run V es y)) n <> None -> files V (data V y) n <> None.
Proof. intros V y es. apply dead_run. Qed.
Print Assumptions C91_no_file_appears_later.

(** The database of the examples: tags 5 and 6 on disk, the entries 0 and 1 of the manifest. *)
Definition two_files : base bool :=
  {| manifest := [0; 1; 5; 6]; cache := fun _ => None; files := fun n => if Nat.eqb n 5 then Some true else if Nat.eqb n 6 then Some false else None;
     root := true; alive := true |}.
Lemma two_files_complete : complete two_files.
Proof. intros n N. cbn in *. destruct (Nat.eqb_spec n 5); [auto|]. destruct (Nat.eqb_spec n 6); [auto|congruence]. Qed.

(** C91 fails if another task sets a new tag meanwhile: the deletion raises RuntimeError; the
    manifest is still on disk and lists a tag whose file is gone, while another is still there. *)
Theorem C91_half_deleted_refuted : exists (b : base bool) ts d es,
  alive bool b = true /\ complete b /\ ready ts d /\ (forall n, ~ saves ts n) /\
  let y := run bool es {| data := b; tasks := ts |} in
  nth_error (tasks bool y) d = Some (Done bool (Raised bool RuntimeErr)) /\ root bool (data bool y) = true /\
  exists lost kept, In lost (manifest bool b) /\ files bool b lost <> None /\ files bool (data bool y) lost = None /\ files bool (data bool y) kept <> None.
Proof.
  exists two_files, [Wipe0 bool; Set0 bool 7 true], 0, [0; 0; 0; 0; 0; 0; 1; 1; 0].
  split; [reflexivity|]. split; [exact two_files_complete|]. split.
  { split; [reflexivity|]. intros [|[|i]] t N E; try congruence; [injection E as <-; left; eauto|]. destruct i; discriminate. }
  split. { intros n (p & [E|[E|[]]]); discriminate. }
  split; [vm_compute; reflexivity|]. split; [vm_compute; reflexivity|]. exists 5, 6. vm_compute. repeat split; auto; discriminate.
Qed.
Print Assumptions C91_half_deleted_refuted.

(** C91 fails if another task is saving a tag meanwhile: its file is there when the deletion has
    ended well. *)
Theorem C91_file_comes_back_refuted : exists (b : base bool) ts d es,
  alive bool b = true /\ complete b /\ ready ts d /\ (forall n, ~ adds b ts n) /\
  let y := run bool es {| data := b; tasks := ts |} in
  nth_error (tasks bool y) d = Some (Done bool (Nothing bool)) /\ exists n, files bool (data bool y) n <> None.
Proof.
  exists {| manifest := [0; 1; 5]; cache := fun n => if Nat.eqb n 5 then Some true else None; files := fun _ => None; root := true; alive := true |},
    [Wipe0 bool; Save0 bool 5 false], 0, ([1; 1; 1] ++ repeat 0 12 ++ [1]).
  split; [reflexivity|]. split; [intros n N; now destruct N|]. split.
  { split; [reflexivity|]. intros [|[|i]] t N E; try congruence; [injection E as <-; right; right; eauto|]. destruct i; discriminate. }
  split. { intros n (_ & v & [E|[E|[]]]); discriminate. }
  split; [vm_compute; reflexivity|]. exists 5. vm_compute. discriminate.
Qed.
Print Assumptions C91_file_comes_back_refuted.

Example C91_case : let ts := [Query0 bool 6 false true; Wipe0 bool; Set0 bool 5 false; Query0 bool 5 true false] in
  let y := run bool ([0; 0; 1; 2; 1; 1; 1; 1; 1; 0; 2; 0; 0; 3; 3] ++ repeat 1 12) {| data := two_files; tasks := ts |} in
  ready ts 1 /\ (forall n, ~ saves ts n) /\ (forall n, ~ adds two_files ts n) /\
  tasks bool y = map (Done bool) [Found bool false; Nothing bool; Fine bool; Found bool false] /\
  files bool (data bool y) 5 = None /\ files bool (data bool y) 6 = None.
Proof.
  cbv zeta. split.
  { split; [reflexivity|]. intros [|[|[|[|i]]]] t N E; try congruence; try (injection E as <-); [right; left; eauto|left; eauto|right; left; eauto|]. destruct i; discriminate. }
  split. { intros n (p & [E|[E|[E|[E|[]]]]]); discriminate. }
  split. { intros n (N & v & [E|[E|[E|[E|[]]]]]); try discriminate. injection E as <- _. apply N. cbn. auto. }
  vm_compute. repeat split.
Qed.
