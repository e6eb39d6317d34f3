(** * Databases: the properties C40 - C45

    Throughout: [dumps], [loads] and the cipher are any that meet [storage_laws];
    the database is opened with the key [kk] on a directory without its files, and
    the tags used are from any list [U] whose file names are distinct. *)
From Coq Require Import Lia Permutation.
From Verif Require Import Base BaseFacts DbModel DbSpec DbProofs DbToy.
Local Open Scope nat_scope.

Lemma ends_app {A} (x l : list A) r : (exists rs, l = rs ++ [r]) -> exists rs, x ++ l = rs ++ [r].
Proof. intros (rs & ->). exists (x ++ rs). now rewrite app_assoc. Qed.
Lemma ends_cons {A} (x : A) l r : (exists rs, l = rs ++ [r]) -> exists rs, x :: l = rs ++ [r].
Proof. apply (ends_app [x]). Qed.
Lemma ends_one {A} (r : A) : exists rs, [r] = rs ++ [r].
Proof. now exists []. Qed.

Section Props.
Variable json : Type.
Variable dumps : json -> result bytes.
Variable loads : bytes -> result json.
Variable key : Type.
Variable root_filename : key -> bytes.
Variable filename_of : key -> bytes -> bytes -> bytes.
Variable encrypt : nat -> key -> bytes -> bytes -> bytes -> bytes.
Variable decrypt : key -> bytes -> bytes -> bytes -> result bytes.
Variable encrypt_manifest : nat -> key -> bytes -> bytes.
Variable decrypt_manifest : key -> bytes -> result bytes.
Variable new_salt : nat -> bytes.
Variable manifest_text : manifest -> bytes.
Variable manifest_of_text : bytes -> result manifest.
Variable set_order : list bytes -> list bytes.
Hypothesis orders : forall l, NoDup l -> Permutation (set_order l) l.

Notation db := (db json key).
Notation value := (value json).
Notation op := (op json).
Notation open_db := (open_db json loads key root_filename filename_of decrypt decrypt_manifest new_salt manifest_of_text set_order).
Notation load_database := (load_database json loads key root_filename filename_of decrypt decrypt_manifest new_salt manifest_of_text set_order).
Notation perform := (perform json dumps loads key root_filename filename_of encrypt decrypt encrypt_manifest manifest_text set_order).
Notation session := (session json dumps loads key root_filename filename_of encrypt decrypt encrypt_manifest manifest_text set_order).
Notation life := (life json dumps loads key root_filename filename_of encrypt decrypt encrypt_manifest decrypt_manifest new_salt manifest_text manifest_of_text set_order).
Notation save_database := (save_database json dumps key root_filename encrypt encrypt_manifest manifest_text).
Notation astep := (astep json dumps loads set_order).
Notation arun := (arun json dumps loads set_order).
Notation alife := (alife json dumps loads set_order).
Notation op_ok := (op_ok json dumps loads).
Notation kept := (kept json dumps loads).
Notation storable := (storable json dumps loads).
Notation rel := (rel json dumps loads key root_filename filename_of decrypt decrypt_manifest manifest_of_text).

Variable kk : key.
Variable U : list bytes.
Hypothesis laws : storage_laws dumps loads filename_of encrypt decrypt encrypt_manifest decrypt_manifest new_salt manifest_text manifest_of_text kk U.
Variable w0 : world.
Notation s0 := (new_salt (clock w0)).
Hypothesis distinct : distinct_names root_filename filename_of kk s0 U.
Hypothesis no_old_files : no_files root_filename filename_of kk s0 U (disk w0).
Variables silent0 preload0 : bool.
Variable d0 : db.
Variable w1 : world.
Hypothesis opened : open_db kk silent0 preload0 w0 = (Ok d0, w1).

Lemma made c : exists j, new_salt c = new_salt j.
Proof. now exists c. Qed.
(** Opening such a directory always succeeds. *)
Lemma start : exists d, open_db kk silent0 preload0 w0 = (Ok d, tick w0) /\ rel kk U s0 (empty _) d (tick w0).
Proof.
  destruct no_old_files as [F G]. eapply open_fresh with (set_order := set_order); eauto.
Qed.
Lemma started : rel kk U s0 (empty _) d0 w1.
Proof.
  destruct start as (d & E & R). assert (Ok d0 = Ok d /\ w1 = tick w0) as [X ->].
  { apply pair_equal_spec. now rewrite <- opened, <- E. } injection X as ->. exact R.
Qed.
Lemma ran os : Forall (op_ok U) os -> exists d w, session os d0 w1 = (fst (arun os (empty _)), d, w) /\ rel kk U s0 (snd (arun os (empty _))) d w.
Proof. intros F. eapply session_sim; eauto. apply started. Qed.

Lemma ledger_keeps os : forall a, ledger _ a <> None -> ledger _ (snd (arun os a)) <> None.
Proof.
  induction os as [|o os IH]; intros a B; [exact B|]. rewrite arun_cons. cbn [snd]. apply IH. rewrite ledger_step. destruct o; auto; discriminate.
Qed.
Lemma ledger_saved os : forall a, In (SaveDatabase _) os -> ledger _ (snd (arun os a)) <> None.
Proof.
  induction os as [|o os IH]; intros a N; [destruct N|]. rewrite arun_cons. cbn [snd]. destruct N as [->|N]; [|now apply IH].
  apply ledger_keeps. cbn. discriminate.
Qed.

(** Cached values can be stored; stored values come back unchanged. *)
Definition sound (a : adb json) : Prop :=
  (forall t v, cached _ a t = Some v -> storable v) /\ (forall t v, stored _ a t = Some v -> storable v /\ kept v = v).
Lemma sound_current a t v : sound a -> current _ a t = Some v -> storable v.
Proof.
  intros [S1 S2]. unfold current. destruct (cached _ a t) eqn:C; [intros E; injection E as <-; eauto|]. intros E. now apply S2 in E.
Qed.
Lemma sound_kept v : storable v -> storable (kept v) /\ kept (kept v) = kept v.
Proof. eapply kept_storable; eauto. Qed.
Lemma sound_load l : forall silent a, sound a -> sound (snd (load_all _ l silent a)).
Proof.
  induction l as [|u l IH]; intros silent a S; cbn; [exact S|]. destruct (current _ a u) as [v|] eqn:C.
  - apply IH. pose proof (sound_current _ _ _ S C). destruct S as [S1 S2]. split; [|exact S2]. cbn. unfold assign. intros t v'.
    destruct (bytes_eqb t u); [intros E; injection E as <-; assumption|eauto].
  - destruct silent; [now apply IH|exact S].
Qed.
Lemma sound_step o a : op_ok U o -> sound a -> sound (snd (astep o a)).
Proof.
  intros [_ OV] S. pose proof S as [S1 S2].
  destruct o as [u v keep|u silent keep|u|u silent|u|u keep| |u drop| |silent|u|]; cbn; try exact S.
  - specialize (OV u v keep eq_refl). destruct keep; split; cbn; unfold assign; try exact S2; intros t v'; (destruct (bytes_eqb t u); [|now eauto]);
      try discriminate; intros E; injection E as <-; [exact OV|now apply sound_kept].
  - destruct (current _ a u) as [v|] eqn:C; [destruct keep|]; try exact S. pose proof (sound_current _ _ _ S C). split; [|exact S2].
    cbn. unfold assign. intros t v'. destruct (bytes_eqb t u); [intros E; injection E as <-; assumption|eauto].
  - split; cbn; unfold assign; intros t v'; destruct (bytes_eqb t u); try discriminate; eauto.
  - split; cbn; unfold assign; intros t v'; destruct (bytes_eqb t u); try discriminate; eauto.
  - split; cbn; [|exact S2]. unfold assign. intros t v'. destruct (bytes_eqb t u); [|eauto]. destruct keep; [|discriminate]. intros E. now apply S2 in E.
  - split; [discriminate|exact S2].
  - destruct (cached _ a u) as [v|] eqn:C; [|exact S]. split; cbn.
    + intros t v'. destruct drop; [|eauto]. unfold assign. destruct (bytes_eqb t u); [discriminate|eauto].
    + unfold assign. intros t v'. destruct (bytes_eqb t u); [|eauto]. intros E. injection E as <-. apply sound_kept. eauto.
  - split; [exact S1|]. cbn. intros t v'. destruct (cached _ a t) eqn:C; [|eauto]. intros E. injection E as <-. apply sound_kept. eauto.
  - now apply sound_load.
Qed.
Lemma sound_run os : forall a, Forall (op_ok U) os -> sound a -> sound (snd (arun os a)).
Proof.
  induction os as [|o os IH]; intros a F S; [exact S|]. inversion_clear F. rewrite arun_cons. cbn [snd]. apply IH; [assumption|].
  now apply sound_step.
Qed.
Lemma sound_empty : sound (empty _).
Proof. split; discriminate. Qed.

(** ** C40 *)

Theorem C40_opening_succeeds : exists d w, open_db kk silent0 preload0 w0 = (Ok d, w).
Proof. destruct start as (d & E & _). eauto. Qed.

(** Every reply in every session is the abstract database's. *)
Theorem C40_session_is_the_map : forall os, Forall (op_ok U) os ->
  fst (fst (session os d0 w1)) = fst (arun os (empty _)).
Proof. intros os F. destruct (ran os F) as (d & w & -> & _). reflexivity. Qed.

(** The last value set is the one returned, whatever is done in between that does
    not concern the tag. *)
Theorem C40_last_value_set : forall os t v keep os' silent keep', storable v -> In t U ->
  Forall (op_ok U) os -> Forall (op_ok U) os' -> Forall (leaves _ t) os' ->
  exists rs, fst (fst (session (os ++ SetTag _ t v keep :: os' ++ [QueryTag _ t silent keep']) d0 w1)) =
    rs ++ [Got _ (Some (if keep then v else kept v))].
Proof.
  intros os t v keep os' silent keep' S X F F' L.
  assert (Forall (op_ok U) (os ++ SetTag _ t v keep :: os' ++ [QueryTag _ t silent keep'])) as A.
  { apply Forall_app. split; [exact F|]. constructor.
    - split; [intros u E; injection E as <-; exact X|]. intros u v' k' E. injection E as <- <- <-. exact S.
    - apply Forall_app. split; [exact F'|]. constructor; [|constructor]. split; [intros u E; injection E as <-; exact X|discriminate]. }
  rewrite (C40_session_is_the_map _ A), arun_app. cbn [fst]. rewrite arun_cons. cbn [fst]. rewrite arun_app. cbn [fst].
  rewrite arun_cons. cbn [fst].
  assert (forall a, fst (arun [] a) = []) as -> by reflexivity.
  set (a1 := snd (astep (SetTag _ t v keep) (snd (arun os (empty _))))).
  assert (current _ (snd (arun os' a1)) t = Some (if keep then v else kept v)) as C.
  { rewrite (leaves_run _ _ _ _ t os' a1 L). unfold a1. destruct keep; cbn; unfold current; cbn; unfold assign; now rewrite bytes_eqb_refl. }
  assert (fst (astep (QueryTag _ t silent keep') (snd (arun os' a1))) = Got _ (Some (if keep then v else kept v))) as E.
  { cbn. now rewrite C. }
  rewrite E. eexists. rewrite app_comm_cons, app_assoc. reflexivity.
Qed.

(** A removed tag is gone: no value, not in the database. *)
Theorem C40_removed_tag : forall os o t os' silent keep', In t U -> (o = DelItem _ t \/ exists b, o = PopTag _ t b) ->
  Forall (op_ok U) os -> Forall (op_ok U) os' -> Forall (leaves _ t) os' ->
  exists rs, fst (fst (session (os ++ o :: os' ++ [Contains _ t; QueryTag _ t silent keep']) d0 w1)) =
    rs ++ [Truth _ false; if silent then Got _ None else Raised _ LookupErr].
Proof.
  intros os o t os' silent keep' X D F F' L.
  assert (Forall (op_ok U) (os ++ o :: os' ++ [Contains _ t; QueryTag _ t silent keep'])) as A.
  { apply Forall_app. split; [exact F|]. constructor.
    - destruct D as [->|(b & ->)]; (split; [intros u E; injection E as <-; exact X|discriminate]).
    - apply Forall_app. split; [exact F'|]. constructor; [|constructor; [|constructor]];
        (split; [intros u E; injection E as <-; exact X|discriminate]). }
  rewrite (C40_session_is_the_map _ A), arun_app. cbn [fst]. rewrite arun_cons. cbn [fst]. rewrite arun_app. cbn [fst].
  set (a1 := snd (astep o (snd (arun os (empty _))))).
  assert (current _ (snd (arun os' a1)) t = None /\ ~ In t (listed _ (snd (arun os' a1)))) as [C N].
  { rewrite (leaves_run _ _ _ _ t os' a1 L), (listed_run _ _ _ _ t os' a1 L). unfold a1.
    destruct D as [->|(b & ->)]; cbn; unfold current; cbn; unfold assign; rewrite bytes_eqb_refl, in_remove; tauto. }
  rewrite !arun_cons. set (a2 := snd (arun os' a1)) in *.
  assert (fst (astep (Contains _ t) a2) = Truth _ false) as E1.
  { cbn. f_equal. apply orb_false_iff. split.
    - destruct (mem t (listed _ a2)) eqn:M; [apply mem_in in M; contradiction|reflexivity].
    - unfold current in C. destruct (cached _ a2 t); [discriminate|reflexivity]. }
  assert (snd (astep (Contains _ t) a2) = a2) as E2 by reflexivity. rewrite E2. cbn [fst]. rewrite E1.
  assert (fst (astep (QueryTag _ t silent keep') a2) = if silent then Got _ None else Raised _ LookupErr) as E3.
  { cbn. rewrite C. now destruct silent. }
  rewrite E3. eexists. rewrite app_comm_cons, app_assoc. reflexivity.
Qed.

(** Other tags are unaffected by an operation that names one tag. *)
Theorem C40_other_tags : forall os o t u silent, Forall (op_ok U) os -> op_ok U o -> op_tag _ o = Some u -> In t U -> u <> t ->
  forall d w, (exists rs, session os d0 w1 = (rs, d, w)) ->
  let '(_, d', w') := perform o d w in
  fst (fst (perform (QueryTag _ t silent false) d' w')) = fst (fst (perform (QueryTag _ t silent false) d w)) /\
  fst (fst (perform (Contains _ t) d' w')) = fst (fst (perform (Contains _ t) d w)) /\
  fst (fst (perform (GetItem _ t) d' w')) = fst (fst (perform (GetItem _ t) d w)).
Proof.
  intros os o t u silent F O T X N d w (rs & E). destruct (ran os F) as (d2 & w2 & Q & R).
  rewrite E in Q. assert (d = d2 /\ w = w2) as [-> ->] by (split; congruence). clear Q E.
  destruct (perform_sim _ _ _ _ _ _ _ _ _ _ _ _ _ _ _ _ laws _ (made _) distinct orders o _ _ _ R O) as (d' & w' & -> & R').
  set (a := snd (arun os (empty _))) in *.
  assert (leaves _ t o) as L by (destruct o as [| | | | | | |? [] | | | |]; cbn in *; congruence || exact I).
  assert (forall p a d w, rel kk U s0 a d w -> op_tag _ p = Some t -> (forall v kp, p <> SetTag _ t v kp) -> fst (fst (perform p d w)) = fst (astep p a)) as P.
  { intros p a3 d3 w3 R3 T3 NS. assert (op_ok U p) as O3.
    { split; [intros x Ex; assert (x = t) as -> by congruence; exact X|]. intros x v kp ->. cbn in T3. injection T3 as ->. now contradiction (NS v kp). }
    destruct (perform_sim _ _ _ _ _ _ _ _ _ _ _ _ _ _ _ _ laws _ (made _) distinct orders p _ _ _ R3 O3) as (? & ? & -> & _). reflexivity. }
  rewrite !(P _ _ _ _ R'), !(P _ _ _ _ R) by (reflexivity || discriminate). cbn -[DbSpec.astep].
  pose proof (leaves_current _ dumps loads set_order t o a L) as C. pose proof (listed_step _ dumps loads set_order t o a L) as M.
  assert (cached _ (snd (astep o a)) t = cached _ a t) as CC.
  { assert (bytes_eqb t u = false) as B by (apply bytes_eqb_neq; congruence).
    destruct o as [x v kp|x sl kp|x|x sl|x|x kp| |x dr| |sl|x|]; cbn in T |- *; try discriminate T; try injection T as ->; try reflexivity;
      try (cbn; unfold assign; now rewrite B).
    - destruct kp; cbn; unfold assign; now rewrite B.
    - destruct (current _ a u); [destruct kp|]; cbn; unfold assign; now rewrite ?B.
    - destruct (cached _ a u); [destruct dr|]; cbn; unfold assign; now rewrite ?B. }
  repeat split.
  - cbn. rewrite C. now destruct (current _ a t).
  - cbn. do 2 f_equal; [|now rewrite CC]. apply eq_true_iff_eq. rewrite !mem_in. exact M.
  - cbn. now rewrite CC.
Qed.

(** The listing, the length and membership agree, and every tag with a value is
    listed. *)
Theorem C40_listing_agrees : forall os t silent, Forall (op_ok U) os -> In t U ->
  forall d w, (exists rs, session os d0 w1 = (rs, d, w)) ->
  NoDup (tags _ _ d) /\
  fst (fst (perform (Length _) d w)) = Size _ (length (tags _ _ d)) /\
  (In t (tags _ _ d) <-> fst (fst (perform (Contains _ t) d w)) = Truth _ true) /\
  (forall v, fst (fst (perform (QueryTag _ t silent false) d w)) = Got _ (Some v) -> In t (tags _ _ d)).
Proof.
  intros os t silent F X d w (rs & E). destruct (ran os F) as (d2 & w2 & Q & R).
  rewrite E in Q. assert (d = d2 /\ w = w2) as [-> ->] by (split; congruence). clear Q E.
  set (a := snd (arun os (empty _))) in *.
  assert (consistent _ a) as [N V] by (apply consistent_run; apply consistent_empty).
  assert (forall p, op_ok U p -> fst (fst (perform p d2 w2)) = fst (astep p a)) as P.
  { intros p O3. destruct (perform_sim _ _ _ _ _ _ _ _ _ _ _ _ _ _ _ _ laws _ (made _) distinct orders p _ _ _ R O3) as (? & ? & -> & _). reflexivity. }
  pose proof (tags_sim _ _ _ _ _ _ _ _ _ _ _ _ _ _ _ R) as TG. rewrite TG.
  rewrite !P by (split; [intros x Ex; cbn in Ex; congruence|discriminate]).
  split; [exact N|]. split; [reflexivity|]. split; [symmetry; now apply contains_current|].
  intros v. cbn. intros Q. apply V. destruct (current _ a t); [discriminate|destruct silent; discriminate].
Qed.

(** If the cache was never cleared, every listed tag has a value. *)
Theorem C40_listed_tags_have_values_partial : forall os t, Forall (op_ok U) os -> ~ In (ClearCache _) os ->
  forall d w, (exists rs, session os d0 w1 = (rs, d, w)) -> In t (tags _ _ d) ->
  exists v, fst (fst (perform (QueryTag _ t false false) d w)) = Got _ (Some v).
Proof.
  intros os t F NC d w (rs & E). destruct (ran os F) as (d2 & w2 & Q & R).
  rewrite E in Q. assert (d = d2 /\ w = w2) as [-> ->] by (split; congruence). clear Q E.
  pose proof (tags_sim _ _ _ _ _ _ _ _ _ _ _ _ _ _ _ R) as ->. intros T.
  assert (In t U) as X by exact (r_listed _ _ _ _ _ _ _ _ _ _ _ _ _ _ _ R t T).
  assert (current _ (snd (arun os (empty _))) t <> None) as V.
  { exact (valued_run _ dumps loads set_order os (empty _) NC (fun _ (F : False) => match F with end) t T). }
  assert (op_ok U (QueryTag _ t false false)) as O3 by (split; [intros x Ex; cbn in Ex; congruence|discriminate]).
  destruct (perform_sim _ _ _ _ _ _ _ _ _ _ _ _ _ _ _ _ laws _ (made _) distinct orders _ _ _ _ R O3) as (? & ? & -> & _). cbn.
  destruct (current _ (snd (arun os (empty _))) t) as [v|]; [now exists v|contradiction].
Qed.
(** Clearing the cache breaks this: a tag set and never saved stays listed. *)
Theorem C40_listed_tags_have_values_refuted : forall t v, In t U -> storable v ->
  fst (fst (session [SetTag _ t v true; ClearCache _; Contains _ t; Length _; QueryTag _ t false false] d0 w1)) =
  [Done _; Done _; Truth _ true; Size _ 1; Raised _ LookupErr].
Proof.
  intros t v X S. rewrite C40_session_is_the_map.
  - cbn. unfold mem. cbn. now rewrite bytes_eqb_refl.
  - repeat constructor; cbn; intros; try congruence.
Qed.

(** ** C41 *)

(** Lives over any number of processes. *)
Theorem C41_life_is_the_abstract_life : forall es, Forall (event_ok _ dumps loads U) es -> saved_first _ es ->
  life es d0 w1 = alife es (empty _).
Proof.
  intros es F S. pose proof started as R. eapply life_sim; eauto.
Qed.

(** Readable form: the values when the database was saved are the ones another
    process finds; what was done later without writing is not visible. *)
Theorem C41_saved_values_survive : forall os os' t silent silent' keep v, Forall (op_ok U) os -> Forall (op_ok U) os' -> In t U ->
  Forall (unsaved _) os' ->
  (exists rs, fst (fst (session (os ++ [QueryTag _ t true false]) d0 w1)) = rs ++ [Got _ v]) ->
  exists rs, life (map (Op _) (os ++ SaveDatabase _ :: os') ++ [Reopen _ silent false; Op _ (QueryTag _ t silent' keep)]) d0 w1 =
    rs ++ [match v with
           | Some v => Got _ (Some (kept v))
           | None => if silent' then Got _ None else Raised _ LookupErr
           end].
Proof.
  intros os os' t silent silent' keep v F F' X S (rs & Q).
  assert (v = current _ (snd (arun os (empty _))) t) as ->.
  { assert (Forall (op_ok U) (os ++ [QueryTag _ t true false])) as A.
    { apply Forall_app. split; [exact F|]. constructor; [|constructor]. split; [intros u E; injection E as <-; exact X|discriminate]. }
    rewrite (C40_session_is_the_map _ A), arun_app, arun_cons in Q. cbn [fst] in Q. apply app_inj_tail in Q as [_ Q].
    assert (forall a : adb json, fst (astep (QueryTag _ t true false) a) = Got _ (current _ a t)) as G.
    { intros a. cbn. now destruct (current _ a t). } rewrite G in Q. congruence. }
  rewrite C41_life_is_the_abstract_life.
  - rewrite alife_ops, arun_app, arun_cons. cbn [fst snd].
    set (a := snd (arun os (empty _))). set (b := snd (astep (SaveDatabase _) a)).
    destruct (unsaved_run _ dumps loads set_order os' b S) as [S1 S2].
    assert (ledger _ (snd (arun os' b)) = Some (listed _ a)) as LE by (rewrite S2; reflexivity).
    cbn [alife]. rewrite LE. cbn [aopen].
    assert (forall a : adb json, current _ (reopened _ a (listed _ (snd (arun os (empty _))))) t = stored _ a t) as CR by reflexivity.
    cbn [DbSpec.astep]. rewrite CR, S1. unfold b, a. cbn [DbSpec.astep snd stored]. unfold current.
    set (c := cached _ (snd (arun os (empty _))) t). set (st := stored _ (snd (arun os (empty _))) t).
    apply ends_app, ends_cons. destruct c as [v'|]; [|destruct st as [v'|] eqn:ES]; [apply ends_one| |apply ends_one].
    assert (kept v' = v') as -> by exact (proj2 (proj2 (sound_run os _ F sound_empty) t v' ES)). apply ends_one.
  - apply Forall_app. split.
    + apply Forall_forall. intros e I. apply in_map_iff in I as (o & <- & I). apply in_app_iff in I as [I|[<-|I]]; cbn.
      * now apply (proj1 (Forall_forall _ _) F).
      * split; discriminate.
      * now apply (proj1 (Forall_forall _ _) F').
    + constructor; [exact I|]. constructor; [|constructor]. split; [intros u E; injection E as <-; exact X|discriminate].
  - assert (forall l es, saved_first _ (map (Op _) (l ++ SaveDatabase _ :: os') ++ es)) as G; [|apply G].
    induction l as [|o l IH]; intros es; cbn; [exact I|]. destruct o; auto.
Qed.

(** ** C42 *)

(** Rolling back: no file changes; the tag has its stored value; others keep
    theirs. *)
Theorem C42_rollback : forall os t keep, Forall (op_ok U) os -> In t U ->
  forall d w, (exists rs, session os d0 w1 = (rs, d, w)) ->
  exists d', perform (RollbackTag _ t keep) d w = (Done _, d', w) /\
    fst (fst (perform (QueryTag _ t true false) d' w)) = Got _ (stored _ (snd (arun os (empty _))) t) /\
    (In t (tags _ _ d') <-> stored _ (snd (arun os (empty _))) t <> None /\ In t (tags _ _ d)) /\
    forall u, In u U -> u <> t ->
      fst (fst (perform (QueryTag _ u true false) d' w)) = fst (fst (perform (QueryTag _ u true false) d w)) /\
      (In u (tags _ _ d') <-> In u (tags _ _ d)).
Proof.
  intros os t keep F X d w (rs & E). destruct (ran os F) as (d2 & w2 & Q & R).
  rewrite E in Q. assert (d = d2 /\ w = w2) as [-> ->] by (split; congruence). clear Q E.
  set (a := snd (arun os (empty _))) in *.
  assert (op_ok U (RollbackTag _ t keep)) as O by (split; [intros u E; injection E as <-; exact X|discriminate]).
  destruct (perform_sim _ _ _ _ _ _ _ _ _ _ _ _ _ _ _ _ laws _ (made _) distinct orders _ _ _ _ R O) as (d' & w' & P & R').
  assert (w' = w2) as ->. { cbn in P. destruct (rollback_tag _ _ _ _ _ d2 t keep w2). congruence. }
  exists d'. split; [exact P|].
  assert (forall u a d w, In u U -> rel kk U s0 a d w -> fst (fst (perform (QueryTag _ u true false) d w)) = Got _ (current _ a u)) as PQ.
  { intros u a3 d3 w3 Y R3. assert (op_ok U (QueryTag _ u true false)) as O3 by (split; [intros x Ex; cbn in Ex; congruence|discriminate]).
    destruct (perform_sim _ _ _ _ _ _ _ _ _ _ _ _ _ _ _ _ laws _ (made _) distinct orders _ _ _ _ R3 O3) as (? & ? & -> & _). cbn. now destruct (current _ a3 u). }
  rewrite (PQ t _ _ _ X R').
  rewrite (tags_sim _ _ _ _ _ _ _ _ _ _ _ _ _ _ _ R), (tags_sim _ _ _ _ _ _ _ _ _ _ _ _ _ _ _ R').
  split. { cbn. unfold current. cbn. unfold assign. rewrite bytes_eqb_refl. destruct keep; [|reflexivity]. now destruct (stored _ a t). }
  split. { cbn. destruct (stored _ a t); [split; [intros; split; [discriminate|assumption]|tauto]|]. rewrite in_remove. tauto. }
  intros u Y N. rewrite (PQ u _ _ _ Y R'), (PQ u _ _ _ Y R). split.
  - cbn. unfold current. cbn. unfold assign. assert (bytes_eqb u t = false) as -> by (apply bytes_eqb_neq; congruence). reflexivity.
  - cbn. destruct (stored _ a t); [tauto|]. rewrite in_remove. tauto.
Qed.

(** Clearing: no file changes, every tag has its stored value. *)
Theorem C42_clear : forall os, Forall (op_ok U) os ->
  forall d w, (exists rs, session os d0 w1 = (rs, d, w)) ->
  exists d', perform (ClearCache _) d w = (Done _, d', w) /\
    forall u, In u U -> fst (fst (perform (QueryTag _ u true false) d' w)) = Got _ (stored _ (snd (arun os (empty _))) u).
Proof.
  intros os F d w (rs & E). destruct (ran os F) as (d2 & w2 & Q & R).
  rewrite E in Q. assert (d = d2 /\ w = w2) as [-> ->] by (split; congruence). clear Q E.
  assert (op_ok U (ClearCache _)) as O by (split; discriminate).
  destruct (perform_sim _ _ _ _ _ _ _ _ _ _ _ _ _ _ _ _ laws _ (made _) distinct orders _ _ _ _ R O) as (d' & w' & P & R').
  assert (w' = w2) as -> by (cbn in P; congruence). exists d'. split; [exact P|]. intros u Y.
  assert (op_ok U (QueryTag _ u true false)) as O3 by (split; [intros x Ex; cbn in Ex; congruence|discriminate]).
  destruct (perform_sim _ _ _ _ _ _ _ _ _ _ _ _ _ _ _ _ laws _ (made _) distinct orders _ _ _ _ R' O3) as (? & ? & -> & _). cbn. unfold current. cbn.
  now destruct (stored _ (snd (arun os (empty _))) u).
Qed.

(** What is stored is what the file holds: reading it takes no cache. *)
Theorem C42_stored_is_on_disk : forall os t, Forall (op_ok U) os -> In t U ->
  forall d w, (exists rs, session os d0 w1 = (rs, d, w)) ->
  match stored _ (snd (arun os (empty _))) t with
  | None => disk w (filename_of kk s0 t) = None
  | Some v => exists ct text, disk w (filename_of kk s0 t) = Some ct /\
      decrypt kk s0 (filename_of kk s0 t) ct = Ok text /\ of_text _ loads text = Ok v
  end.
Proof.
  intros os t F X d w (rs & E). destruct (ran os F) as (d2 & w2 & Q & R).
  rewrite E in Q. assert (d = d2 /\ w = w2) as [-> ->] by (split; congruence).
  pose proof (r_stored _ _ _ _ _ _ _ _ _ _ _ _ _ _ _ R t X) as H. destruct (stored _ _ t); [|exact H].
  destruct H as (ct & text & A & _ & B & C). eauto.
Qed.

(** ** C43 *)

(** The file operations of a save are one write of the manifest and then writes
    of tag files (in the asynchronous class, in any order).  If the process stops
    after any number of them, the database opens again, each tag has its old or
    its new stored value, and everything goes on from there. *)
Theorem C43_crash_between_file_operations : forall os, Forall (op_ok U) os ->
  forall d w w', (exists rs, session os d0 w1 = (rs, d, w)) -> save_database d w = (Ok tt, w') ->
  exists first ops, log w' = log w ++ first :: ops /\
  forall ops' p, Permutation ops ops' -> (exists q, p ++ q = first :: ops') -> In (SaveDatabase _) os \/ p <> [] ->
  forall c silent, exists d2 st l,
    open_db kk silent false {| disk := replay p (disk w); log := log w ++ p; clock := c |} =
      (Ok d2, {| disk := replay p (disk w); log := log w ++ p; clock := c |}) /\
    (Some l = ledger _ (snd (arun os (empty _))) \/ l = tags _ _ d) /\
    (forall t, In t U -> st t = stored _ (snd (arun os (empty _))) t \/
                         st t = stored _ (snd (arun (os ++ [SaveDatabase _]) (empty _))) t) /\
    forall qs, Forall (op_ok U) qs ->
      fst (fst (session qs d2 {| disk := replay p (disk w); log := log w ++ p; clock := c |})) =
      fst (arun qs {| cached := fun _ => None; stored := st; listed := l; ledger := Some l |}).
Proof.
  intros os F d w w' (rs & E) SV. destruct (ran os F) as (d2 & w2 & Q & R).
  rewrite E in Q. assert (d = d2 /\ w = w2) as [-> ->] by (split; congruence). clear Q E.
  destruct (crash_sim _ _ _ _ _ _ _ _ _ _ _ _ _ set_order _ _ laws _ (made _) distinct _ _ _ _ R SV) as (first & ops & L & H).
  exists first, ops. split; [exact L|]. intros ops' p P Pq N c silent.
  destruct (H ops' p P Pq) as (st & l & L1 & ST & OD).
  { destruct N as [N|N]; [left; now apply ledger_saved|now right]. }
  set (wc := {| disk := replay p (disk w2); log := log w2 ++ p; clock := c |}).
  destruct (open_sim json dumps loads key root_filename filename_of decrypt decrypt_manifest new_salt manifest_of_text set_order kk U s0 distinct orders st l silent false wc
    {| cached := fun _ => None; stored := st; listed := l; ledger := Some l |} OD eq_refl) as (r & w'' & OP & -> & RE & RR).
  destruct r as [d3|e]; [|discriminate RE]. exists d3, st, l. split; [exact OP|]. split.
  { rewrite (tags_sim _ _ _ _ _ _ _ _ _ _ _ _ _ _ _ R). exact L1. }
  split. { intros t X. rewrite arun_app, arun_cons. exact (ST t X). }
  intros qs FQ. specialize (RR d3 eq_refl). cbn in RR. unfold reopened in RR. cbn in RR.
  destruct (session_sim _ _ _ _ _ _ _ _ _ _ _ _ _ _ _ _ laws _ (made _) distinct orders qs _ _ _ RR FQ) as (? & ? & -> & _). reflexivity.
Qed.

(** Within one write the file is first truncated.  A crash there empties the
    manifest: the database cannot be opened, although the files of its tags are
    as they were. *)
Theorem C43_crash_within_the_manifest_write_refuted : forall os e, Forall (op_ok U) os -> decrypt_manifest kk [] = Err e ->
  forall d w c silent preload, (exists rs, session os d0 w1 = (rs, d, w)) ->
  let torn := {| disk := apply_op (Write (root_filename kk) []) (disk w); log := log w; clock := c |} in
  (forall t, In t U -> disk torn (filename_of kk s0 t) = disk w (filename_of kk s0 t)) /\
  open_db kk silent preload torn = (Err e, torn).
Proof.
  intros os e F D d w c silent preload (rs & E) torn. split.
  - intros t X. cbn. destruct (bytes_eqb (filename_of kk s0 t) (root_filename kk)) eqn:B; [|reflexivity].
    apply bytes_eqb_eq in B. now apply (proj2 distinct) in B.
  - unfold DbModel.open_db, load_manifest, torn. cbn. rewrite bytes_eqb_refl, D. reflexivity.
Qed.
(** And a crash there empties a tag's file: its value reads as missing, without
    an error, although it was stored before. *)
Theorem C43_crash_within_a_tag_write_refuted : forall os t silent, Forall (op_ok U) os -> In t U ->
  forall d w c, (exists rs, session os d0 w1 = (rs, d, w)) -> cached _ (snd (arun os (empty _))) t = None ->
  let torn := {| disk := apply_op (Write (filename_of kk s0 t) []) (disk w); log := log w; clock := c |} in
  fst (fst (perform (QueryTag _ t silent false) d torn)) = Got _ None.
Proof.
  intros os t silent F X d w c (rs & E) C torn. destruct (ran os F) as (d2 & w2 & Q & R).
  rewrite E in Q. assert (d = d2 /\ w = w2) as [-> ->] by (split; congruence). clear Q E.
  cbn. unfold query_tag, filename.
  rewrite (r_key _ _ _ _ _ _ _ _ _ _ _ _ _ _ _ R), (r_salt _ _ _ _ _ _ _ _ _ _ _ _ _ _ _ R), (r_cache _ _ _ _ _ _ _ _ _ _ _ _ _ _ _ R t X), C.
  cbn. now rewrite bytes_eqb_refl.
Qed.

(** ** C44 *)

(** Reloading a database that has been saved takes the listing of the last save,
    but every cached value stays, saved or not. *)
Lemma reload os silent : Forall (op_ok U) os -> In (SaveDatabase _) os ->
  forall d w, (exists rs, session os d0 w1 = (rs, d, w)) ->
  exists d' l, load_database d silent true false w = (Ok tt, d', w) /\ ledger _ (snd (arun os (empty _))) = Some l /\
    rel kk U s0 {| cached := cached _ (snd (arun os (empty _))); stored := stored _ (snd (arun os (empty _))); listed := l; ledger := Some l |} d' w.
Proof.
  intros F S d w (rs & E). destruct (ran os F) as (d2 & w2 & Q & R).
  rewrite E in Q. assert (d = d2 /\ w = w2) as [-> ->] by (split; congruence). clear Q E.
  set (a := snd (arun os (empty _))) in *.
  assert (ledger _ a <> None) as N by now apply ledger_saved.
  destruct (ledger _ a) as [l|] eqn:L; [|contradiction]. pose proof (rel_disk _ _ _ _ _ _ _ _ _ _ _ _ _ _ _ R) as OD. fold a in OD. rewrite L in OD.
  destruct R as [R1 R2 R3 R4 R5 R6 R7 R8 R9 R10 R11 R12].
  edestruct load_manifest_sim with (kk := kk) (a := a) (c := cache _ _ d2) (new_salt := new_salt) as (d' & M & R' & _); eauto.
  exists d', l. split; [|split; [reflexivity|exact R']]. unfold DbModel.load_database. rewrite R1, M. reflexivity.
Qed.

Theorem C44_reload_discards_unsaved_refuted : forall os t v silent, Forall (op_ok U) os -> In t U -> In (SaveDatabase _) os ->
  cached _ (snd (arun os (empty _))) t = Some v ->
  forall d w, (exists rs, session os d0 w1 = (rs, d, w)) ->
  exists d', load_database d silent true false w = (Ok tt, d', w) /\
    fst (fst (perform (QueryTag _ t true false) d' w)) = Got _ (Some v).
Proof.
  intros os t v silent F X S C d w E. destruct (reload os silent F S d w E) as (d' & l & Q & _ & R). exists d'. split; [exact Q|].
  assert (op_ok U (QueryTag _ t true false)) as O3 by (split; [intros x Ex; cbn in Ex; congruence|discriminate]).
  destruct (perform_sim _ _ _ _ _ _ _ _ _ _ _ _ _ _ _ _ laws _ (made _) distinct orders _ _ _ _ R O3) as (? & ? & -> & _). cbn. unfold current. cbn.
  now rewrite C.
Qed.

(** What it does: tags that are not cached read as stored, and the listing is
    that of the last save. *)
Theorem C44_reload_partial : forall os t silent, Forall (op_ok U) os -> In t U -> In (SaveDatabase _) os ->
  cached _ (snd (arun os (empty _))) t = None ->
  forall d w, (exists rs, session os d0 w1 = (rs, d, w)) ->
  exists d', load_database d silent true false w = (Ok tt, d', w) /\
    Some (tags _ _ d') = ledger _ (snd (arun os (empty _))) /\
    fst (fst (perform (QueryTag _ t true false) d' w)) = Got _ (stored _ (snd (arun os (empty _))) t).
Proof.
  intros os t silent F X S C d w E. destruct (reload os silent F S d w E) as (d' & l & Q & L & R). exists d'. split; [exact Q|].
  rewrite (tags_sim _ _ _ _ _ _ _ _ _ _ _ _ _ _ _ R), L. split; [reflexivity|].
  assert (op_ok U (QueryTag _ t true false)) as O3 by (split; [intros x Ex; cbn in Ex; congruence|discriminate]).
  destruct (perform_sim _ _ _ _ _ _ _ _ _ _ _ _ _ _ _ _ laws _ (made _) distinct orders _ _ _ _ R O3) as (? & ? & -> & _). cbn. unfold current. cbn.
  rewrite C. now destruct (stored _ (snd (arun os (empty _))) t).
Qed.

(** After clearing the cache a reload does discard the unsaved changes. *)
Theorem C44_clear_then_reload : forall os t silent, Forall (op_ok U) os -> In t U -> In (SaveDatabase _) os ->
  forall d w, (exists rs, session (os ++ [ClearCache _]) d0 w1 = (rs, d, w)) ->
  exists d', load_database d silent true false w = (Ok tt, d', w) /\
    Some (tags _ _ d') = ledger _ (snd (arun os (empty _))) /\
    fst (fst (perform (QueryTag _ t true false) d' w)) = Got _ (stored _ (snd (arun os (empty _))) t).
Proof.
  intros os t silent F X S d w E. assert (Forall (op_ok U) (os ++ [ClearCache _])) as F2.
  { apply Forall_app. split; [exact F|]. constructor; [split; discriminate|constructor]. }
  destruct (C44_reload_partial (os ++ [ClearCache _]) t silent F2 X) with (d := d) (w := w) as (d' & Q1 & Q2 & Q3); auto.
  - apply in_app_iff. now left.
  - rewrite arun_app, arun_cons. reflexivity.
  - exists d'. rewrite arun_app, arun_cons in Q2, Q3. cbn in Q2, Q3. auto.
Qed.

(** ** C45 *)

Lemma other_salt os : Forall (op_ok U) os -> ~ In (SaveDatabase _) os -> (forall n, disk w0 n = None) ->
  forall d w c, (exists rs, session os d0 w1 = (rs, d, w)) ->
  distinct_names root_filename filename_of kk (new_salt c) U ->
  (forall t u, In t U -> In u U -> filename_of kk (new_salt c) t <> filename_of kk s0 u) ->
  no_files root_filename filename_of kk (new_salt c) U (disk w).
Proof.
  intros F N EM d w c (rs & E) D2 DIS. pose proof started as R. assert (disk w1 = disk w0) as D1.
  { destruct start as (d3 & E3 & _). assert ((Ok d0, w1) = (Ok d3, tick w0)) as E4 by now rewrite <- opened, <- E3.
    apply pair_equal_spec in E4 as [_ ->]. reflexivity. }
  assert (forall n, (forall t, In t U -> n <> filename_of kk s0 t) -> disk w n = None) as O.
  { intros n Hn. pose proof (session_other _ _ _ _ _ _ _ _ _ _ _ _ _ _ _ _ laws _ (made _) distinct orders os _ _ _ n R F Hn (or_intror N)) as H.
    rewrite E in H. cbn in H. now rewrite H, D1. }
  split.
  - apply O. intros t X. pose proof (proj1 (proj2 distinct t X)). congruence.
  - intros t X. apply O. intros u Y. now apply DIS.
Qed.

(** A database whose tags were saved one by one, never as a whole: the manifest
    with the root salt was never written.  Another process opens it without an
    error and finds nothing: it has a new, empty database. *)
Theorem C45_saved_tag_is_found_refuted : forall os, Forall (op_ok U) os -> ~ In (SaveDatabase _) os ->
  (forall n, disk w0 n = None) ->
  forall d w silent preload, (exists rs, session os d0 w1 = (rs, d, w)) ->
  distinct_names root_filename filename_of kk (new_salt (clock w)) U ->
  (forall t u, In t U -> In u U -> filename_of kk (new_salt (clock w)) t <> filename_of kk s0 u) ->
  exists d' w', open_db kk silent preload w = (Ok d', w') /\
    forall qs, Forall (op_ok U) qs -> fst (fst (session qs d' w')) = fst (arun qs (empty _)).
Proof.
  intros os F N EM d w silent preload E D2 DIS. destruct (other_salt os F N EM d w (clock w) E D2 DIS) as [G1 G2].
  destruct (open_fresh json dumps loads key root_filename filename_of decrypt decrypt_manifest new_salt manifest_of_text set_order
    kk U (new_salt (clock w)) D2 orders silent preload w eq_refl G1 G2) as (d' & OP & R').
  exists d', (tick w). split; [exact OP|]. intros qs FQ.
  destruct (session_sim _ _ _ _ _ _ _ _ _ _ _ _ _ _ _ _ laws _ (made _) D2 orders qs _ _ _ R' FQ) as (? & ? & -> & _). reflexivity.
Qed.

(** The same happens to the process itself if it reloads the manifest. *)
Theorem C45_reload_of_a_never_saved_database_refuted : forall os t, Forall (op_ok U) os -> ~ In (SaveDatabase _) os ->
  (forall n, disk w0 n = None) -> In t U ->
  forall d w silent, (exists rs, session os d0 w1 = (rs, d, w)) ->
  distinct_names root_filename filename_of kk (new_salt (clock w)) U ->
  (forall t u, In t U -> In u U -> filename_of kk (new_salt (clock w)) t <> filename_of kk s0 u) ->
  exists d' w', load_database d silent true false w = (Ok tt, d', w') /\
    fst (fst (perform (QueryTag _ t false false) d' w')) = Raised _ LookupErr /\
    fst (fst (perform (Contains _ t) d' w')) = Truth _ false.
Proof.
  intros os t F N EM X d w silent E D2 DIS. destruct (other_salt os F N EM d w (clock w) E D2 DIS) as [G1 G2].
  destruct E as (rs & E). destruct (ran os F) as (d2 & w2 & Q & R).
  rewrite E in Q. assert (d = d2 /\ w = w2) as [-> ->] by (split; congruence). clear Q E.
  pose proof (r_key _ _ _ _ _ _ _ _ _ _ _ _ _ _ _ R) as K.
  assert (get (filename_of kk (new_salt (clock w2)) t) (cache _ _ d2) = None) as GN.
  { destruct (get _ (cache _ _ d2)) eqn:G; [|reflexivity].
    assert (In (filename_of kk (new_salt (clock w2)) t) (map fst (cache _ _ d2))) as I by (apply in_get; congruence).
    apply (r_outside _ _ _ _ _ _ _ _ _ _ _ _ _ _ _ R) in I as (u & Y & I). now apply DIS in I. }
  unfold DbModel.load_database, load_manifest. rewrite K, G1. do 2 eexists. split; [reflexivity|].
  cbn. unfold query_tag, contains, has, filename, salt. cbn. rewrite GN, (G2 t X). auto.
Qed.

(** Once the database has been saved as a whole, a tag saved on its own is found
    again by another process, though it is not listed unless it was then. *)
Theorem C45_saved_tag_is_found_partial : forall os t v drop os' silent silent' keep, Forall (op_ok U) os -> Forall (op_ok U) os' -> In t U ->
  storable v -> saved_first _ (map (Op _) os ++ [Reopen _ silent false]) -> Forall (unsaved _) os' ->
  exists rs, life (map (Op _) (os ++ SetTag _ t v true :: SaveTag _ t drop :: os') ++
                   [Reopen _ silent false; Op _ (QueryTag _ t silent' keep)]) d0 w1 = rs ++ [Got _ (Some (kept v))].
Proof.
  intros os t v drop os' silent silent' keep F F' X S SF US.
  rewrite C41_life_is_the_abstract_life.
  - rewrite alife_ops, arun_app, !arun_cons. cbn [fst snd]. set (a := snd (arun os (empty _))).
    set (b := snd (astep (SaveTag _ t drop) (snd (astep (SetTag _ t v true) a)))).
    destruct (unsaved_run _ dumps loads set_order os' b US) as [S1 S2].
    assert (stored _ b t = Some (kept v)) as SB.
    { unfold b. cbn. unfold assign. rewrite bytes_eqb_refl. cbn. now rewrite bytes_eqb_refl. }
    assert (ledger _ b = ledger _ a) as LB. { unfold b. rewrite !ledger_step. reflexivity. }
    assert (exists l, ledger _ a = Some l) as (l & LA).
    { assert (In (SaveDatabase _) os) as IS. { clear - SF. induction os as [|o os IH]; cbn in SF; [destruct SF|]. destruct o; cbn; auto. }
      pose proof (ledger_saved os (empty _) IS) as N. fold a in N. destruct (ledger _ a); [eauto|contradiction]. }
    cbn [alife]. rewrite S2, LB, LA. cbn [aopen DbSpec.astep].
    assert (current _ (reopened _ (snd (arun os' b)) l) t = Some (kept v)) as -> by (unfold current; cbn; now rewrite S1).
    apply ends_app, ends_cons, ends_one.
  - apply Forall_app. split.
    + apply Forall_forall. intros e I. apply in_map_iff in I as (o & <- & I). apply in_app_iff in I as [I|[<-|[<-|I]]]; cbn.
      * now apply (proj1 (Forall_forall _ _) F).
      * split; [intros u E; injection E as <-; exact X|intros u v' kp E; injection E as <- <- <-; exact S].
      * split; [intros u E; injection E as <-; exact X|discriminate].
      * now apply (proj1 (Forall_forall _ _) F').
    + constructor; [exact I|]. constructor; [|constructor]. split; [intros u E; injection E as <-; exact X|discriminate].
  - clear - SF. induction os as [|o os IH]; cbn in SF |- *; [destruct SF|]. destruct o; auto.
Qed.
End Props.

(** ** Cases *)
Definition A : bytes := [x61].
Definition B : bytes := [x62].
Definition toy_open := open_db bytes toy_loads bytes toy_root toy_name toy_decrypt toy_decrypt_manifest toy_salt toy_manifest_of_text toy_order.
Definition toy_session := session bytes toy_dumps toy_loads bytes toy_root toy_name toy_encrypt toy_decrypt toy_encrypt_manifest toy_manifest_text toy_order.
Definition toy_life := life bytes toy_dumps toy_loads bytes toy_root toy_name toy_encrypt toy_decrypt toy_encrypt_manifest toy_decrypt_manifest toy_salt
  toy_manifest_text toy_manifest_of_text toy_order.
Definition toy_save := save_database bytes toy_dumps bytes toy_root toy_encrypt toy_encrypt_manifest toy_manifest_text.
Definition toy_load := load_database bytes toy_loads bytes toy_root toy_name toy_decrypt toy_decrypt_manifest toy_salt toy_manifest_of_text toy_order.
Definition world0 : world := {| disk := fun _ => None; log := []; clock := 0 |}.
Definition toy_d0 : db bytes bytes := {| k := [x6b]; m := {| m_salt := []; m_metatags := []; m_tags := [] |}; cache := [] |}.
Lemma toy_opened : toy_open [x6b] true false world0 = (Ok toy_d0, tick world0).
Proof. reflexivity. Qed.
Lemma toy_empty : no_files toy_root toy_name [x6b] (toy_salt 0) [A; B] (disk world0).
Proof. split; reflexivity. Qed.
Lemma toy_storable v : storable bytes toy_dumps toy_loads v.
Proof. destruct v; eexists; reflexivity. Qed.
Lemma toy_ok t v b : In t [A; B] -> op_ok bytes toy_dumps toy_loads [A; B] (SetTag _ t v b).
Proof. intros X. split; [intros u E; injection E as <-; exact X|]. intros. apply toy_storable. Qed.
Lemma toy_ok' o : (forall t, op_tag _ o = Some t -> In t [A; B]) -> op_ok bytes toy_dumps toy_loads [A; B] o.
Proof. intros X. split; [exact X|]. intros. apply toy_storable. Qed.
Ltac ok := match goal with
  | |- Forall _ [] => constructor
  | |- Forall _ (_ :: _) => constructor; [apply toy_ok'; intros ? E; try discriminate E; injection E as <-; cbn; auto|ok]
  end.
Definition some_ops : list (op bytes) :=
  [SetTag _ A (Bytes _ [x01]) true; SetTag _ B (Json _ [x02; x03]) false; SaveDatabase _; SetTag _ A (Bytes _ [x04]) true].
Lemma some_ops_ok : Forall (op_ok bytes toy_dumps toy_loads [A; B]) some_ops.
Proof. unfold some_ops. ok. Qed.

Example C40_case :
  fst (fst (toy_session (some_ops ++ [QueryTag _ A false false; QueryTag _ B false true; Length _; PopTag _ B false; Contains _ B; Length _]) toy_d0 (tick world0))) =
  [Done _; Done _; Done _; Done _; Got _ (Some (Bytes _ [x04])); Got _ (Some (Json _ [x02; x03])); Size _ 2; Got _ (Some (Json _ [x02; x03])); Truth _ false; Size _ 1].
Proof. vm_compute. reflexivity. Qed.
Example C40_case_of_theorem :
  exists rs, fst (fst (toy_session (some_ops ++ SetTag _ A (Bytes _ []) true :: [SetTag _ B (Bytes _ []) false; SaveDatabase _] ++ [QueryTag _ A false true]) toy_d0 (tick world0))) =
    rs ++ [Got _ (Some (Bytes _ []))].
Proof.
  refine (C40_last_value_set _ _ _ _ _ _ _ _ _ _ toy_salt _ _ _ toy_orders [x6b] [A; B] (toy_laws _ _) world0 (toy_distinct _ _ _) toy_empty true false _ _ toy_opened
    some_ops A (Bytes _ []) true [SetTag _ B (Bytes _ []) false; SaveDatabase _] false true (toy_storable _) _ some_ops_ok _ _).
  - cbn. auto.
  - ok.
  - constructor; [|constructor; [exact I|constructor]]. cbn. discriminate.
Qed.

Example C41_case :
  toy_life (map (Op _) (some_ops ++ [SetTag _ B (Bytes _ [x09]) true]) ++ [Reopen _ true true; Op _ (QueryTag _ A false false); Op _ (QueryTag _ B false false); Op _ (Length _)])
    toy_d0 (tick world0) =
  [Done _; Done _; Done _; Done _; Done _; Done _; Got _ (Some (Bytes _ [x01])); Got _ (Some (Json _ [x02; x03])); Size _ 2].
Proof. vm_compute. reflexivity. Qed.
Example C41_case_of_theorem :
  toy_life (map (Op _) some_ops ++ [Reopen _ true true; Op _ (QueryTag _ A false false)]) toy_d0 (tick world0) =
  alife bytes toy_dumps toy_loads toy_order (map (Op _) some_ops ++ [Reopen _ true true; Op _ (QueryTag _ A false false)]) (empty _).
Proof.
  refine (C41_life_is_the_abstract_life _ _ _ _ _ _ _ _ _ _ toy_salt _ _ _ toy_orders [x6b] [A; B] (toy_laws _ _) world0 (toy_distinct _ _ _) toy_empty true false _ _ toy_opened _ _ _).
  - pose proof some_ops_ok as S. unfold some_ops in *. inversion_clear S as [|? ? S1 S']. inversion_clear S' as [|? ? S2 S'']. inversion_clear S'' as [|? ? S3 S]. inversion_clear S as [|? ? S4 _].
    cbn. repeat (constructor; [assumption|]). constructor; [exact I|]. constructor; [|constructor]. apply toy_ok'. intros ? E. injection E as <-. cbn. auto.
  - exact I.
Qed.

Example C42_case :
  fst (fst (toy_session (some_ops ++ [RollbackTag _ A true; GetItem _ A; SetTag _ A (Bytes _ []) true; ClearCache _; GetItem _ A; QueryTag _ A true false]) toy_d0 (tick world0))) =
  [Done _; Done _; Done _; Done _; Done _; Got _ (Some (Bytes _ [x01])); Done _; Done _; Got _ None; Got _ (Some (Bytes _ [x01]))].
Proof. vm_compute. reflexivity. Qed.

(** A save after [some_ops] interrupted after one of its two operations: the
    value of A is still the old one; after two it is the new one. *)
Definition after_ops : db bytes bytes * world := let '(_, d, w) := toy_session some_ops toy_d0 (tick world0) in (d, w).
Definition saving : list fileop := skipn (length (log (snd after_ops))) (log (snd (toy_save (fst after_ops) (snd after_ops)))).
Definition crashed (n : nat) : world := {| disk := replay (firstn n saving) (disk (snd after_ops)); log := []; clock := 99 |}.
Definition value_after (n : nat) : list (reply bytes) :=
  match toy_open [x6b] true false (crashed n) with
  | (Ok d, w) => fst (fst (toy_session [QueryTag _ A false false] d w))
  | (Err e, _) => [Raised _ e]
  end.
Example C43_case : length saving = 2 /\ map value_after [0; 1; 2] =
  [[Got _ (Some (Bytes _ [x01]))]; [Got _ (Some (Bytes _ [x01]))]; [Got _ (Some (Bytes _ [x04]))]].
Proof. vm_compute. split; reflexivity. Qed.
Example C43_torn_case :
  match toy_open [x6b] true false {| disk := apply_op (Write (toy_root [x6b]) []) (disk (snd after_ops)); log := []; clock := 99 |} with
  | (Err e, _) => e = InvalidSHMAC
  | (Ok _, _) => False
  end.
Proof. vm_compute. reflexivity. Qed.

Example C44_case :
  match toy_load (fst after_ops) true true true (snd after_ops) with
  | (Ok _, d, w) => fst (fst (toy_session [QueryTag _ A false false] d w)) = [Got _ (Some (Bytes _ [x04]))]
  | _ => False
  end.
Proof. vm_compute. reflexivity. Qed.

(** A tag saved on its own in a database that was never saved is not found. *)
Example C45_case :
  toy_life [Op _ (SetTag _ A (Bytes _ [x01]) false); Op _ (QueryTag _ A false false); Reopen _ true true; Op _ (Contains _ A); Op _ (QueryTag _ A false false)] toy_d0 (tick world0) =
  [Done _; Got _ (Some (Bytes _ [x01])); Done _; Truth _ false; Raised _ LookupErr].
Proof. vm_compute. reflexivity. Qed.
Example C45_found_case :
  toy_life [Op _ (SaveDatabase _); Op _ (SetTag _ A (Bytes _ [x01]) false); Reopen _ true true; Op _ (Contains _ A); Op _ (QueryTag _ A false false)] toy_d0 (tick world0) =
  [Done _; Done _; Done _; Truth _ false; Got _ (Some (Bytes _ [x01]))].
Proof. vm_compute. reflexivity. Qed.

Print Assumptions C40_opening_succeeds.
Print Assumptions C40_session_is_the_map.
Print Assumptions C40_last_value_set.
Print Assumptions C40_removed_tag.
Print Assumptions C40_other_tags.
Print Assumptions C40_listing_agrees.
Print Assumptions C40_listed_tags_have_values_partial.
Print Assumptions C40_listed_tags_have_values_refuted.
Print Assumptions C41_life_is_the_abstract_life.
Print Assumptions C41_saved_values_survive.
Print Assumptions C42_rollback.
Print Assumptions C42_clear.
Print Assumptions C42_stored_is_on_disk.
Print Assumptions C43_crash_between_file_operations.
Print Assumptions C43_crash_within_the_manifest_write_refuted.
Print Assumptions C43_crash_within_a_tag_write_refuted.
Print Assumptions C44_reload_discards_unsaved_refuted.
Print Assumptions C44_reload_partial.
Print Assumptions C44_clear_then_reload.
Print Assumptions C45_saved_tag_is_found_refuted.
Print Assumptions C45_reload_of_a_never_saved_database_refuted.
Print Assumptions C45_saved_tag_is_found_partial.
