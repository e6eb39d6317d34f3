(** * Claim C96: mutable values in a database *)
From Coq Require Import Lia.
From Verif Require Import Base AliasModel AliasSpec AliasProofs.

Section Claims.
Context {A K : Type}.
Variable limit : nat.
Notation step := (step A K limit).
Notation run := (run A K limit).
Notation memory := (memory A K).
Notation cache := (cache A K).
Notation files := (files A K).

(** Whatever is done, the cache refers to objects that are there, and each tag is cached once. *)
Theorem C96_stays_sound : forall os b, sound b -> sound (run os b).
Proof. intros os b. apply run_sound. Qed.

(** Files change only when the tag is saved or deleted: changing an object changes no file. *)
Theorem C96_files_are_snapshots : forall n os b,
  Forall (fun o => ~ stores n o) os -> files (run os b) n = files b n.
Proof. intros n os b. apply run_files. Qed.

(** The object in the cache is the user's: as long as the tag is not set again, dropped or
    rolled back, every query returns the same object, whatever has become of it. *)
Theorem C96_cached_queries : forall n a os b silent keep,
  get n (cache b) = Some a -> Forall (fun o => ~ displaces n o) os ->
  snd (step (Query A K n silent keep) (run os b)) = Object a /\ snd (step (Item A K n) (run os b)) = Object a.
Proof.
  intros n a os b silent keep G D. pose proof (run_cached limit n os a b D G) as G'. cbn. unfold query_tag, get_item. cbn.
  rewrite G'. auto.
Qed.

(** A query for a tag that is neither in the cache nor in a file says so, or returns nothing if
    it is asked to be silent, and changes nothing. *)
Theorem C96_missing_tags : forall n silent keep b,
  get n (cache b) = None -> files b n = None ->
  step (Query A K n silent keep) b = (b, if silent then Nothing else Raised LookupErr).
Proof. intros n silent keep b G F. cbn. unfold query_tag. cbn. rewrite G, F. reflexivity. Qed.

(** A save stores what the object looks like at that moment, and succeeds if the
    object can be followed to its end. *)
Theorem C96_save : forall n drop b b' r,
  step (Save A K n drop) b = (b', r) ->
  (r = Fine -> exists a t, get n (cache b) = Some a /\ looks any (memory b) a t /\ files b' n = Some t) /\
  (forall a t, get n (cache b) = Some a -> looks any (memory b) a t -> depth t <= limit -> r = Fine) /\
  (r <> Fine -> files b' n = files b n).
Proof.
  intros n drop b b' r E. cbn in E. unfold save_tag, save_file in E.
  destruct (get n (cache b)) as [a|] eqn:G.
  - destruct (dumps A K limit (memory b) a) as [t|] eqn:D.
    + assert (F : r = Fine /\ files b' n = Some t).
      { injection E as <- <-. split; [reflexivity|]. destruct drop; cbn; rewrite Nat.eqb_refl; reflexivity. }
      destruct F as (-> & F). split; [|split; [auto|congruence]].
      intros _. exists a, t. split; [reflexivity|]. split; [eapply dumps_looks; eauto|exact F].
    + assert (F : r = Raised ValueErr /\ files b' n = files b n).
      { injection E as <- <-. split; [reflexivity|]. destruct drop; reflexivity. }
      destruct F as (-> & F). split; [discriminate|]. split; [|auto]. intros a' t G' L Dp. exfalso. injection G' as <-.
      pose proof (proj1 (looks_dumps (memory b)) _ _ L limit Dp). congruence.
  - assert (F : r = Raised LookupErr /\ files b' n = files b n).
    { injection E as <- <-. split; [reflexivity|]. destruct drop; reflexivity. }
    destruct F as (-> & F). split; [discriminate|]. split; [discriminate|auto].
Qed.

(** So does saving the whole database, for every tag in the cache. *)
Theorem C96_save_all : forall b b',
  sound b -> step (SaveAll A K) b = (b', Fine) ->
  memory b' = memory b /\ cache b' = cache b /\
  (forall n a, get n (cache b) = Some a -> exists t, looks any (memory b) a t /\ files b' n = Some t) /\
  (forall n, get n (cache b) = None -> files b' n = files b n).
Proof.
  intros b b' (_ & _ & Nd) E. cbn in E. destruct (save_tags_memory _ _ _ _ _ E) as (M & C). split; [exact M|]. split; [exact C|].
  destruct (save_tags_fine limit _ Nd _ _ E) as (In_ & Out). split.
  - intros n a G. destruct (In_ n a (got_in _ _ _ G) G) as (t & D & F). exists t. split; [eapply dumps_looks; eauto|exact F].
  - intros n G. apply Out. intros I. clear - G I. induction (cache b) as [|[k x] c IH]; cbn in *; [exact I|].
    destruct (Nat.eqb_spec k n); [discriminate|]. destruct I; auto.
Qed.

(** What was saved comes back, whatever the user does to the objects in the meantime: a
    tag that is not in the cache is read from its file, as new objects. *)
Theorem C96_saved_values_come_back : forall n t os b silent keep,
  sound b -> files b n = Some t -> Forall (fun o => ~ stores n o) os -> get n (cache (run os b)) = None ->
  exists a, snd (step (Query A K n silent keep) (run os b)) = Object a /\
    length (memory (run os b)) <= a /\ looks any (memory (fst (step (Query A K n silent keep) (run os b)))) a t.
Proof.
  intros n t os b silent keep S F D G. cbn. unfold query_tag. rewrite G, (run_files limit n os b D), F.
  destruct (loads A K t (memory (run os b))) as [a h] eqn:L. destruct (loads_looks _ _ _ _ L) as (_ & Lk & _).
  exists a. split; [reflexivity|]. split; [inversion Lk; subst; unfold made in *; lia|].
  destruct keep; cbn; eapply looks_any; exact Lk.
Qed.

(** Objects that come from a file and are not kept in the cache are the caller's alone. Changing
    others does not change them, and changing them changes no object that was there before, and
    so nothing that the database holds. *)
Theorem C96_uncached_objects_are_private : forall n t b b' silent a os,
  sound b -> get n (cache b) = None -> files b n = Some t ->
  step (Query A K n silent false) b = (b', Object a) ->
  let new x := length (memory b) <= x < length (memory b') in
  cache b' = cache b /\ looks new (memory b') a t /\
  (Forall (spares new) os -> looks any (memory (run os b')) a t) /\
  (Forall (spares (fun x => ~ new x)) os ->
     forall c u, c < length (memory b) -> looks any (memory b) c u -> looks any (memory (run os b')) c u).
Proof.
  intros n t b b' silent a os (C & G & N) Gn F E new. cbn in E. unfold query_tag in E. rewrite Gn, F in E.
  destruct (loads A K t (memory b)) as [a1 h] eqn:L. injection E as <- <-.
  destruct (loads_looks _ _ _ _ L) as ((more & M) & Lk & _).
  split; [reflexivity|]. split; [exact Lk|]. split.
  - intros S. apply looks_any with (P := new). apply run_looks; [exact S|exact Lk].
  - intros S c u Lc Lu.
    assert (Lw : looks (fun x => x < length (memory b)) (memory b) c u).
    { apply (proj1 (looks_within (memory b) (length (memory b)) (fun x y z _ => C x y z))); assumption. }
    apply looks_any with (P := fun x => x < length (memory b)). apply run_looks.
    + eapply Forall_impl; [|exact S]. intros o. destruct o; cbn; auto. intros Nn Lt. apply Nn. unfold new. lia.
    + revert c u Lc Lu Lw. cbn. intros c u _ _ Lw. revert Lw.
      apply (proj1 (looks_same (fun x => x < length (memory b)) _ (memory b) h (fun _ H => H) (fun x y _ H => eq_ind_r (fun z => nth_error z x = Some y) (nth_grown _ more _ _ H) M))).
Qed.

(** Which tags are listed: setting a tag adds it, popping it removes it, and rolling it back
    removes it if it has no file; nothing else changes the list. *)
Theorem C96_listed_tags : forall o b m,
  In m (manifest A K (fst (step o b))) <->
  match o with
  | Set_ _ _ n a _ => In m (manifest A K b) \/ (m = n /\ a < length (memory b))
  | Pop _ _ n _ => In m (manifest A K b) /\ m <> n
  | Rollback _ _ n _ => In m (manifest A K b) /\ (files b n = None -> m <> n)
  | _ => In m (manifest A K b)
  end.
Proof.
  assert (Q : forall n silent keep b, manifest A K (fst (query_tag A K n silent keep b)) = manifest A K b).
  { intros n silent keep b. unfold query_tag. destruct (get n (cache b)); [reflexivity|].
    destruct (files b n); [|reflexivity]. destruct (loads A K t (memory b)). now destruct keep. }
  assert (S : forall n b, manifest A K (fst (save_file A K limit n b)) = manifest A K b).
  { intros n b. unfold save_file. destruct (get n (cache b)); [|reflexivity]. now destruct (dumps A K limit (memory b) n0). }
  assert (T : forall n d b, manifest A K (fst (save_tag A K limit n d b)) = manifest A K b).
  { intros n d b. unfold save_tag. specialize (S n b). destruct (save_file A K limit n b). now destruct d. }
  assert (F : forall l n m, In m (filter (fun m => negb (Nat.eqb m n)) l) <-> In m l /\ m <> n).
  { intros l n m. rewrite filter_In. destruct (Nat.eqb_spec m n); cbn; intuition congruence. }
  intros o b m. destruct o; cbn [AliasModel.step].
  - destruct (forallb _ _); reflexivity.
  - destruct (forallb _ _); reflexivity.
  - destruct (Nat.ltb_spec a (length (memory b))); [|cbn; intuition lia].
    assert (X : In m (if existsb (Nat.eqb n) (manifest A K b) then manifest A K b else manifest A K b ++ [n]) <->
                In m (manifest A K b) \/ (m = n /\ a < length (memory b))).
    { destruct (existsb (Nat.eqb n) (manifest A K b)) eqn:E.
      - apply existsb_exists in E. destruct E as (y & I & E). apply Nat.eqb_eq in E. subst y. intuition congruence.
      - rewrite in_app_iff. cbn. intuition congruence. }
    unfold set_tag. destruct cache_; [exact X|]. rewrite T. exact X.
  - now rewrite Q.
  - reflexivity.
  - now rewrite T.
  - enough (X : forall ns b, manifest A K (fst (save_tags A K limit ns b)) = manifest A K b) by (now rewrite X).
    clear b. induction ns as [|n ns IH]; intros b; cbn; [reflexivity|]. specialize (S n b).
    destruct (save_file A K limit n b) as [b' r]. cbn in S. destruct r; cbn; rewrite ?IH; exact S.
  - unfold rollback_tag. destruct (files b n) eqn:E.
    + replace (manifest A K (fst (_, Fine))) with (manifest A K b); [|destruct cache_; cbn; [now rewrite Q|reflexivity]].
      intuition congruence.
    + replace (manifest A K (fst (_, Fine))) with (filter (fun m => negb (Nat.eqb m n)) (manifest A K b));
        [|destruct cache_; cbn; [now rewrite Q|reflexivity]].
      rewrite F. intuition congruence.
  - reflexivity.
  - unfold pop_tag. pose proof (Q n true false b) as X. destruct (query_tag A K n true false b) as [b' v]. cbn in X |- *.
    rewrite X. apply F.
Qed.
End Claims.
Print Assumptions C96_stays_sound.
Print Assumptions C96_files_are_snapshots.
Print Assumptions C96_cached_queries.
Print Assumptions C96_missing_tags.
Print Assumptions C96_save.
Print Assumptions C96_save_all.
Print Assumptions C96_saved_values_come_back.
Print Assumptions C96_uncached_objects_are_private.
Print Assumptions C96_listed_tags.

(** An empty database, in a program with the list [1, 2], its parts being the objects 0 and 1. *)
Definition start : base nat nat :=
  {| memory := [Atom nat nat 1; Atom nat nat 2; Many nat nat [(0, 0); (1, 1)]]; cache := []; manifest := []; files := fun _ => None |}.
(** The list [1, 2]. *)
Definition one_two : tree nat nat := TMany nat nat [(0, TAtom nat nat 1); (1, TAtom nat nat 2)].
Lemma start_sound : sound start.
Proof.
  split; [|split; [discriminate|constructor]]. intros [|[|[|[|a]]]] x c N; cbn in N; try discriminate N; injection N as <-; cbn.
  - intros [].
  - intros [].
  - intros [<-|[<-|[]]]; lia.
Qed.

(** Not so: what is saved is what was set. The database has the object, not a copy. *)
Theorem C96_copies_refuted : ~ (forall limit n a t (b b' : base nat nat) x os r,
  sound b -> looks any (memory _ _ b) a t -> depth t <= limit ->
  os = [Set_ nat nat n a true; Change nat nat a x; Save nat nat n true] ->
  step _ _ limit (Query _ _ n true false) (run _ _ limit os b) = (b', Object r) -> looks any (memory _ _ b') r t).
Proof.
  intros H.
  assert (L : looks any (memory _ _ start) 2 one_two) by (apply (dumps_looks 5); reflexivity).
  specialize (H 5 7 2 one_two start _ (Many nat nat []) _ _ start_sound L ltac:(cbn; lia) eq_refl eq_refl).
  apply (proj1 (looks_dumps _)) with (f := 5) in H; [discriminate|cbn; lia].
Qed.
Print Assumptions C96_copies_refuted.

(** Nor: two tags are independent: with one object in both, changing the value of the first changes the second. *)
Theorem C96_independent_tags_refuted : ~ (forall limit n m a t (b : base nat nat) x c,
  n <> m -> sound b -> looks any (memory _ _ b) a t -> depth t <= limit ->
  let b1 := run _ _ limit [Set_ nat nat n a true; Set_ nat nat m a true] b in
  snd (step _ _ limit (Query _ _ n true false) b1) = Object c ->
  let b2 := run _ _ limit [Change nat nat c x; Save nat nat m true] b1 in
  files _ _ b2 m = Some t).
Proof.
  intros H.
  assert (L : looks any (memory _ _ start) 2 one_two) by (apply (dumps_looks 5); reflexivity).
  specialize (H 5 7 8 2 one_two start (Many nat nat []) 2 ltac:(discriminate) start_sound L ltac:(cbn; lia) eq_refl).
  discriminate H.
Qed.
Print Assumptions C96_independent_tags_refuted.

(** Nor: a save that fails keeps the value. With [drop_cache], and in [set_tag] with [cache=False], it is lost. *)
Theorem C96_failed_saves_refuted : ~ (forall limit n (b b' : base nat nat) e,
  sound b -> step _ _ limit (Save _ _ n true) b = (b', Raised e) -> get n (cache _ _ b') = get n (cache _ _ b)).
Proof.
  intros H.
  set (b := run nat nat 5 [Change nat nat 2 (Many nat nat [(0, 2)]); Set_ nat nat 7 2 true] start).
  assert (S : sound b) by (apply run_sound, start_sound).
  specialize (H 5 7 b _ _ S eq_refl). discriminate H.
Qed.
Print Assumptions C96_failed_saves_refuted.

(** Nor: a call of [set_tag] that raises has no effect: the tag is listed, has no value and hides none. *)
Theorem C96_failed_sets_refuted : ~ (forall limit n a (b b' : base nat nat) e,
  sound b -> step _ _ limit (Set_ _ _ n a false) b = (b', Raised e) -> manifest _ _ b' = manifest _ _ b).
Proof.
  intros H.
  set (b := run nat nat 5 [Change nat nat 2 (Many nat nat [(0, 2)])] start).
  assert (S : sound b) by (apply run_sound, start_sound).
  specialize (H 5 7 2 b _ _ S eq_refl). discriminate H.
Qed.
Print Assumptions C96_failed_sets_refuted.

(** Nor: a call of [save_database] that raises saves every value that can be saved. *)
Theorem C96_saves_go_on_refuted : ~ (forall limit n a t (b b' : base nat nat) e,
  sound b -> step _ _ limit (SaveAll _ _) b = (b', Raised e) ->
  get n (cache _ _ b) = Some a -> looks any (memory _ _ b) a t -> depth t <= limit -> files _ _ b' n = Some t).
Proof.
  intros H.
  set (b := run nat nat 5 [Change nat nat 2 (Many nat nat [(0, 2)]); Set_ nat nat 7 2 true; Set_ nat nat 8 0 true] start).
  assert (S : sound b) by (apply run_sound, start_sound).
  assert (L : looks any (memory _ _ b) 0 (TAtom nat nat 1)) by (apply (dumps_looks 5); reflexivity).
  specialize (H 5 8 0 _ b _ _ S eq_refl eq_refl L ltac:(cbn; lia)). discriminate H.
Qed.
Print Assumptions C96_saves_go_on_refuted.

(** A case: the list is saved under 7, then changed; the tag is dropped and read again: the list as it was, in new objects. *)
Example C96_case :
  let b := run nat nat 5 [Set_ nat nat 7 2 true; Save nat nat 7 false; Change nat nat 2 (Many nat nat []); Clear nat nat] start in
  files _ _ b 7 = Some one_two /\ get 7 (cache _ _ b) = None /\
  snd (step _ _ 5 (Query nat nat 7 false true) b) = Object 5 /\
  dumps _ _ 5 (memory _ _ (fst (step _ _ 5 (Query nat nat 7 false true) b))) 5 = Some one_two /\
  dumps _ _ 5 (memory _ _ b) 2 = Some (TMany nat nat []) /\
  Forall (fun o => ~ stores 7 o) [Change nat nat 2 (Many nat nat []); Clear nat nat] /\
  Forall (fun o => ~ displaces 7 o) [Save nat nat 7 false; Change nat nat 2 (Many nat nat [])].
Proof.
  repeat (split; [reflexivity|]). split.
  - repeat constructor; intros [].
  - constructor; [intros (_ & ?); discriminate|]. constructor; [intros []|constructor].
Qed.
