(** * Proofs about tasks that use sub-databases *)
From Coq Require Import Lia ZifyBool ZifyNat.
From Verif Require Import Base BaseFacts TasksModel SaveProofs MetaModel MetaSpec.

Lemma mem_in g l : mem g l = true <-> In g l.
Proof.
  unfold mem. rewrite existsb_exists. split; [intros [x [I E]]; apply Nat.eqb_eq in E; now subst | intros I; exists g; split; [exact I | apply Nat.eqb_refl]].
Qed.
Lemma mem_not g l : mem g l = false <-> ~ In g l.
Proof. rewrite <- mem_in. destruct (mem g l); split; congruence. Qed.
Lemma remove_in g l h : NoDup l -> In h (remove_one g l) <-> In h l /\ h <> g.
Proof.
  induction l as [| a l IH]; intros N; [cbn; tauto |]. inversion N as [| ? ? NI N']; subst. cbn [remove_one].
  destruct (Nat.eqb_spec a g) as [-> | D].
  - split; [intros I; split; [now right | intros ->; contradiction] |]. intros [[E | I] D]; [now destruct D | exact I].
  - cbn [In]. rewrite (IH N'). split; [intros [E | [I F]]; subst; auto | intros [[E | I] F]; subst; auto].
Qed.
Lemma remove_nodup g l : NoDup l -> NoDup (remove_one g l).
Proof.
  induction l as [| a l IH]; intros N; [exact N |]. inversion N as [| ? ? NI N']; subst. cbn [remove_one].
  destruct (Nat.eqb_spec a g); [exact N' |]. constructor; [rewrite (remove_in g l a N'); tauto | exact (IH N')].
Qed.
Lemma put_eq {A} g (x : A) f : put g x f g = x.
Proof. unfold put. now rewrite Nat.eqb_refl. Qed.
Lemma put_ne {A} g h (x : A) f : h <> g -> put g x f h = f h.
Proof. unfold put. intros D. destruct (Nat.eqb_spec h g); [contradiction | reflexivity]. Qed.

Section Proofs.
Context {S : Type}.
Variable draw : nat -> S.
Notation family := (family S). Notation mtask := (mtask S).
Notation mstep := (mstep draw). Notation mproceed := (mproceed draw). Notation mrun := (mrun draw).

Lemma mrun_app a b y : mrun (a ++ b) y = mrun b (mrun a y).
Proof. apply fold_left_app. Qed.
Lemma mrun_cons i l y : mrun (i :: l) y = mrun l (mproceed y i).
Proof. reflexivity. Qed.

(** ** Objects keep their names and salts *)
Definition stable (x x' : subdb S) : Prop := name x' = name x /\ salt x' = salt x.
Lemma with_health_nth h o l k x : nth_error l k = Some x -> exists x', nth_error (with_health h o l) k = Some x' /\ stable x x' /\ (k <> o -> x' = x).
Proof.
  intros H. unfold with_health. destruct (nth_error l o) as [z |] eqn:E; [| exists x; repeat split; assumption].
  rewrite (replace_nth _ _ _ _ _ E). destruct (Nat.eqb_spec k o) as [-> | D].
  - rewrite E in H. injection H as ->. eexists. split; [reflexivity |]. split; [split; reflexivity | intros C; now destruct C].
  - exists x. repeat split; auto.
Qed.
Lemma with_health_len h o (l : list (subdb S)) : length (with_health h o l) = length l.
Proof. unfold with_health. destruct (nth_error l o) eqn:E; [apply (replace_len _ _ _ _ E) | reflexivity]. Qed.
Lemma with_health_back h o (l : list (subdb S)) k x' : nth_error (with_health h o l) k = Some x' -> exists x, nth_error l k = Some x /\ stable x x'.
Proof.
  intros H. destruct (nth_error l k) as [x |] eqn:E.
  - exists x. split; [reflexivity |]. destruct (with_health_nth h o l k x E) as [z [Ez [St _]]]. rewrite H in Ez. injection Ez as ->. exact St.
  - apply nth_error_None in E. rewrite <- (with_health_len h o l) in E. apply nth_error_None in E. congruence.
Qed.

(** ** A step in general: which task moves, and where it gets *)
Definition rank (t : mtask) : nat :=
  match t with
  | MStart _ => 6 | MMaking _ => 3 | MReading _ => 2 | MSalted _ _ => 1
  | DLoop _ _ => 5 | DRoot _ _ => 4 | DGone _ _ => 3 | DNull _ _ => 2 | DLast _ _ => 1
  | VKeying _ _ => 3 | VSealing _ _ _ => 2 | VOpened _ _ _ _ => 1 | MDone _ => 0
  end.
(** The stages of an operation. *)
Definition runs (o : mop) (t : mtask) : Prop :=
  match t with
  | MStart o' => o' = o
  | MMaking g | MReading g | MSalted g _ => o = Meta g
  | DLoop g _ | DRoot g _ | DGone g _ | DNull g _ | DLast g _ => o = Delete g
  | VKeying g _ | VSealing g _ _ | VOpened g _ _ _ => o = MetaModel.Save g
  | MDone _ => True
  end.
Ltac cases :=
  repeat match goal with
  | |- context [match ?x with _ => _ end] =>
    match x with context [match _ with _ => _ end] => fail 1 | _ => destruct x eqn:? end
  end.
Lemma mstep_tasks i t y : nth_error (tasks y) i = Some t ->
  exists t', tasks (mstep i t y) = replace i t' (tasks y) /\ (rank t' <= pred (rank t))%nat /\ forall o, runs o t -> runs o t'.
Proof.
  intros H. unfold mstep.
  assert (F : forall z : mtask, nth_error (tasks y) i = Some z -> tasks y = replace i z (tasks y)).
  { clear. intros z. generalize (tasks y). intros l. revert i. induction l as [| a l IH]; intros i H; [destruct i; discriminate |].
    destruct i as [| i]; [injection H as ->; reflexivity |]. cbn in H |- *. unfold replace in *. cbn. f_equal. exact (IH i H). }
  destruct t as [[g | g | g] | | | | | | | | | | | | r]; cases;
    match goal with
    | |- context [tasks y = _] => idtac
    | |- _ => eexists; split; [reflexivity |]; split; [cbn; lia | cbn; intros; subst; auto]
    end.
  all: try (eexists; split; [reflexivity |]; split; [cbn; lia | cbn; intros; subst; auto; congruence]).
  eexists; split; [exact (F _ H) |]; split; [cbn; lia | auto].
Qed.
Lemma proceed_other y i k : k <> i -> nth_error (tasks (mproceed y i)) k = nth_error (tasks y) k.
Proof.
  intros D. unfold mproceed. destruct (nth_error (tasks y) i) as [t |] eqn:E; [| reflexivity].
  destruct (mstep_tasks i t y E) as [t' [-> _]]. rewrite (replace_nth _ _ _ _ _ E). destruct (Nat.eqb_spec k i); [contradiction | reflexivity].
Qed.
Lemma proceed_self y i t : nth_error (tasks y) i = Some t ->
  exists t', nth_error (tasks (mproceed y i)) i = Some t' /\ (rank t' <= pred (rank t))%nat.
Proof.
  intros E. unfold mproceed. rewrite E. destruct (mstep_tasks i t y E) as [t' [-> [R _]]]. exists t'.
  rewrite (replace_nth _ _ _ _ _ E), Nat.eqb_refl. split; [reflexivity | exact R].
Qed.
Lemma run_rank l : forall y i t, nth_error (tasks y) i = Some t ->
  exists t', nth_error (tasks (mrun l y)) i = Some t' /\ (rank t' <= rank t - count_occ Nat.eq_dec l i)%nat.
Proof.
  induction l as [| k l IH]; intros y i t E; [exists t; split; [exact E | cbn; lia] |].
  rewrite mrun_cons. cbn [count_occ]. destruct (Nat.eq_dec k i) as [-> | D].
  - destruct (proceed_self y i t E) as [t1 [E1 R1]]. destruct (IH _ _ _ E1) as [t2 [E2 R2]]. exists t2. split; [exact E2 | lia].
  - rewrite <- (proceed_other y k i) in E by congruence. destruct (IH _ _ _ E) as [t2 [E2 R2]]. exists t2. split; [exact E2 | lia].
Qed.
Lemma rank_done (t : mtask) : rank t = 0%nat -> exists r, t = MDone r.
Proof. destruct t; cbn; intros H; try lia. now exists r. Qed.

(** ** The parent stays consistent *)
Definition sound (y : family) : Prop :=
  NoDup (metatags y) /\ (forall g, In g (metatags y) <-> attrs y g <> None) /\
  forall g o, attrs y g = Some o -> exists x, nth_error (objects y) o = Some x /\ name x = g.
Lemma sound_consistent y : sound y -> consistent y.
Proof.
  intros [N [L A]]. split; [exact N |]. split.
  - intros g. destruct (attrs y g) as [o |] eqn:E.
    + left. exists o. split; [| exact E]. apply L. congruence.
    + right. split; [| exact E]. rewrite L. congruence.
  - intros g o [_ E]. exact (A g o E).
Qed.

Lemma sound_same y y' : attrs y' = attrs y -> metatags y' = metatags y -> objects y' = objects y -> sound y -> sound y'.
Proof. unfold sound. intros -> -> ->. auto. Qed.
Lemma sound_heals h o y y' : attrs y' = attrs y -> metatags y' = metatags y -> objects y' = with_health h o (objects y) -> sound y -> sound y'.
Proof.
  unfold sound. intros -> -> -> [N [L A]]. split; [exact N |]. split; [exact L |]. intros g k E. destruct (A g k E) as [x [Ex Nx]].
  destruct (with_health_nth h o _ _ _ Ex) as [x' [Ex' [[Sn _] _]]]. exists x'. split; [exact Ex' | congruence].
Qed.
Lemma sound_removed g y y' : attrs y' = put g None (attrs y) -> metatags y' = remove_one g (metatags y) -> objects y' = objects y -> sound y -> sound y'.
Proof.
  unfold sound. intros -> -> -> [N [L A]]. split; [now apply remove_nodup |]. split.
  - intros h. rewrite (remove_in g _ h N). destruct (Nat.eq_dec h g) as [-> | D]; [rewrite put_eq; tauto |]. rewrite put_ne by exact D. rewrite L. tauto.
  - intros h k E. destruct (Nat.eq_dec h g) as [-> | D]; [rewrite put_eq in E; discriminate |]. rewrite put_ne in E by exact D. exact (A h k E).
Qed.
Lemma sound_step i t y : sound y -> sound (mstep i t y).
Proof.
  intros Sd. pose proof Sd as [N [L A]]. unfold mstep.
  destruct t as [[g | g | g] | | g | g s | | g o | g o | g o | g o | | | | r]; cases;
    try (solve [apply (sound_same y); [reflexivity | reflexivity | reflexivity | exact Sd]]);
    try (solve [eapply (sound_heals _ _ y); [reflexivity | reflexivity | reflexivity | exact Sd]]).
  - (* a name that is there *) apply (sound_same y); [reflexivity | cbn -[mem] | reflexivity | exact Sd].
    assert (M : mem g (metatags y) = true) by (apply mem_in, L; congruence). now rewrite M.
  - (* a new object *)
    assert (X : forall h k, put g (Some (length (objects y))) (attrs y) h = Some k ->
      exists x, nth_error (objects y ++ [{| name := g; salt := s; health_ := Live |}]) k = Some x /\ name x = h).
    { intros h k E. destruct (Nat.eq_dec h g) as [-> | D].
      - rewrite put_eq in E. injection E as <-. exists {| name := g; salt := s; health_ := Live |}. split; [| reflexivity].
        rewrite nth_error_app2 by lia. now rewrite Nat.sub_diag.
      - rewrite put_ne in E by exact D. destruct (A h k E) as [x [Ex Nx]]. exists x. split; [| exact Nx].
        rewrite nth_error_app1; [exact Ex | apply nth_error_Some; congruence]. }
    unfold sound. cbn -[mem put].
    assert (Y : forall l, (forall h, In h l <-> In h (metatags y) \/ h = g) -> forall h, In h l <-> put g (Some (length (objects y))) (attrs y) h <> None).
    { intros l Hl h. rewrite Hl. destruct (Nat.eq_dec h g) as [-> | D]; [rewrite put_eq; split; [discriminate | now right] |].
      rewrite put_ne by exact D. rewrite L. tauto. }
    destruct (mem g (metatags y)) eqn:M; (split; [| split; [apply Y | exact X]]).
    + exact N.
    + apply mem_in in M. intros h. split; [now left | intros [I | ->]; assumption].
    + apply mem_not in M.
      clear - N M. induction (metatags y) as [| a l IH]; [constructor; [auto | constructor] |].
      inversion N; subst. cbn. constructor; [rewrite in_app_iff; cbn; intros [? | [-> | []]]; [contradiction | apply M; now left] |].
      apply IH; [assumption | intros I; apply M; now right].
    + intros h. rewrite in_app_iff. cbn. split; [intros [I | [-> | []]]; auto | intros [I | ->]; auto].
  - eapply (sound_removed _ y); [reflexivity | reflexivity | reflexivity | exact Sd].
  - eapply (sound_removed _ y); [reflexivity | reflexivity | reflexivity | exact Sd].
Qed.

Lemma sound_run l : forall y, sound y -> sound (mrun l y).
Proof.
  induction l as [| i l IH]; intros y H; [exact H |]. rewrite mrun_cons. apply IH. unfold mproceed.
  destruct (nth_error (tasks y) i); [now apply sound_step | exact H].
Qed.

(** ** Every task is at a stage of its operation *)
Definition follows (os : list mop) (P : mop -> mtask -> Prop) (y : family) : Prop :=
  length (tasks y) = length os /\ forall k o t, nth_error os k = Some o -> nth_error (tasks y) k = Some t -> P o t.
Lemma follows_step os (P : family -> mop -> mtask -> Prop) y i t o y' t' : follows os (P y) y -> nth_error os i = Some o -> nth_error (tasks y) i = Some t ->
  tasks y' = replace i t' (tasks y) -> P y' o t' -> (forall o t, P y o t -> P y' o t) -> follows os (P y') y'.
Proof.
  intros [Ln F] Eo Et Ey Pt M. split; [rewrite Ey, (replace_len _ _ _ _ Et); exact Ln |]. intros k o1 t1 E1 E2.
  rewrite Ey, (replace_nth _ _ _ _ _ Et) in E2. destruct (Nat.eqb_spec k i) as [-> | D].
  - injection E2 as <-. rewrite Eo in E1. injection E1 as <-. exact Pt.
  - apply M, (F k); assumption.
Qed.
Lemma follows_op os P y i t : follows os P y -> nth_error (tasks y) i = Some t -> exists o, nth_error os i = Some o /\ P o t.
Proof.
  intros [Ln F] E. destruct (nth_error os i) as [o |] eqn:Eo; [exists o; split; [reflexivity | exact (F i o t Eo E)] |].
  apply nth_error_None in Eo. assert (i < length (tasks y))%nat by (apply nth_error_Some; congruence). lia.
Qed.
Lemma follows_start os (P : mop -> mtask -> Prop) y : tasks y = map MStart os -> (forall o, P o (MStart o)) -> follows os P y.
Proof.
  intros E H. split; [rewrite E; apply map_length |]. intros k o t Eo Et. rewrite E in Et.
  rewrite (map_nth_error (@MStart S) k os Eo) in Et. injection Et as <-. apply H.
Qed.

(** ** A sub-database that is open and not deleted *)
Section Open_.
Variables (g o0 : nat) (s0 : S).
Definition here (y : family) : Prop := attrs y g = Some o0 /\ nth_error (objects y) o0 = Some {| name := g; salt := s0; health_ := Live |}.
Definition okA (y : family) (op : mop) (t : mtask) : Prop :=
  runs op t /\ op <> Delete g /\
  match t with
  | MStart _ => True
  | MMaking h | MReading h | MSalted h _ => h <> g
  | DLoop h o | DRoot h o | DGone h o | DNull h o | DLast h o => h <> g /\ o <> o0
  | VKeying h o => h = g -> o = o0
  | VSealing h o c => h = g -> o = o0 /\ c = Some s0
  | VOpened h o c n => h = g -> o = o0 /\ c = Some s0 /\ exists x, roots y g = Some (n, x)
  | MDone r => (op = Meta g -> r = Got o0) /\ (op = MetaModel.Save g -> r = Fine /\ roots y g <> None)
  end.
Definition fileA (y : family) : Prop :=
  match roots y g with
  | None => True
  | Some (_, Sealed c) => c = Some s0
  | Some (n, Empty) => exists k o c, nth_error (tasks y) k = Some (VOpened g o c n)
  | Some (_, Spoiled) => False
  end.
Definition kept_number (y y' : family) : Prop := forall n x, roots y g = Some (n, x) -> exists x', roots y' g = Some (n, x').
Lemma okA_mono y y' op t : kept_number y y' -> okA y op t -> okA y' op t.
Proof.
  intros K [R [D H]]. split; [exact R |]. split; [exact D |]. destruct t; try exact H.
  - intros E. destruct (H E) as [A [B [x C]]]. split; [exact A |]. split; [exact B |]. exact (K _ _ C).
  - destruct H as [A B]. split; [exact A |]. intros E. destruct (B E) as [C Dn]. split; [exact C |].
    destruct (roots y g) as [[n x] |] eqn:Er; [| now destruct Dn]. destruct (K _ _ Er) as [x' ->]. discriminate.
Qed.

(** What a step does that leaves the file of [g] alone. *)
Lemma fileA_other y y' i t t' : roots y' g = roots y g -> nth_error (tasks y) i = Some t -> tasks y' = replace i t' (tasks y) ->
  (forall o c n, t <> VOpened g o c n) -> fileA y -> fileA y'.
Proof.
  unfold fileA. intros -> Et Ey N F. destruct (roots y g) as [[n [| c |]] |]; auto. destruct F as [k [o [c Ek]]]. exists k, o, c.
  rewrite Ey, (replace_nth _ _ _ _ _ Et). destruct (Nat.eqb_spec k i) as [-> |]; [rewrite Et in Ek; injection Ek as ->; now destruct (N o c n) | exact Ek].
Qed.
Lemma health_here y : here y -> health_of o0 y = Live.
Proof. intros [_ E]. unfold health_of. now rewrite E. Qed.
Lemma here_same y y' : attrs y' = attrs y -> objects y' = objects y -> here y -> here y'.
Proof. unfold here. intros -> ->. auto. Qed.
Lemma here_heals h o y y' : o <> o0 -> attrs y' = attrs y -> objects y' = with_health h o (objects y) -> here y -> here y'.
Proof.
  unfold here. intros D -> -> [A E]. split; [exact A |]. destruct (with_health_nth h o _ _ _ E) as [x [Ex [_ Q]]]. rewrite Ex. f_equal. apply Q. congruence.
Qed.

Lemma stepA i t y op : sound y -> here y -> fileA y -> nth_error (tasks y) i = Some t -> okA y op t ->
  let y' := mstep i t y in
  here y' /\ kept_number y y' /\ fileA y' /\ exists t', tasks y' = replace i t' (tasks y) /\ okA y' op t'.
Proof.
  intros [N [L A]] H F Et [R [ND Ok]]. cbn zeta.
  assert (NO : forall h o, h <> g -> attrs y h = Some o -> o <> o0).
  { intros h o D E ->. destruct (A h o0 E) as [x [Ex Nx]]. destruct H as [_ Eo]. rewrite Eo in Ex. injection Ex as <-. cbn in Nx. congruence. }
  assert (KS : forall y', roots y' g = roots y g -> kept_number y y') by (intros y' E n x Er; exists x; congruence).
  (* a step that leaves the object and the file alone *)
  assert (Q : forall t' y', mstep i t y = y' -> tasks y' = replace i t' (tasks y) -> here y' -> roots y' g = roots y g ->
    (forall o c n, t <> VOpened g o c n) -> okA y' op t' ->
    here (mstep i t y) /\ kept_number y (mstep i t y) /\ fileA (mstep i t y) /\ exists t', tasks (mstep i t y) = replace i t' (tasks y) /\ okA (mstep i t y) op t').
  { intros t' y' -> Ty Hy Ry NV Oy. split; [exact Hy |]. split; [now apply KS |]. split; [eapply fileA_other; eassumption |]. exists t'. split; assumption. }
  destruct t as [[h | h | h] | h | h | h s | h o | h o | h o | h o | h o | h o | h o c | h o c n | r]; cbn [runs] in R; subst.
  - (* ametatag *)
    destruct (attrs y h) as [o |] eqn:E.
    + eapply Q; [unfold mstep; rewrite E; reflexivity | reflexivity | apply (here_same y); [reflexivity | reflexivity | exact H] | reflexivity | discriminate |].
      split; [exact I |]. split; [exact ND |]. split; [intros [=->]; destruct H; congruence | discriminate].
    + eapply Q; [unfold mstep; rewrite E; reflexivity | reflexivity | apply (here_same y); [reflexivity | reflexivity | exact H] | reflexivity | discriminate |].
      split; [reflexivity |]. split; [exact ND |]. intros ->. destruct H; congruence.
  - (* adelete_metatag *)
    assert (D : h <> g) by congruence.
    unfold mstep in *. destruct (mem h (metatags y)) eqn:M.
    2: eapply Q; [reflexivity | reflexivity | apply (here_same y); [reflexivity | reflexivity | exact H] | reflexivity | discriminate | split; [exact I |]; split; [exact ND |]; split; discriminate].
    destruct (attrs y h) as [o |] eqn:E.
    2: eapply Q; [reflexivity | reflexivity | apply (here_same y); [reflexivity | reflexivity | exact H] | reflexivity | discriminate | split; [exact I |]; split; [exact ND |]; split; discriminate].
    destruct (health_of o y).
    + eapply Q; [reflexivity | reflexivity | apply (here_same y); [reflexivity | reflexivity | exact H] | reflexivity | discriminate |].
      split; [reflexivity |]. split; [exact ND |]. split; [exact D | exact (NO h o D E)].
    + eapply Q; [reflexivity | reflexivity | apply (here_same y); [reflexivity | reflexivity | exact H] | reflexivity | discriminate | split; [exact I |]; split; [exact ND |]; split; discriminate].
    + eapply Q; [reflexivity | reflexivity | apply (here_same y); [reflexivity | reflexivity | exact H] | reflexivity | discriminate | split; [exact I |]; split; [exact ND |]; split; discriminate].
  - (* asave_database *)
    unfold mstep in *. destruct (attrs y h) as [o |] eqn:E.
    2: { eapply Q; [reflexivity | reflexivity | apply (here_same y); [reflexivity | reflexivity | exact H] | reflexivity | discriminate |].
         split; [exact I |]. split; [exact ND |]. split; [discriminate | intros [=->]; destruct H; congruence]. }
    assert (W : h = g -> o = o0) by (intros ->; destruct H; congruence).
    destruct (health_of o y) eqn:Ho.
    3: { eapply Q; [reflexivity | reflexivity | apply (here_same y); [reflexivity | reflexivity | exact H] | reflexivity | discriminate |].
         split; [exact I |]. split; [exact ND |]. split; [discriminate | intros [=->]; rewrite (W eq_refl), (health_here y H) in Ho; discriminate]. }
    + eapply Q; [reflexivity | reflexivity | apply (here_same y); [reflexivity | reflexivity | exact H] | reflexivity | discriminate |].
      split; [reflexivity |]. split; [exact ND | exact W].
    + eapply Q; [reflexivity | reflexivity | apply (here_same y); [reflexivity | reflexivity | exact H] | reflexivity | discriminate |].
      split; [reflexivity |]. split; [exact ND | exact W].
  - unfold mstep in *. destruct (roots y h) as [f |].
    + eapply Q; [reflexivity | reflexivity | apply (here_same y); [reflexivity | reflexivity | exact H] | reflexivity | discriminate |].
      split; [reflexivity |]. split; [exact ND | exact Ok].
    + eapply Q; [reflexivity | reflexivity | apply (here_same y); [reflexivity | reflexivity | exact H] | reflexivity | discriminate |].
      split; [reflexivity |]. split; [exact ND | exact Ok].
  - assert (X : forall r, okA y (Meta h) (MDone r)) by (intros r; split; [exact I |]; split; [exact ND |]; split; [intros [=->]; now destruct Ok | discriminate]).
    unfold mstep in *. destruct (roots y h) as [[n [| [s |] |]] |].
    + eapply Q; [reflexivity | reflexivity | apply (here_same y); [reflexivity | reflexivity | exact H] | reflexivity | discriminate |].
      eapply okA_mono; [| apply X]. now apply KS.
    + eapply Q; [reflexivity | reflexivity | apply (here_same y); [reflexivity | reflexivity | exact H] | reflexivity | discriminate |].
      split; [reflexivity |]. split; [exact ND | exact Ok].
    + eapply Q; [reflexivity | reflexivity | apply (here_same y); [reflexivity | reflexivity | exact H] | reflexivity | discriminate |].
      eapply okA_mono; [| apply X]. now apply KS.
    + eapply Q; [reflexivity | reflexivity | apply (here_same y); [reflexivity | reflexivity | exact H] | reflexivity | discriminate |].
      eapply okA_mono; [| apply X]. now apply KS.
    + eapply Q; [reflexivity | reflexivity | apply (here_same y); [reflexivity | reflexivity | exact H] | reflexivity | discriminate |].
      eapply okA_mono; [| apply X]. now apply KS.
  - eapply Q; [reflexivity | reflexivity | | reflexivity | discriminate |].
    + destruct H as [H1 H2]. split; cbn -[put].
      * rewrite put_ne by congruence. exact H1.
      * rewrite nth_error_app1; [exact H2 | apply nth_error_Some; congruence].
    + split; [exact I |]. split; [exact ND |]. split; [intros [=->]; now destruct Ok | discriminate].
  - assert (X : okA y (Delete h) (DRoot h o)) by (split; [reflexivity |]; split; [exact ND | exact Ok]).
    assert (X' : forall r, okA y (Delete h) (MDone r)) by (intros r; split; [exact I |]; split; [exact ND |]; split; discriminate).
    unfold mstep in *. destruct (health_of o y); (eapply Q; [reflexivity | reflexivity | apply (here_same y); [reflexivity | reflexivity | exact H] | reflexivity | discriminate |]);
      (eapply okA_mono; [| first [apply X | apply X']]; now apply KS).
  - eapply Q; [reflexivity | reflexivity | apply (here_same y); [reflexivity | reflexivity | exact H] | cbn -[put]; rewrite put_ne; [reflexivity | destruct Ok; congruence] | discriminate |].
    split; [reflexivity |]. split; [exact ND | exact Ok].
  - assert (X' : forall r, okA y (Delete h) (MDone r)) by (intros r; split; [exact I |]; split; [exact ND |]; split; discriminate).
    unfold mstep in *. destruct (health_of o y);
      (eapply Q; [reflexivity | reflexivity | first [eapply (here_heals Cleared o y); [apply Ok | reflexivity | reflexivity | exact H] | apply (here_same y); [reflexivity | reflexivity | exact H]] | reflexivity | discriminate |]);
      first [split; [reflexivity |]; split; [exact ND | exact Ok] | eapply okA_mono; [| apply X']; now apply KS].
  - eapply Q; [reflexivity | reflexivity | eapply (here_heals Stripped o y); [apply Ok | reflexivity | reflexivity | exact H] | reflexivity | discriminate |].
    split; [reflexivity |]. split; [exact ND | exact Ok].
  - assert (X' : forall r, okA y (Delete h) (MDone r)) by (intros r; split; [exact I |]; split; [exact ND |]; split; discriminate).
    unfold mstep in *. destruct (attrs y h) as [k |].
    + eapply Q; [reflexivity | reflexivity | | reflexivity | discriminate | eapply okA_mono; [| apply X']; now apply KS].
      destruct H as [H1 H2]. split; [cbn -[put]; rewrite put_ne by (destruct Ok; congruence); exact H1 | exact H2].
    + eapply Q; [reflexivity | reflexivity | apply (here_same y); [reflexivity | reflexivity | exact H] | reflexivity | discriminate | eapply okA_mono; [| apply X']; now apply KS].
  - unfold mstep in *. destruct (health_of o y) eqn:Ho;
      (eapply Q; [reflexivity | reflexivity | apply (here_same y); [reflexivity | reflexivity | exact H] | reflexivity | discriminate |]);
      (split; [reflexivity |]; split; [exact ND |]; intros ->; rewrite (Ok eq_refl) in *; split; [reflexivity |]);
      [destruct H as [_ ->]; reflexivity | rewrite (health_here y H) in Ho; discriminate | rewrite (health_here y H) in Ho; discriminate].
  - (* opening the file *)
    assert (B : health_of o y <> Stripped -> mstep i (VSealing h o c) y = goes i (VOpened h o c (match roots y h with Some (n, _) => n | None => born y end)) (opens h y)).
    { intros D. unfold mstep. destruct (health_of o y); [reflexivity | reflexivity | now destruct D]. }
    destruct (Nat.eq_dec h g) as [-> | D].
    + destruct (Ok eq_refl) as [-> ->]. rewrite B by (rewrite (health_here y H); discriminate).
      split; [apply (here_same y); [reflexivity | reflexivity | exact H] |].
      split; [intros n x Er; exists Empty; cbn -[put]; rewrite put_eq, Er; reflexivity |].
      split; [unfold fileA; cbn -[put]; rewrite put_eq; exists i, o0, (Some s0); rewrite (replace_nth _ _ _ _ _ Et), Nat.eqb_refl; reflexivity |].
      eexists. split; [reflexivity |]. split; [reflexivity |]. split; [exact ND |]. intros _. split; [reflexivity |]. split; [reflexivity |].
      exists Empty. cbn -[put]. rewrite put_eq. reflexivity.
    + destruct (health_of o y) eqn:Ho.
      * eapply Q; [apply B; discriminate | reflexivity | apply (here_same y); [reflexivity | reflexivity | exact H] | cbn -[put]; rewrite put_ne by congruence; reflexivity | discriminate |].
        split; [reflexivity |]. split; [exact ND |]. intros; contradiction.
      * eapply Q; [apply B; discriminate | reflexivity | apply (here_same y); [reflexivity | reflexivity | exact H] | cbn -[put]; rewrite put_ne by congruence; reflexivity | discriminate |].
        split; [reflexivity |]. split; [exact ND |]. intros; contradiction.
      * eapply Q; [unfold mstep; rewrite Ho; reflexivity | reflexivity | apply (here_same y); [reflexivity | reflexivity | exact H] | reflexivity | discriminate |].
        split; [exact I |]. split; [exact ND |]. split; [discriminate | intros [=]; contradiction].
  - (* writing it *)
    destruct (Nat.eq_dec h g) as [-> | D].
    + destruct (Ok eq_refl) as [-> [-> [x Er]]]. unfold mstep. rewrite Er, Nat.eqb_refl, (health_here y H).
      split; [apply (here_same y); [reflexivity | reflexivity | exact H] |].
      split; [intros n' x' Er'; rewrite Er in Er'; injection Er' as <- <-; eexists; cbn -[put]; rewrite put_eq; reflexivity |].
      split; [unfold fileA; cbn -[put over]; rewrite put_eq; destruct x; reflexivity |].
      eexists. split; [reflexivity |]. split; [exact I |]. split; [exact ND |]. split; [discriminate |]. intros _. split; [reflexivity |].
      cbn -[put]. rewrite put_eq. discriminate.
    + assert (X : forall y' r, okA y' (MetaModel.Save h) (MDone r)) by (intros y' r; split; [exact I |]; split; [exact ND |]; split; [discriminate | intros [=]; contradiction]).
      unfold mstep in *. destruct (roots y h) as [[m x] |] eqn:Er; [destruct (Nat.eqb m n) |].
      * eapply Q; [reflexivity | reflexivity | apply (here_same y); [reflexivity | reflexivity | exact H] | cbn -[put]; rewrite put_ne by congruence; reflexivity | congruence | apply X].
      * eapply Q; [reflexivity | reflexivity | apply (here_same y); [reflexivity | reflexivity | exact H] | reflexivity | congruence | apply X].
      * eapply Q; [reflexivity | reflexivity | apply (here_same y); [reflexivity | reflexivity | exact H] | reflexivity | congruence | apply X].
  - split; [exact H |]. split; [now apply KS |]. split; [exact F |]. destruct (mstep_tasks i (MDone r) y Et) as [t' [E [Rk _]]].
    exists (MDone r). split; [| split; [exact I |]; split; [exact ND | exact Ok]].
    cbn [mstep] in *. clear - Et. revert i Et. generalize (tasks y). intros l. induction l as [| a l IH]; intros i Et; [destruct i; discriminate |].
    destruct i as [| i]; [injection Et as ->; reflexivity |]. cbn in Et |- *. unfold replace in *. cbn. f_equal. exact (IH i Et).
Qed.
Definition invA os y := sound y /\ here y /\ fileA y /\ follows os (okA y) y.
Lemma runA os l : forall y, invA os y -> invA os (mrun l y).
Proof.
  induction l as [| i l IH]; intros y H; [exact H |]. rewrite mrun_cons. apply IH. destruct H as [Sd [Hr [Fl Fo]]].
  unfold mproceed. destruct (nth_error (tasks y) i) as [t |] eqn:Et; [| split; [exact Sd |]; split; [exact Hr |]; split; assumption].
  destruct (follows_op _ _ _ _ _ Fo Et) as [op [Eo Ok]]. destruct (stepA i t y op Sd Hr Fl Et Ok) as [A [B [C [t' [D E]]]]].
  split; [now apply sound_step |]. split; [exact A |]. split; [exact C |].
  eapply (follows_step os okA); [exact Fo | exact Eo | exact Et | exact D | exact E |]. intros o1 t1. now apply okA_mono.
Qed.
End Open_.

(** ** Tasks and the names of their objects *)
Definition named (y : family) (o h : nat) : Prop := exists x, nth_error (objects y) o = Some x /\ name x = h.
Definition okN (y : family) (op : mop) (t : mtask) : Prop :=
  runs op t /\
  match t with
  | DLoop h o | DRoot h o | DGone h o | DNull h o | DLast h o => named y o h
  | MDone (Got o) => exists h, op = Meta h /\ named y o h
  | _ => True
  end.
Definition grown (y y' : family) : Prop := forall k x, nth_error (objects y) k = Some x -> exists x', nth_error (objects y') k = Some x' /\ stable x x'.
Lemma grown_same y y' : objects y' = objects y -> grown y y'.
Proof. intros E k x H. exists x. rewrite E. split; [exact H | split; reflexivity]. Qed.
Lemma grown_step i t y : grown y (mstep i t y).
Proof.
  unfold mstep. destruct t as [[g | g | g] | | g | g s | | g o | g o | g o | g o | | | | r]; cases; try (apply grown_same; reflexivity).
  - intros k x H. exists x. split; [| split; reflexivity]. cbn. rewrite nth_error_app1; [exact H | apply nth_error_Some; congruence].
  - intros k x H. destruct (with_health_nth Cleared o _ _ _ H) as [x' [E [St _]]]. exists x'. split; assumption.
  - intros k x H. destruct (with_health_nth Cleared o _ _ _ H) as [x' [E [St _]]]. exists x'. split; assumption.
  - intros k x H. destruct (with_health_nth Stripped o _ _ _ H) as [x' [E [St _]]]. exists x'. split; assumption.
Qed.
Lemma named_mono y y' o h : grown y y' -> named y o h -> named y' o h.
Proof. intros G [x [E N]]. destruct (G o x E) as [x' [E' [N' _]]]. exists x'. split; [exact E' | congruence]. Qed.
Lemma okN_mono y y' op t : grown y y' -> okN y op t -> okN y' op t.
Proof.
  intros G [R H]. split; [exact R |]. destruct t; try exact H; try (eapply named_mono; eassumption).
  destruct r; try exact H. destruct H as [h [E N]]. exists h. split; [exact E | eapply named_mono; eassumption].
Qed.
Lemma same_task (l : list mtask) : forall i t, nth_error l i = Some t -> l = replace i t l.
Proof.
  induction l as [| a l IH]; intros i t H; [destruct i; discriminate |].
  destruct i as [| i]; [injection H as ->; reflexivity |]. cbn in H |- *. unfold replace in *. cbn. f_equal. exact (IH i t H).
Qed.
Lemma stepN i t y op : sound y -> nth_error (tasks y) i = Some t -> okN y op t ->
  exists t', tasks (mstep i t y) = replace i t' (tasks y) /\ okN (mstep i t y) op t'.
Proof.
  intros [N [L A]] Et Ok. pose proof (grown_step i t y) as G. pose proof (okN_mono _ _ _ _ G Ok) as Ok'. destruct Ok as [R Ok]. destruct Ok' as [_ Ok'].
  revert Ok'. generalize (grown_step i t y). unfold mstep.
  destruct t as [[g | g | g] | g | g | g s | g o | g o | g o | g o | g o | g o | g o c | g o c n | r]; cbn [runs] in R; subst; cases;
    intros G' Ok'; try (eexists; split; [reflexivity |]; split; [reflexivity || exact I | exact I || exact Ok']).
  - eexists. split; [reflexivity |]. split; [exact I |]. exists g. split; [reflexivity |]. destruct (A g n) as [x Hx]; [assumption |]. exists x. exact Hx.
  - eexists. split; [reflexivity |]. split; [reflexivity |]. destruct (A g n) as [x Hx]; [assumption |]. exists x. exact Hx.
  - eexists. split; [reflexivity |]. split; [exact I |]. exists g. split; [reflexivity |]. eexists. split; [cbn; rewrite nth_error_app2 by lia; rewrite Nat.sub_diag; reflexivity | reflexivity].
  - eexists. split; [apply same_task; exact Et |]. split; [exact I | exact Ok'].
  - eexists. split; [apply same_task; exact Et |]. split; [exact I | exact Ok'].
  - eexists. split; [apply same_task; exact Et |]. split; [exact I | exact Ok'].
Qed.
Lemma runN os l : forall y, sound y /\ follows os (okN y) y -> sound (mrun l y) /\ follows os (okN (mrun l y)) (mrun l y).
Proof.
  induction l as [| i l IH]; intros y H; [exact H |]. rewrite mrun_cons. apply IH. destruct H as [Sd Fo].
  unfold mproceed. destruct (nth_error (tasks y) i) as [t |] eqn:Et; [| split; assumption].
  destruct (follows_op _ _ _ _ _ Fo Et) as [op [Eo Ok]]. destruct (stepN i t y op Sd Et Ok) as [t' [D E]].
  split; [now apply sound_step |]. eapply (follows_step os okN); [exact Fo | exact Eo | exact Et | exact D | exact E |].
  intros o1 t1. apply okN_mono, grown_step.
Qed.

(** ** A task leaves other names alone *)
Definition untouched (g : nat) (y y' : family) : Prop :=
  attrs y' g = attrs y g /\ (In g (metatags y') <-> In g (metatags y)) /\ roots y' g = roots y g /\
  forall k x, nth_error (objects y) k = Some x -> name x = g -> nth_error (objects y') k = Some x.
Lemma untouched_same g y y' : attrs y' = attrs y -> metatags y' = metatags y -> objects y' = objects y -> roots y' g = roots y g -> untouched g y y'.
Proof. unfold untouched. intros -> -> -> ->. repeat split; auto. Qed.
Lemma untouched_heals g h o y y' : ~ named y o g -> attrs y' = attrs y -> metatags y' = metatags y -> objects y' = with_health h o (objects y) -> roots y' g = roots y g -> untouched g y y'.
Proof.
  unfold untouched. intros N -> -> -> ->. split; [reflexivity |]. split; [reflexivity |]. split; [reflexivity |]. intros k x H Nx.
  destruct (with_health_nth h o _ _ _ H) as [x' [E [_ Q]]]. rewrite E. f_equal. apply Q. intros ->. apply N. exists x. split; assumption.
Qed.
Lemma frame g i t y op : sound y -> okN y op t -> about op <> g -> untouched g y (mstep i t y).
Proof.
  intros [N _] [R Ok] D.
  assert (NN : forall o h, named y o h -> h <> g -> ~ named y o g) by (intros o h [x [E Nx]] Dh [x' [E' Nx']]; congruence).
  unfold mstep. destruct t as [[h | h | h] | h | h | h s | h o | h o | h o | h o | h o | h o | h o c | h o c n | r]; cbn [runs] in R; subst; cbn [about] in D; cases;
    try (solve [apply untouched_same; reflexivity]);
    try (solve [apply untouched_same; [reflexivity | reflexivity | reflexivity | cbn -[put]; apply put_ne; congruence]]);
    try (solve [eapply untouched_heals; [eapply NN; [exact Ok | exact D] | reflexivity | reflexivity | reflexivity | reflexivity]]).
  - unfold untouched. cbn -[mem]. split; [reflexivity |]. split; [| split; [reflexivity | auto]].
    destruct (mem h (metatags y)); [reflexivity |]. rewrite in_app_iff. cbn. intuition congruence.
  - unfold untouched. cbn -[mem put]. split; [apply put_ne; congruence |]. split; [| split; [reflexivity |]].
    + destruct (mem h (metatags y)); [reflexivity |]. rewrite in_app_iff. cbn. intuition congruence.
    + intros k x E _. rewrite nth_error_app1; [exact E | apply nth_error_Some; congruence].
  - unfold untouched. cbn -[put]. split; [apply put_ne; congruence |]. split; [| split; [reflexivity | auto]]. rewrite (remove_in h _ g N). intuition congruence.
  - unfold untouched. cbn -[put]. split; [apply put_ne; congruence |]. split; [| split; [reflexivity | auto]]. rewrite (remove_in h _ g N). intuition congruence.
Qed.

(** ** One task that deletes a sub-database nobody else uses *)
Definition stageD (g o0 : nat) (y : family) (t : mtask) : Prop :=
  let there h := attrs y g = Some o0 /\ In g (metatags y) /\ exists x, nth_error (objects y) o0 = Some x /\ name x = g /\ health_ x = h in
  match t with
  | MStart o => o = Delete g /\ there Live
  | DLoop h o | DRoot h o => h = g /\ o = o0 /\ there Live
  | DGone h o => h = g /\ o = o0 /\ there Live /\ roots y g = None
  | DNull h o => h = g /\ o = o0 /\ there Cleared /\ roots y g = None
  | DLast h o => h = g /\ o = o0 /\ there Stripped /\ roots y g = None
  | MDone r => r = Fine /\ lacks y g /\ roots y g = None
  | _ => False
  end.
Lemma stageD_frame g o0 y y' t : untouched g y y' -> stageD g o0 y t -> stageD g o0 y' t.
Proof.
  intros [A [M [R O]]]. 
  assert (T : forall h, (attrs y g = Some o0 /\ In g (metatags y) /\ exists x, nth_error (objects y) o0 = Some x /\ name x = g /\ health_ x = h) ->
    attrs y' g = Some o0 /\ In g (metatags y') /\ exists x, nth_error (objects y') o0 = Some x /\ name x = g /\ health_ x = h).
  { intros h [Ea [Im [x [Ex [Nx Hx]]]]]. split; [congruence |]. split; [now apply M |]. exists x. split; [now apply O | split; assumption]. }
  destruct t; cbn; try tauto; rewrite ?R.
  - intros [E H]. split; [exact E | now apply T].
  - intros [E [E' H]]. split; [exact E |]. split; [exact E' | now apply T].
  - intros [E [E' H]]. split; [exact E |]. split; [exact E' | now apply T].
  - intros [E [E' [H Rn]]]. split; [exact E |]. split; [exact E' |]. split; [now apply T | exact Rn].
  - intros [E [E' [H Rn]]]. split; [exact E |]. split; [exact E' |]. split; [now apply T | exact Rn].
  - intros [E [E' [H Rn]]]. split; [exact E |]. split; [exact E' |]. split; [now apply T | exact Rn].
  - intros [E [[L1 L2] Rn]]. split; [exact E |]. split; [| exact Rn]. split; [rewrite M; exact L1 | congruence].
Qed.
Lemma with_health_self h o (l : list (subdb S)) x : nth_error l o = Some x -> nth_error (with_health h o l) o = Some {| name := name x; salt := salt x; health_ := h |}.
Proof. intros E. unfold with_health. rewrite E, (replace_nth _ _ _ _ _ E), Nat.eqb_refl. reflexivity. Qed.
Lemma stageD_step g o0 i t y : sound y -> nth_error (tasks y) i = Some t -> stageD g o0 y t ->
  exists t', nth_error (tasks (mstep i t y)) i = Some t' /\ stageD g o0 (mstep i t y) t'.
Proof.
  intros [N _] Et H.
  assert (RN : forall (z : mtask), nth_error (replace i z (tasks y)) i = Some z) by (intros z; rewrite (replace_nth _ _ _ _ _ Et), Nat.eqb_refl; reflexivity).
  destruct t as [op | h | h | h s | h o | h o | h o | h o | h o | h o | h o c | h o c n | r]; cbn in H; try tauto.
  - destruct H as [-> [Ea [Im [x [Ex [Nx Hx]]]]]]. unfold mstep. apply mem_in in Im as Mm. rewrite Mm, Ea. unfold health_of. rewrite Ex, Hx.
    eexists. split; [apply RN |]. cbn. split; [reflexivity |]. split; [reflexivity |]. split; [exact Ea |]. split; [exact Im |]. now exists x.
  - destruct H as [-> [-> [Ea [Im [x [Ex [Nx Hx]]]]]]]. unfold mstep, health_of. rewrite Ex, Hx.
    eexists. split; [apply RN |]. cbn. split; [reflexivity |]. split; [reflexivity |]. split; [exact Ea |]. split; [exact Im |]. now exists x.
  - destruct H as [-> [-> [Ea [Im [x [Ex [Nx Hx]]]]]]]. unfold mstep.
    eexists. split; [apply RN |]. cbn -[put]. rewrite put_eq. split; [reflexivity |]. split; [reflexivity |]. split; [| reflexivity]. split; [exact Ea |]. split; [exact Im |]. now exists x.
  - destruct H as [-> [-> [[Ea [Im [x [Ex [Nx Hx]]]]] Rn]]]. unfold mstep, health_of. rewrite Ex, Hx.
    eexists. split; [apply RN |]. cbn. split; [reflexivity |]. split; [reflexivity |]. split; [| exact Rn]. split; [exact Ea |]. split; [exact Im |].
    eexists. split; [apply with_health_self; exact Ex | split; [exact Nx | reflexivity]].
  - destruct H as [-> [-> [[Ea [Im [x [Ex [Nx Hx]]]]] Rn]]]. unfold mstep.
    eexists. split; [apply RN |]. cbn. split; [reflexivity |]. split; [reflexivity |]. split; [| exact Rn]. split; [exact Ea |]. split; [exact Im |].
    eexists. split; [apply with_health_self; exact Ex | split; [exact Nx | reflexivity]].
  - destruct H as [-> [-> [[Ea [Im [x [Ex [Nx Hx]]]]] Rn]]]. unfold mstep. apply mem_in in Im. rewrite Ea, Im.
    eexists. split; [apply RN |]. cbn -[put]. split; [reflexivity |]. split; [| exact Rn]. split; [cbn; rewrite (remove_in g _ g N); tauto | apply put_eq].
  - exists (MDone r). split; [exact Et | exact H].
Qed.
Lemma runD g o0 os i l : nth_error os i = Some (Delete g) -> (forall k op, nth_error os k = Some op -> k <> i -> about op <> g) ->
  forall y, sound y /\ follows os (okN y) y -> (exists t, nth_error (tasks y) i = Some t /\ stageD g o0 y t) ->
  exists t, nth_error (tasks (mrun l y)) i = Some t /\ stageD g o0 (mrun l y) t.
Proof.
  intros Ei Ho. induction l as [| k l IH]; intros y Hy Ht; [exact Ht |]. rewrite mrun_cons.
  apply IH; [exact (runN os [k] y Hy) |]. destruct Hy as [Sd Fo]. destruct Ht as [t [Et Hs]].
  destruct (Nat.eq_dec k i) as [-> | D]; [unfold mproceed; rewrite Et; now apply stageD_step |].
  exists t. rewrite proceed_other by congruence. split; [exact Et |]. eapply stageD_frame; [| exact Hs].
  unfold mproceed. destruct (nth_error (tasks y) k) as [t1 |] eqn:E1; [| apply untouched_same; reflexivity].
  destruct (follows_op _ _ _ _ _ Fo E1) as [op [Eo Ok]]. eapply frame; [exact Sd | exact Ok | exact (Ho k op Eo D)].
Qed.

(** ** A sub-database on disk that tasks open *)
Section Disk.
Variables (g n0 : nat) (s0 : S).
Definition okB (y : family) (op : mop) (t : mtask) : Prop :=
  okN y op t /\ op <> Delete g /\ op <> MetaModel.Save g /\
  match t with
  | MSalted h s => h = g -> s = s0
  | MDone r => op = Meta g -> exists o, r = Got o
  | _ => True
  end.
Definition disk (y : family) : Prop :=
  roots y g = Some (n0, Sealed (Some s0)) /\ forall k x, nth_error (objects y) k = Some x -> name x = g -> salt x = s0.
Lemma stepB i t y op : sound y -> disk y -> nth_error (tasks y) i = Some t -> okB y op t ->
  disk (mstep i t y) /\ exists t', tasks (mstep i t y) = replace i t' (tasks y) /\ okB (mstep i t y) op t'.
Proof.
  intros Sd [Rg Og] Et [Ok [D1 [D2 Ex]]]. pose proof (stepN i t y op Sd Et Ok) as [t' [Et' Ok']].
  assert (T : forall z z' : mtask, replace i z (tasks y) = replace i z' (tasks y) -> z = z').
  { intros z z' E. assert (X := replace_nth _ _ z _ i Et). rewrite E, (replace_nth _ _ z' _ i Et), Nat.eqb_refl in X. congruence. }
  split.
  - destruct Ok as [R _]. split.
    + unfold mstep. destruct t as [[h | h | h] | h | h | h s | h o | h o | h o | h o | h o | h o | h o c | h o c n | r]; cbn [runs] in R; subst; cases;
        try exact Rg; cbn -[put]; rewrite put_ne by congruence; exact Rg.
    + assert (SS : forall h o k x, nth_error (with_health h o (objects y)) k = Some x -> name x = g -> salt x = s0).
      { intros h o k x E Nx. destruct (with_health_back h o _ _ _ E) as [x0 [E0 [N0 S0]]]. rewrite S0. apply (Og k x0 E0). congruence. }
      unfold mstep. destruct t as [[h | h | h] | h | h | h s | h o | h o | h o | h o | h o | h o | h o c | h o c n | r]; cbn [runs] in R; subst; cases;
        try exact Og; try (cbn; apply SS).
      cbn. intros k x E Nx. destruct (Nat.lt_ge_cases k (length (objects y))) as [C | C].
      * rewrite nth_error_app1 in E by exact C. exact (Og k x E Nx).
      * rewrite nth_error_app2 in E by exact C. destruct (k - length (objects y))%nat as [| m]; [| destruct m; discriminate].
        cbn in E. injection E as <-. exact (Ex Nx).
  - exists t'. split; [exact Et' |]. split; [exact Ok' |]. split; [exact D1 |]. split; [exact D2 |].
    destruct Ok as [R _]. revert Et' Ok'. unfold mstep.
    destruct t as [[h | h | h] | h | h | h s | h o | h o | h o | h o | h o | h o | h o c | h o c n | r]; cbn [runs] in R; subst; cases; intros Et' Ok';
      (apply T in Et' || (rewrite (same_task _ _ _ Et) in Et' at 1; apply T in Et')); subst t'; try exact I; try exact Ex; try discriminate;
      try (intros ->; congruence); try (intros [=->]; congruence); try (intros _; eexists; reflexivity).
    + injection Et' as <-. intros _. eexists; reflexivity.
    + injection Et' as <-. intros _. eexists; reflexivity.
    + injection Et' as <-. exact Ex.
Qed.
Definition invB os y := sound y /\ disk y /\ follows os (okB y) y.
Lemma runB os l : forall y, invB os y -> invB os (mrun l y).
Proof.
  induction l as [| i l IH]; intros y H; [exact H |]. rewrite mrun_cons. apply IH. destruct H as [Sd [Dk Fo]].
  unfold mproceed. destruct (nth_error (tasks y) i) as [t |] eqn:Et; [| split; [exact Sd |]; split; assumption].
  destruct (follows_op _ _ _ _ _ Fo Et) as [op [Eo Ok]]. destruct (stepB i t y op Sd Dk Et Ok) as [A [t' [D E]]].
  split; [now apply sound_step |]. split; [exact A |].
  eapply (follows_step os okB); [exact Fo | exact Eo | exact Et | exact D | exact E |]. intros o1 t1 [B1 B2]. split; [| exact B2].
  eapply okN_mono; [apply grown_step | exact B1].
Qed.
End Disk.

(** ** The parent as it was opened *)
Lemma sound_parent (l : list (nat * S)) r os : NoDup (map fst l) -> sound (parent l r os).
Proof.
  intros N. unfold sound, parent. cbn. split; [exact N |].
  assert (K : forall (l : list (nat * S)) g n,
    let f := (fix at_ (l : list (nat * S)) (o : nat) := match l with [] => None | (h, _) :: l => if Nat.eqb h g then Some o else at_ l (Datatypes.S o) end) in
    (In g (map fst l) <-> f l n <> None) /\ forall o, f l n = Some o -> (n <= o)%nat /\ exists p, nth_error l (o - n) = Some p /\ fst p = g).
  { clear. intros l g. cbn zeta. induction l as [| [h s] l IH]; intros n; [split; [cbn; tauto | discriminate] |]. cbn [map fst In].
    destruct (Nat.eqb_spec h g) as [-> | D].
    - split; [split; [discriminate | now left] |]. intros o [=<-]. split; [lia |]. exists (g, s). rewrite Nat.sub_diag. split; reflexivity.
    - destruct (IH (Datatypes.S n)) as [A B]. split; [rewrite <- A; intuition congruence |]. intros o E. destruct (B o E) as [Le [p [Ep Fp]]].
      split; [lia |]. exists p. split; [| exact Fp]. replace (o - n)%nat with (Datatypes.S (o - Datatypes.S n)) by lia. exact Ep. }
  split; [intros g; apply (K l g 0%nat) |]. intros g o E. destruct (K l g 0%nat) as [_ B]. destruct (B o E) as [_ [p [Ep Fp]]].
  rewrite Nat.sub_0_r in Ep. eexists. split; [apply map_nth_error; exact Ep | exact Fp].
Qed.
Lemma parent_attr (l : list (nat * S)) r os g s : NoDup (map fst l) -> In (g, s) l ->
  exists o, attrs (parent l r os) g = Some o /\ nth_error (objects (parent l r os)) o = Some {| name := g; salt := s; health_ := Live |}.
Proof.
  intros N I. destruct (sound_parent l r os N) as [_ [L A]].
  destruct (attrs (parent l r os) g) as [o |] eqn:E.
  2: { exfalso. apply (proj1 (L g)); [| exact E]. cbn. apply in_map_iff. exists (g, s). split; [reflexivity | exact I]. }
  exists o. split; [reflexivity |]. destruct (A g o E) as [x [Ex Nx]]. rewrite Ex. f_equal. cbn in Ex.
  destruct (nth_error l o) as [[h s'] |] eqn:El.
  2: { apply nth_error_None in El. assert (o < length (map (fun p : nat * S => {| name := fst p; salt := snd p; health_ := Live |}) l))%nat by (apply nth_error_Some; congruence). rewrite map_length in *. lia. }
  rewrite (map_nth_error _ _ _ El) in Ex. injection Ex as <-. cbn in Nx. subst h. f_equal. cbn.
  apply nth_error_In in El. clear - N I El. induction l as [| [h z] l IH]; [contradiction |]. cbn in N. inversion N as [| ? ? NI N']; subst.
  assert (F : forall z', In (h, z') l -> False) by (intros z' I'; apply NI, in_map_iff; exists (h, z'); split; [reflexivity | exact I']).
  destruct I as [[=-> ->] | I]; destruct El as [[=->] | El]; try reflexivity.
  - destruct (F _ El).
  - congruence || (injection H as -> ->; destruct (F _ I)) || idtac. exfalso. eapply F; subst; eassumption.
  - exact (IH N' I El).
Qed.
End Proofs.
