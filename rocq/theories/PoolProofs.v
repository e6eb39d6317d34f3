(** * Proofs about [new] and [gather] *)
From Coq Require Import Lia ZifyBool ZifyNat ZifyN.
From Verif Require Import Base BaseFacts PoolModel PoolSpec.
Local Open Scope N_scope.

(** ** [new] *)
Section Call.
Context {V E : Type}.
Variable size : V -> option N.
Notation new := (new V E size).
Notation step := (call_step V E size).

(** What the caller finds in the end. *)
Definition left_over (q : kind) (o : outcome V E) : option V :=
  match o, q with
  | Raises _, _ => None
  | Returns v, Thread => Some v
  | Returns v, Process _ => match size v with Some _ => Some v | None => None end
  end.
Definition reported (q : kind) (o : outcome V E) : answer V E := match left_over q o with Some v => Value v | None => Empty end.
(** Whether the child can end. *)
Definition fits (q : kind) (o : outcome V E) : Prop :=
  match o, q with
  | Returns v, Process c => match size v with Some n => n <= c | None => True end
  | _, _ => True
  end.
Definition good (q : kind) (o : outcome V E) (s : call V E) : Prop :=
  match cl s with Probing => True | Returned a => ch s = Gone /\ a = reported q o end /\
  match ch s with
  | Working => item s = None /\ in_pipe s = 0
  | Gone => item s = left_over q o /\ fits q o
  | Flushing rest w =>
    exists v, o = Returns v /\
    match q with
    | Thread => rest = 0 /\ w = None /\ item s = Some v
    | Process c =>
      item s = None /\
      match size v with
      | None => rest = 0 /\ w = None
      | Some n => w = Some v /\ in_pipe s + rest = n /\ in_pipe s <= c
      end
    end
  end.

Lemma good_step q o m s : good q o s -> good q o (step q o m s).
Proof.
  intros [Hc Hs]. destruct m as [k |].
  - (* the child *)
    cbn [call_step]. unfold child_step.
    assert (P : ch s <> Gone -> cl s = Probing).
    { intros X. destruct (cl s) as [| a]; [reflexivity |]. destruct Hc as [Hc _]. contradiction. }
    destruct (ch s) as [| rest w |] eqn:Ec.
    + rewrite (P ltac:(discriminate)). destruct Hs as [Hi Hp].
      destruct o as [v | e].
      * destruct q as [| c].
        -- split; [exact I |]. cbn. exists v. repeat split.
        -- destruct (size v) as [n |] eqn:En; (split; [exact I |]); cbn; exists v; rewrite En, ?Hp; repeat split; try assumption; lia.
      * split; [exact I |]. cbn. rewrite Hi. split; [destruct q; reflexivity | exact I].
    + rewrite (P ltac:(discriminate)). destruct Hs as [v [-> Hs]].
      destruct (rest =? 0) eqn:Er.
      * split; [exact I |]. cbn [ch item]. destruct q as [| c].
        -- destruct Hs as [_ [-> Hi]]. cbn. split; [exact Hi | exact I].
        -- destruct Hs as [Hi Hs]. cbn. destruct (size v) as [n |] eqn:En.
           ++ destruct Hs as [-> [Hn Hle]]. split; [reflexivity | lia].
           ++ destruct Hs as [_ ->]. split; [exact Hi | exact I].
      * split; [exact I |]. cbn [ch item in_pipe]. exists v. split; [reflexivity |].
        destruct q as [| c].
        -- destruct Hs as [-> _]. discriminate.
        -- destruct Hs as [Hi Hs]. split; [exact Hi |]. destruct (size v) as [n |] eqn:En.
           ++ destruct Hs as [-> [Hn Hle]]. split; [reflexivity |]. split; lia.
           ++ destruct Hs as [-> _]. discriminate.
    + split; rewrite Ec; [exact Hc | exact Hs].
  - cbn [call_step]. unfold caller_step.
    destruct (cl s) as [| a] eqn:El; [| split; [rewrite El; exact Hc | exact Hs]].
    destruct (ch s) as [| rest w |] eqn:Ec; try (split; [rewrite El; exact I | rewrite Ec; exact Hs]).
    split; cbn [cl ch item in_pipe]; [| exact Hs].
    split; [reflexivity |]. unfold reported. rewrite (proj1 Hs). reflexivity.
Qed.

Lemma good_run q o l : good q o (new q o l).
Proof.
  unfold PoolModel.new. induction l as [| m l IH] using rev_ind.
  - split; [exact I |]. split; reflexivity.
  - rewrite fold_left_app. apply good_step, IH.
Qed.

Lemma new_returned q o l a : cl (new q o l) = Returned a -> a = reported q o /\ fits q o.
Proof.
  intros Ha. destruct (good_run q o l) as [Hc Hs]. rewrite Ha in Hc. destruct Hc as [Hg ->].
  rewrite Hg in Hs. split; [reflexivity | exact (proj2 Hs)].
Qed.

(** *** It ends *)
Definition to_write (q : kind) (o : outcome V E) : N :=
  match o, q with Returns v, Process _ => match size v with Some n => n | None => 0 end | _, _ => 0 end.
Definition steps_left (q : kind) (o : outcome V E) (s : call V E) : N :=
  match ch s with Working => to_write q o + 2 | Flushing rest _ => rest + 1 | Gone => 0 end.

Lemma step_left q o m s : fits q o -> good q o s ->
  steps_left q o (step q o m s) <= steps_left q o s - (if of_child m then 1 else 0).
Proof.
  intros F [_ Hs]. unfold steps_left. destruct m as [k |]; cbn [of_child call_step].
  - unfold child_step. destruct (ch s) as [| rest w |] eqn:Ec.
    + destruct o as [v | e]; cbn [to_write].
      * destruct q as [| c]; [cbn; lia |]. destruct (size v); cbn; lia.
      * cbn. lia.
    + destruct (rest =? 0) eqn:Er; cbn [ch]; [lia |].
      destruct Hs as [v [-> Hs]]. destruct q as [| c]; [destruct Hs; lia |].
      destruct Hs as [_ Hs]. cbn in F. destruct (size v) as [n |]; [| destruct Hs; lia]. lia.
    + rewrite Ec. lia.
  - unfold caller_step. destruct (cl s); destruct (ch s) eqn:Ec; cbn [ch]; rewrite ?Ec; lia.
Qed.

Lemma steps_run q o l : fits q o -> steps_left q o (new q o l) <= to_write q o + 2 - N.of_nat (child_steps l).
Proof.
  intros F. induction l as [| m l IH] using rev_ind.
  - cbn. lia.
  - unfold PoolModel.new in *. rewrite fold_left_app. cbn [fold_left].
    pose proof (step_left q o m _ F (good_run q o l)) as X. unfold PoolModel.new in X.
    unfold child_steps in *. rewrite filter_app, app_length. cbn [filter].
    destruct (of_child m); cbn [length] in *; lia.
Qed.

Lemma new_ends q o l : fits q o -> (N.to_nat (to_write q o) + 2 <= child_steps l)%nat ->
  cl (new q o (l ++ [Caller])) = Returned (reported q o).
Proof.
  intros F Hl. pose proof (steps_run q o l F) as X. pose proof (good_run q o l) as [Hc Hs].
  assert (G : ch (new q o l) = Gone).
  { unfold steps_left in X. destruct (ch (new q o l)); [| | reflexivity]; exfalso; lia. }
  unfold PoolModel.new in *. rewrite fold_left_app. cbn [fold_left call_step]. unfold caller_step.
  rewrite G in Hs |- *.
  destruct (cl _) as [| a] eqn:El.
  - cbn [cl]. unfold reported. rewrite (proj1 Hs). reflexivity.
  - rewrite El. destruct Hc as [_ ->]. reflexivity.
Qed.
End Call.

(** ** [gather] *)
Section Pool.
Context {V E : Type}.
Variable workers : nat.
Notation step := (pool_step (V := V) (E := E) workers).
Notation run := (run_pool (V := V) (E := E) workers).

Lemma set_at_same {A} i (x : A) f : set_at i x f i = x.
Proof. unfold set_at. now rewrite Nat.eqb_refl. Qed.
Lemma set_at_other {A} i j (x : A) f : j <> i -> set_at i x f j = f j.
Proof. intros H. unfold set_at. now rewrite (proj2 (Nat.eqb_neq j i) H). Qed.

(** *** The pool *)
Record sound (p : pool V E) : Prop := {
  s_queue : forall i, In i (queue p) -> (i < count p)%nat;
  s_queue_once : NoDup (queue p);
  s_pending : forall i, (i < count p)%nat -> futures p i = Pending -> In i (queue p);
  s_beyond : forall i, (count p <= i)%nat -> futures p i = Cancelled;
  s_handed : forall i, In i (handed p) <-> futures p i = Running \/ futures p i = Finished;
  s_handed_once : NoDup (handed p)
}.

Lemma sound_gather g p : sound p -> sound (with_gather g p).
Proof. intros [A B C D F G]. constructor; assumption. Qed.

Lemma sound_submit o g p : sound p -> sound (submit o g p).
Proof.
  intros [A B C D F G]. constructor; cbn [submit queue count futures handed].
  - intros i Hi. apply in_app_or in Hi. destruct Hi as [Hi | [<- | []]]; [specialize (A i Hi); lia | lia].
  - assert (X : forall l (x : nat), NoDup l -> ~ In x l -> NoDup (l ++ [x])).
    { clear. induction l as [| y l IH]; intros x Hn Hx; cbn; [constructor; [easy | constructor] |].
      inversion Hn; subst. constructor.
      - rewrite in_app_iff. intros [H | [-> | []]]; [contradiction |]. apply Hx. now left.
      - apply IH; [assumption |]. intros H. apply Hx. now right. }
    apply X; [exact B |]. intros H. specialize (A _ H). lia.
  - intros i Hi. destruct (Nat.eq_dec i (count p)) as [-> | Hne].
    + intros _. apply in_or_app. right. now left.
    + rewrite set_at_other by assumption. intros Hp. apply in_or_app. left. apply C; [lia | assumption].
  - intros i Hi. rewrite set_at_other by lia. apply D. lia.
  - intros i. destruct (Nat.eq_dec i (count p)) as [-> | Hne].
    + rewrite set_at_same. rewrite F, (D (count p)) by lia. split; intros [|]; discriminate.
    + rewrite set_at_other by assumption. apply F.
  - exact G.
Qed.

Lemma sound_cancel i p : sound p -> sound (with_future (cancel i p) p).
Proof.
  intros [A B C D F G]. constructor; cbn [with_future queue count futures handed]; try assumption; unfold cancel.
  - intros j Hj. destruct (futures p i) eqn:Ei; try (apply C; assumption).
    destruct (Nat.eq_dec j i) as [-> | Hne]; [rewrite set_at_same; discriminate |].
    rewrite set_at_other by assumption. apply C; assumption.
  - intros j Hj. destruct (futures p i) eqn:Ei; try (apply D; assumption).
    destruct (Nat.eq_dec j i) as [-> | Hne]; [apply set_at_same |].
    rewrite set_at_other by assumption. apply D; assumption.
  - intros j. destruct (futures p i) eqn:Ei; try (apply F).
    destruct (Nat.eq_dec j i) as [-> | Hne].
    + rewrite set_at_same, F, Ei. split; intros [|]; discriminate.
    + rewrite set_at_other by assumption. apply F.
Qed.

Lemma sound_step e p : sound p -> sound (step e p).
Proof.
  intros S. destruct e as [| i | | o | i]; cbn [pool_step].
  - pose proof S as [A B C D F G]. destruct (queue p) as [| i q] eqn:Eq; [exact S |].
    inversion B as [| ? ? Hi Hq]; subst.
    assert (Drop : futures p i <> Pending ->
      sound {| work := work p; futures := futures p; queue := q; count := count p; handed := handed p; gather_ := gather_ p |}).
    { intros Hn. constructor; cbn [queue count futures handed]; try assumption.
      - intros j Hj. apply A. now right.
      - intros j Hj Hp. destruct (C j Hj Hp) as [-> | H]; [contradiction | exact H]. }
    destruct (futures p i) eqn:Ei; try (apply Drop; discriminate).
    destruct (Nat.ltb _ _); [| exact S].
    assert (Nh : ~ In i (handed p)). { rewrite F, Ei. intros [|]; discriminate. }
    constructor; cbn [queue count futures handed].
    + intros j Hj. apply A. now right.
    + exact Hq.
    + intros j Hj. destruct (Nat.eq_dec j i) as [-> | Hne]; [rewrite set_at_same; discriminate |].
      rewrite set_at_other by assumption. intros Hp. destruct (C j Hj Hp) as [-> | H]; [contradiction | exact H].
    + intros j Hj. assert (i < count p)%nat by (apply A; now left). rewrite set_at_other by lia. apply D, Hj.
    + intros j. cbn [In]. destruct (Nat.eq_dec j i) as [-> | Hne].
      * rewrite set_at_same. split; intros _; [now left | now left].
      * rewrite set_at_other by assumption. rewrite F. split; [intros [H | H]; [congruence | exact H] | intros H; now right].
    + constructor; assumption.
  - destruct (futures p i) eqn:Ei; try exact S. destruct S as [A B C D F G].
    assert (Hi : (i < count p)%nat).
    { destruct (Nat.le_gt_cases (count p) i) as [H | H]; [| exact H]. specialize (D i H). congruence. }
    constructor; cbn [with_future queue count futures handed]; try assumption.
    + intros j Hj. destruct (Nat.eq_dec j i) as [-> | Hne]; [rewrite set_at_same; discriminate |].
      rewrite set_at_other by assumption. apply C, Hj.
    + intros j Hj. rewrite set_at_other by lia. apply D, Hj.
    + intros j. destruct (Nat.eq_dec j i) as [-> | Hne].
      * rewrite set_at_same, F, Ei. split; intros _; [now right | now left].
      * rewrite set_at_other by assumption. apply F.
  - unfold gather_step. destruct (gather_ p) as [[| f fs] t | l [| i rest] t | [| i rest] t r | r t];
      try (apply sound_gather; exact S); try exact S; try (apply sound_submit; exact S).
    + destruct (futures p i); try exact S; try (apply sound_gather; exact S).
      destruct (work p i); apply sound_gather; exact S.
    + apply sound_gather, sound_cancel, S.
  - apply sound_submit, S.
  - destruct (existsb _ _); [exact S | apply sound_cancel, S].
Qed.

(** *** The call *)
(** The functions submitted. *)
Definition works (p : pool V E) (t : list nat) : list (outcome V E) := map (work p) t.
Definition alive (p : pool V E) (t : list nat) : Prop := forall i, In i t -> futures p i <> Cancelled.
Definition decided (p : pool V E) (t : list nat) : Prop := forall i, In i t -> futures p i <> Pending.

Definition call_ok (fs : list (outcome V E)) (p : pool V E) : Prop :=
  (forall i, In i (mine p) -> (i < count p)%nat) /\ NoDup (mine p) /\
  match gather_ p with
  | Submitting todo t => fs = works p t ++ todo /\ alive p t
  | Waiting l rest t =>
    fs = works p t /\ alive p t /\
    exists done, t = done ++ rest /\ works p done = map Returns l /\ forall i, In i done -> futures p i = Finished
  | Cancelling rest t r =>
    fs = works p t /\ r = one_by_one fs /\
    (exists done, t = done ++ rest /\ decided p done) /\
    (forall l, r = Results l -> forall i, In i t -> futures p i = Finished)
  | Ended r t =>
    fs = works p t /\ r = one_by_one fs /\ decided p t /\
    (forall l, r = Results l -> forall i, In i t -> futures p i = Finished)
  end.

Lemma one_by_one_results (l : list V) : one_by_one (E := E) (map Returns l) = Results l.
Proof. induction l as [| v l IH]; cbn; [reflexivity | now rewrite IH]. Qed.
Lemma one_by_one_fails (l : list V) (e : E) r : one_by_one (map Returns l ++ Raises e :: r) = Fails e.
Proof. induction l as [| v l IH]; cbn; [reflexivity | now rewrite IH]. Qed.

(** How the futures may change under the others. *)
Definition moves (p p' : pool V E) : Prop :=
  gather_ p' = gather_ p /\ (count p <= count p')%nat /\
  (forall i, (i < count p)%nat -> work p' i = work p i) /\
  (forall i, In i (mine p) -> futures p i = Cancelled <-> futures p' i = Cancelled) /\
  (forall i, In i (mine p) -> futures p i <> Pending -> futures p' i <> Pending) /\
  (forall i, In i (mine p) -> futures p i = Finished -> futures p' i = Finished).

Lemma moves_ok fs p p' : moves p p' -> call_ok fs p -> call_ok fs p'.
Proof.
  intros [Hg [Hc [Hw [Hx [Hp Hf]]]]] [Hm [Hn Hk]].
  assert (M : mine p' = mine p) by (unfold mine; now rewrite Hg).
  assert (W : forall t, incl t (mine p) -> works p' t = works p t).
  { intros t Ht. apply map_ext_in. intros i Hi. apply Hw, Hm, Ht, Hi. }
  unfold call_ok. rewrite M. split; [intros i Hi; specialize (Hm i Hi); lia |]. split; [exact Hn |].
  rewrite Hg. unfold mine in *. destruct (gather_ p) as [todo t | l rest t | rest t r | r t].
  - rewrite (W t (incl_refl _)). split; [apply Hk |]. intros i Hi X. apply (proj2 Hk i Hi), (Hx i Hi), X.
  - destruct Hk as [H1 [H2 [d [Hd [H3 H4]]]]]. rewrite (W t (incl_refl _)).
    split; [exact H1 |]. split; [intros i Hi X; apply (H2 i Hi), (Hx i Hi), X |].
    assert (I : incl d t) by (rewrite Hd; apply incl_appl, incl_refl).
    exists d. split; [exact Hd |]. rewrite (W d I). split; [exact H3 |].
    intros i Hi. apply Hf; [apply I, Hi | apply H4, Hi].
  - destruct Hk as [H1 [H2 [[d [Hd H3]] H4]]]. rewrite (W t (incl_refl _)).
    split; [exact H1 |]. split; [exact H2 |].
    assert (I : incl d t) by (rewrite Hd; apply incl_appl, incl_refl).
    split; [exists d; split; [exact Hd | intros i Hi; apply Hp; [apply I, Hi | apply H3, Hi]] |].
    intros l Hl i Hi. apply Hf; [exact Hi | apply (H4 l Hl i Hi)].
  - destruct Hk as [H1 [H2 [H3 H4]]]. rewrite (W t (incl_refl _)).
    split; [exact H1 |]. split; [exact H2 |]. split; [intros i Hi; apply Hp; [exact Hi | apply H3, Hi] |].
    intros l Hl i Hi. apply Hf; [exact Hi | apply (H4 l Hl i Hi)].
Qed.

Lemma moves_refl p : moves p p.
Proof. repeat split; auto. Qed.

Lemma moves_at i x (p : pool V E) q h :
  (futures p i = Pending /\ x = Running) \/ (futures p i = Running /\ x = Finished) \/ (futures p i = Pending /\ x = Cancelled /\ ~ In i (mine p)) ->
  moves p {| work := work p; futures := set_at i x (futures p); queue := q; count := count p; handed := h; gather_ := gather_ p |}.
Proof.
  intros Hx. split; [reflexivity |]. split; [reflexivity |]. split; [reflexivity |]. cbn [futures].
  split; [| split]; intros j Hj; destruct (Nat.eq_dec j i) as [-> | Hne];
    rewrite ?set_at_same, ?(set_at_other i j) by assumption; try tauto;
    destruct Hx as [[H1 ->] | [[H1 ->] | [H1 [-> H2]]]]; try contradiction; rewrite H1; try (split; discriminate); congruence.
Qed.

Lemma others_step fs e p : call_ok fs p -> e <> Gather -> moves p (step e p).
Proof.
  intros K Ne. destruct e as [| i | | o | i]; cbn [pool_step].
  - destruct (queue p) as [| i q]; [apply moves_refl |].
    destruct (futures p i) eqn:Ei; try (repeat split; auto; fail).
    destruct (Nat.ltb _ _); [| apply moves_refl]. apply moves_at. now left.
  - destruct (futures p i) eqn:Ei; try apply moves_refl. apply moves_at. right. now left.
  - contradiction.
  - destruct K as [Hm _]. split; [reflexivity |]. cbn [submit futures count work]. split; [lia |].
    split; [intros i Hi; apply set_at_other; lia |].
    split; [| split]; intros i Hi; specialize (Hm i Hi); rewrite set_at_other by lia; tauto.
  - destruct (existsb _ _) eqn:Ex; [apply moves_refl |].
    assert (Ni : ~ In i (mine p)).
    { intros H. rewrite <- Bool.not_true_iff_false in Ex. apply Ex. apply existsb_exists. exists i. split; [exact H | apply Nat.eqb_refl]. }
    unfold cancel. destruct (futures p i) eqn:Ei; try (repeat split; auto; fail).
    apply moves_at. right. right. tauto.
Qed.

Lemma nodup_snoc (l : list nat) x : NoDup l -> ~ In x l -> NoDup (l ++ [x]).
Proof.
  induction l as [| y l IH]; intros Hn Hx; cbn; [constructor; [easy | constructor] |].
  inversion Hn; subst. constructor.
  - rewrite in_app_iff. intros [H | [-> | []]]; [contradiction |]. apply Hx. now left.
  - apply IH; [assumption |]. intros H. apply Hx. now right.
Qed.

Lemma gather_ok fs p : call_ok fs p -> call_ok fs (gather_step p).
Proof.
  intros K. unfold gather_step. pose proof K as [Hm [Hn Hk]]. unfold mine in Hm, Hn.
  destruct (gather_ p) as [[| f todo] t | l [| i rest] t | [| i rest] t r | r t] eqn:Eg.
  - (* everything is submitted *)
    split; [exact Hm |]. split; [exact Hn |]. cbn [with_gather gather_]. rewrite app_nil_r in Hk.
    split; [apply Hk |]. split; [apply Hk |]. exists []. split; [reflexivity |]. split; [reflexivity |]. intros j [].
  - (* a function is submitted *)
    unfold call_ok, mine. cbn [submit gather_ count futures].
    assert (W : works (submit f (Submitting todo (t ++ [count p])) p) t = works p t).
    { apply map_ext_in. intros j Hj. apply set_at_other. specialize (Hm j Hj). lia. }
    split; [intros j Hj; apply in_app_or in Hj; destruct Hj as [Hj | [<- | []]]; [specialize (Hm j Hj) |]; lia |].
    split; [apply nodup_snoc; [exact Hn | intros H; specialize (Hm _ H); lia] |].
    split.
    + unfold works. rewrite map_app. fold (works (submit f (Submitting todo (t ++ [count p])) p) t). rewrite W.
      cbn [map submit work]. rewrite set_at_same, <- app_assoc. apply Hk.
    + intros j Hj. cbn [submit futures]. apply in_app_or in Hj. destruct Hj as [Hj | [<- | []]].
      * rewrite set_at_other by (specialize (Hm j Hj); lia). apply (proj2 Hk), Hj.
      * rewrite set_at_same. discriminate.
  - (* all results are there *)
    split; [exact Hm |]. split; [exact Hn |]. cbn [with_gather gather_].
    destruct Hk as [H1 [_ [d [Hd [H3 H4]]]]]. rewrite app_nil_r in Hd. subst d.
    split; [exact H1 |]. split; [rewrite H1, H3; symmetry; apply one_by_one_results |].
    split; [exists []; split; [reflexivity | intros j []] |]. intros _ _. exact H4.
  - destruct Hk as [H1 [H2 [d [Hd [H3 H4]]]]].
    assert (Hi : In i t) by (rewrite Hd; apply in_or_app; right; now left).
    destruct (futures p i) eqn:Ei; try exact K.
    + exfalso. apply (H2 i Hi Ei).
    + destruct (work p i) as [v | e] eqn:Ew; (split; [exact Hm |]; split; [exact Hn |]; cbn [with_gather gather_]).
      * split; [exact H1 |]. split; [exact H2 |]. exists (d ++ [i]).
        split; [rewrite <- app_assoc; exact Hd |].
        split.
        -- unfold works in *. cbn [with_gather work]. rewrite !map_app, H3. cbn [map]. now rewrite Ew.
        -- intros j Hj. apply in_app_or in Hj. destruct Hj as [Hj | [<- | []]]; [apply H4, Hj | exact Ei].
      * split; [exact H1 |].
        assert (R : Fails e = one_by_one fs).
        { rewrite H1, Hd. unfold works in *. rewrite map_app, H3. cbn [map]. rewrite Ew. symmetry. apply one_by_one_fails. }
        split; [exact R |]. split; [exists []; split; [reflexivity | intros j []] | discriminate].
  - destruct Hk as [H1 [H2 [[d [Hd H3]] H4]]]. rewrite app_nil_r in Hd. subst d.
    split; [exact Hm |]. split; [exact Hn |]. cbn [with_gather gather_]. tauto.
  - destruct Hk as [H1 [H2 [[d [Hd H3]] H4]]].
    split; [exact Hm |]. split; [exact Hn |]. cbn [with_gather gather_].
    split; [exact H1 |]. split; [exact H2 |]. cbn [with_future futures with_gather].
    assert (P : forall j, futures p j <> Pending -> cancel i p j = futures p j).
    { intros j Hj. unfold cancel. destruct (futures p i) eqn:Ei; try reflexivity.
      apply set_at_other. congruence. }
    split.
    + exists (d ++ [i]). split; [rewrite <- app_assoc; exact Hd |].
      intros j Hj. apply in_app_or in Hj. cbn [with_future futures with_gather]. destruct Hj as [Hj | [<- | []]].
      * rewrite P by (apply H3, Hj). apply H3, Hj.
      * unfold cancel. destruct (futures p i) eqn:Ei; rewrite ?set_at_same, ?Ei; discriminate.
    + intros l Hl j Hj. rewrite P; [apply (H4 l Hl j Hj) |]. rewrite (H4 l Hl j Hj). discriminate.
  - exact K.
Qed.

Lemma call_step_ok fs e p : call_ok fs p -> call_ok fs (step e p).
Proof.
  intros K. destruct e; try (apply (moves_ok fs p); [apply (others_step fs); [exact K | discriminate] | exact K]).
  apply gather_ok, K.
Qed.

Lemma run_snoc p l e : run p (l ++ [e]) = step e (run p l).
Proof. unfold run_pool. now rewrite fold_left_app. Qed.
Lemma run_app p l l' : run p (l ++ l') = run (run p l) l'.
Proof. unfold run_pool. now rewrite fold_left_app. Qed.

Lemma idle_sound fs none : sound (idle fs none).
Proof.
  constructor; cbn; try easy; try (constructor; fail).
  intros i. split; [easy | intros [|]; discriminate].
Qed.
Lemma idle_ok fs none : call_ok fs (idle fs none).
Proof. split; [intros i [] |]. split; [constructor |]. split; [reflexivity | intros i []]. Qed.
Lemma run_sound p l : sound p -> sound (run p l).
Proof. intros S. induction l as [| e l IH] using rev_ind; [exact S |]. rewrite run_snoc. apply sound_step, IH. Qed.
Lemma run_ok fs p l : call_ok fs p -> call_ok fs (run p l).
Proof. intros S. induction l as [| e l IH] using rev_ind; [exact S |]. rewrite run_snoc. apply call_step_ok, IH. Qed.

(** *** Afterwards *)
(** Futures that are decided are not handed to workers. *)
Lemma decided_step i e p : futures p i <> Pending -> (i < count p)%nat ->
  futures (step e p) i <> Pending /\ (i < count (step e p))%nat /\ (In i (handed (step e p)) <-> In i (handed p)).
Proof.
  intros Hi Hc. assert (C : forall j, cancel j p i = futures p i).
  { intros j. unfold cancel. destruct (futures p j) eqn:Ej; try reflexivity. apply set_at_other. congruence. }
  destruct e as [| j | | o | j]; cbn [pool_step].
  - destruct (queue p) as [| j q]; [tauto |]. destruct (futures p j) eqn:Ej; try (cbn; tauto).
    destruct (Nat.ltb _ _); [| tauto]. cbn [futures count handed].
    assert (i <> j) by congruence. rewrite set_at_other by assumption.
    split; [exact Hi |]. split; [exact Hc |]. cbn [In]. split; [intros [? | ?]; [congruence | assumption] | now right].
  - destruct (futures p j) eqn:Ej; try tauto. cbn [with_future futures count handed].
    split; [| tauto]. destruct (Nat.eq_dec i j) as [-> | Hne]; [rewrite set_at_same; discriminate | now rewrite set_at_other].
  - unfold gather_step. destruct (gather_ p) as [[| f fs] t | l [| j rest] t | [| j rest] t r | r t]; try (cbn; tauto).
    + cbn [submit futures count handed]. rewrite set_at_other by lia. split; [exact Hi |]. split; [lia | tauto].
    + destruct (futures p j); try tauto; try (cbn; tauto). destruct (work p j); cbn; tauto.
    + cbn [with_gather with_future futures count handed]. rewrite C. tauto.
  - cbn [submit futures count handed]. rewrite set_at_other by lia. split; [exact Hi |]. split; [lia | tauto].
  - destruct (existsb _ _); [tauto |]. cbn [with_future futures count handed]. rewrite C. tauto.
Qed.
Lemma decided_run i l p : futures p i <> Pending -> (i < count p)%nat -> In i (handed (run p l)) <-> In i (handed p).
Proof.
  intros Hi Hc. assert (X : futures (run p l) i <> Pending /\ (i < count (run p l))%nat /\ (In i (handed (run p l)) <-> In i (handed p))).
  { induction l as [| e l IH] using rev_ind; [cbn; tauto |]. rewrite run_snoc.
    destruct IH as [A [B C]]. destruct (decided_step i e _ A B) as [A' [B' C']]. tauto. }
  apply X.
Qed.

(** *** It can always end *)
Definition still_running (p : pool V E) (i : nat) : bool := is_running (futures p i).
Lemma running_count p : running p = length (filter (still_running p) (seq 0 (count p))).
Proof. reflexivity. Qed.

Lemma filter_less (f g : nat -> bool) l i : NoDup l -> In i l -> f i = true -> g i = false -> (forall j, j <> i -> g j = f j) ->
  S (length (filter g l)) = length (filter f l).
Proof.
  induction l as [| x l IH]; intros Hn Hi Hf Hg Ho; [destruct Hi |].
  inversion Hn as [| ? ? Hx Hl]; subst. cbn. destruct Hi as [-> | Hi].
  - rewrite Hf, Hg. cbn. f_equal. f_equal. apply filter_ext_in. intros j Hj. apply Ho. congruence.
  - assert (x <> i) by congruence. rewrite (Ho x) by assumption. specialize (IH Hl Hi Hf Hg Ho).
    destruct (f x); cbn; lia.
Qed.

Lemma end_running p i : sound p -> futures p i = Running -> S (running (step (End i) p)) = running p.
Proof.
  intros S Hi. cbn [pool_step]. rewrite Hi. unfold running. cbn [with_future futures count].
  assert (Hc : (i < count p)%nat).
  { destruct (Nat.le_gt_cases (count p) i) as [H | H]; [| exact H]. pose proof (s_beyond p S i H). congruence. }
  apply (filter_less _ _ _ i).
  - apply seq_NoDup.
  - apply in_seq. lia.
  - now rewrite Hi.
  - now rewrite set_at_same.
  - intros j Hj. now rewrite set_at_other.
Qed.
Lemma some_running (p : pool V E) : (0 < running p)%nat -> exists i, futures p i = Running.
Proof.
  unfold running. intros H. destruct (filter _ _) as [| i l] eqn:Ef; [cbn in H; lia |].
  assert (X : In i (filter (fun i => is_running (futures p i)) (seq 0 (count p)))) by (rewrite Ef; now left).
  apply filter_In in X. exists i. destruct X as [_ X]. destruct (futures p i); cbn in X; congruence.
Qed.
Lemma take_running p i q : sound p -> queue p = i :: q -> futures p i = Pending -> (running p < workers)%nat ->
  queue (step Take p) = q /\ running (step Take p) = S (running p).
Proof.
  intros S Hq Hi Hw. cbn [pool_step]. rewrite Hq, Hi. rewrite (proj2 (Nat.ltb_lt _ _) Hw). split; [reflexivity |].
  unfold running. cbn [futures count].
  symmetry. apply (filter_less _ _ _ i).
  - apply seq_NoDup.
  - apply in_seq. assert (In i (queue p)) by (rewrite Hq; now left). pose proof (s_queue p S i H). lia.
  - now rewrite set_at_same.
  - now rewrite Hi.
  - intros j Hj. now rewrite set_at_other.
Qed.

Lemma cancel_running i (p : pool V E) : running (with_future (cancel i p) p) = running p.
Proof.
  unfold running. cbn [with_future futures count]. f_equal. apply filter_ext. intros j. unfold cancel.
  destruct (futures p i) eqn:Ei; try reflexivity.
  destruct (Nat.eq_dec j i) as [-> | Hne]; [now rewrite set_at_same, Ei | now rewrite set_at_other].
Qed.
Lemma submit_running o g (p : pool V E) : running (submit o g p) = running p.
Proof.
  unfold running. cbn [submit futures count]. rewrite seq_S, filter_app, app_length. cbn [filter plus].
  rewrite set_at_same. cbn. rewrite Nat.add_0_r. f_equal. apply filter_ext_in. intros j Hj. apply in_seq in Hj.
  rewrite set_at_other by lia. reflexivity.
Qed.
Lemma step_running e p : sound p -> (running p <= workers)%nat -> (running (step e p) <= workers)%nat.
Proof.
  intros S Hr. destruct e as [| i | | o | i].
  - destruct (queue p) as [| i q] eqn:Eq; [cbn; now rewrite Eq |].
    destruct (futures p i) eqn:Ei; try (cbn [pool_step]; rewrite Eq, Ei; exact Hr).
    destruct (Nat.lt_ge_cases (running p) workers) as [Hw | Hw].
    + rewrite (proj2 (take_running p i q S Eq Ei Hw)). exact Hw.
    + cbn [pool_step]. rewrite Eq, Ei, (proj2 (Nat.ltb_ge _ _) Hw). exact Hr.
  - destruct (futures p i) eqn:Ei; try (cbn [pool_step]; rewrite Ei; exact Hr).
    pose proof (end_running p i S Ei). lia.
  - cbn [pool_step]. unfold gather_step.
    destruct (gather_ p) as [[| f fs] t | l [| i rest] t | [| i rest] t r | r t]; try exact Hr.
    + now rewrite submit_running.
    + destruct (futures p i); try exact Hr. destruct (work p i); exact Hr.
    + change (running (with_future (cancel i p) p) <= workers)%nat. now rewrite cancel_running.
  - cbn [pool_step]. now rewrite submit_running.
  - cbn [pool_step]. destruct (existsb _ _); [exact Hr | now rewrite cancel_running].
Qed.
Lemma run_running p l : sound p -> (running p <= workers)%nat -> (running (run p l) <= workers)%nat.
Proof.
  intros S Hr. induction l as [| e l IH] using rev_ind; [exact Hr |].
  rewrite run_snoc. apply step_running; [apply run_sound, S | exact IH].
Qed.

Hypothesis some_worker : (1 <= workers)%nat.
(** Without the caller, all work can be done. *)
Lemma drain n : forall p, sound p -> (2 * length (queue p) + running p <= n)%nat ->
  exists l, queue (run p l) = [] /\ running (run p l) = 0%nat /\ ~ In Gather l /\ gather_ (run p l) = gather_ p.
Proof.
  induction n as [| n IH]; intros p S Hn.
  - exists []. cbn. destruct (queue p); [| cbn in Hn; lia]. repeat split; [lia | easy].
  - assert (Ends : (0 < running p)%nat -> exists l, queue (run p l) = [] /\ running (run p l) = 0%nat /\ ~ In Gather l /\ gather_ (run p l) = gather_ p).
    { intros H. destruct (some_running p H) as [i Hi]. pose proof (end_running p i S Hi) as X.
      assert (Q : queue (step (End i) p) = queue p /\ gather_ (step (End i) p) = gather_ p) by (cbn; rewrite Hi; split; reflexivity).
      destruct (IH (step (End i) p)) as [l [A [B [C D]]]]; [apply sound_step, S | rewrite (proj1 Q); lia |].
      exists (End i :: l). change (run p (End i :: l)) with (run (step (End i) p) l).
      repeat split; try assumption; [intros [|]; [discriminate | contradiction] | rewrite D; apply Q]. }
    destruct (queue p) as [| i q] eqn:Eq.
    + destruct (Nat.eq_dec (running p) 0) as [Hr | Hr]; [| apply Ends; lia].
      exists []. cbn. repeat split; [exact Eq | exact Hr | easy].
    + destruct (futures p i) eqn:Ei.
      * destruct (Nat.lt_ge_cases (running p) workers) as [Hw | Hw]; [| apply Ends; lia].
        destruct (take_running p i q S Eq Ei Hw) as [X Y].
        assert (G : gather_ (step Take p) = gather_ p) by (cbn [pool_step]; rewrite Eq, Ei; destruct (Nat.ltb _ _); reflexivity).
        destruct (IH (step Take p)) as [l [A [B [C D]]]]; [apply sound_step, S | rewrite X, Y; cbn in Hn; lia |].
        exists (Take :: l). change (run p (Take :: l)) with (run (step Take p) l).
        repeat split; try assumption; [intros [|]; [discriminate | contradiction] | rewrite D; apply G].
      * apply Ends. unfold running. destruct (filter _ _) as [| x l] eqn:Ef; [| cbn; lia]. exfalso.
        assert (X : In i (filter (fun i => is_running (futures p i)) (seq 0 (count p)))).
        { apply filter_In. split; [apply in_seq; assert (In i (queue p)) by (rewrite Eq; now left); pose proof (s_queue p S i H); lia | now rewrite Ei]. }
        rewrite Ef in X. destruct X.
      * assert (T : queue (step Take p) = q /\ running (step Take p) = running p /\ gather_ (step Take p) = gather_ p)
          by (cbn [pool_step]; rewrite Eq, Ei; repeat split).
        destruct T as [X [Y G]].
        destruct (IH (step Take p)) as [l [A [B [C D]]]]; [apply sound_step, S | rewrite X, Y; cbn in Hn; lia |].
        exists (Take :: l). change (run p (Take :: l)) with (run (step Take p) l).
        repeat split; try assumption; [intros [|]; [discriminate | contradiction] | rewrite D; apply G].
      * assert (T : queue (step Take p) = q /\ running (step Take p) = running p /\ gather_ (step Take p) = gather_ p)
          by (cbn [pool_step]; rewrite Eq, Ei; repeat split).
        destruct T as [X [Y G]].
        destruct (IH (step Take p)) as [l [A [B [C D]]]]; [apply sound_step, S | rewrite X, Y; cbn in Hn; lia |].
        exists (Take :: l). change (run p (Take :: l)) with (run (step Take p) l).
        repeat split; try assumption; [intros [|]; [discriminate | contradiction] | rewrite D; apply G].
Qed.

Lemma settled p : sound p -> queue p = [] -> running p = 0%nat -> forall i, (i < count p)%nat -> futures p i = Cancelled \/ futures p i = Finished.
Proof.
  intros S Hq Hr i Hi. destruct (futures p i) eqn:Ei; try tauto.
  - pose proof (s_pending p S i Hi Ei) as X. rewrite Hq in X. destruct X.
  - exfalso. unfold running in Hr.
    assert (X : In i (filter (fun i => is_running (futures p i)) (seq 0 (count p)))) by (apply filter_In; split; [apply in_seq; lia | now rewrite Ei]).
    destruct (filter _ _); [destruct X | cbn in Hr; lia].
Qed.

(** The steps of the call itself. *)
Lemma submits todo : forall p t, gather_ p = Submitting todo t -> exists l t', gather_ (run p l) = Waiting [] t' t'.
Proof.
  induction todo as [| f todo IH]; intros p t Hg.
  - exists [Gather], t. cbn. unfold gather_step. rewrite Hg. reflexivity.
  - destruct (IH (step Gather p) (t ++ [count p])) as [l [t' H]].
    + cbn. unfold gather_step. rewrite Hg. reflexivity.
    + exists (Gather :: l), t'. exact H.
Qed.
Lemma cancels rest : forall p t r, gather_ p = Cancelling rest t r -> exists l, over (run p l) r.
Proof.
  induction rest as [| i rest IH]; intros p t r Hg.
  - exists [Gather], t. cbn. unfold gather_step. rewrite Hg. reflexivity.
  - destruct (IH (step Gather p) t r) as [l H].
    + cbn. unfold gather_step. rewrite Hg. reflexivity.
    + exists (Gather :: l). exact H.
Qed.
Lemma waits rest : forall p res t, gather_ p = Waiting res rest t -> (forall i, In i rest -> futures p i = Cancelled \/ futures p i = Finished) ->
  exists l r, over (run p l) r.
Proof.
  induction rest as [| i rest IH]; intros p res t Hg Hf.
  - destruct (cancels t (step Gather p) t (Results res)) as [l H].
    + cbn. unfold gather_step. rewrite Hg. reflexivity.
    + exists (Gather :: l), (Results res). exact H.
  - destruct (Hf i (or_introl eq_refl)) as [Hi | Hi].
    + destruct (cancels t (step Gather p) t Interrupted) as [l H].
      * cbn. unfold gather_step. rewrite Hg, Hi. reflexivity.
      * exists (Gather :: l), Interrupted. exact H.
    + destruct (work p i) as [v | e] eqn:Ew.
      * destruct (IH (step Gather p) (res ++ [v]) t) as [l [r H]].
        -- cbn. unfold gather_step. rewrite Hg, Hi, Ew. reflexivity.
        -- intros j Hj. cbn. unfold gather_step. rewrite Hg, Hi, Ew. cbn. apply Hf. now right.
        -- exists (Gather :: l), r. exact H.
      * destruct (cancels t (step Gather p) t (Fails e)) as [l H].
        -- cbn. unfold gather_step. rewrite Hg, Hi, Ew. reflexivity.
        -- exists (Gather :: l), (Fails e). exact H.
Qed.
Lemma gather_can_end fs p : sound p -> call_ok fs p -> exists l r, over (run p l) r.
Proof.
  intros S K.
  assert (Wait : forall p res rest t, sound p -> call_ok fs p -> gather_ p = Waiting res rest t -> exists l r, over (run p l) r).
  { clear p S K. intros p res rest t S K Hg. destruct (drain _ p S (le_n _)) as [l [A [B [_ D]]]].
    pose proof (settled _ (run_sound p l S) A B) as X. pose proof (run_ok fs p l K) as K'.
    destruct (waits rest (run p l) res t) as [l' [r H]].
    - rewrite D. exact Hg.
    - intros i Hi. apply X. destruct K' as [Hm [_ Hk]]. apply Hm. unfold mine. rewrite D, Hg in *.
      destruct Hk as [_ [_ [d [-> _]]]]. apply in_or_app. now right.
    - exists (l ++ l'), r. rewrite run_app. exact H. }
  destruct (gather_ p) as [todo t | res rest t | rest t r | r t] eqn:Eg.
  - destruct (submits todo p t Eg) as [l [t' H]].
    destruct (Wait (run p l) [] t' t' (run_sound p l S) (run_ok fs p l K) H) as [l' [r X]].
    exists (l ++ l'), r. rewrite run_app. exact X.
  - apply (Wait p res rest t S K Eg).
  - destruct (cancels rest p t r Eg) as [l H]. exists l, r. exact H.
  - exists [], r, t. exact Eg.
Qed.
End Pool.
