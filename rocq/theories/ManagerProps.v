(** * C39: guards on many targets *)
From Coq Require Import Lia.
From Verif Require Import Base GuardModel GuardSpec GuardProofs GuardProps ManagerModel ManagerSpec ManagerProofs.

(** C39.  Whatever the schedule, re-entries and cancellations: guards in use on
    one target share the deques that the manager knows for that target. *)
Theorem C39_same_target_same_deques : forall exclusive of l i j g h,
  in_use (reached exclusive of l) i g -> in_use (reached exclusive of l) j h -> of i = of j ->
  g = h /\ targets (reached exclusive of l) (of i) = Some g.
Proof.
  intros ex of l i j g h Bi Bj E. unfold in_use, reached in *. destruct (manage_inv ex of l) as (hi & sl & M).
  pose proof (m_bound _ _ _ _ _ _ M i g Bi) as Ti. pose proof (m_bound _ _ _ _ _ _ M j h Bj) as Tj. rewrite E in *. split; congruence.
Qed.
Print Assumptions C39_same_target_same_deques.

(** Guards on different targets never share deques. *)
Theorem C39_different_targets_different_deques : forall exclusive of l i j g,
  in_use (reached exclusive of l) i g -> in_use (reached exclusive of l) j g -> of i = of j.
Proof.
  intros ex of l i j g Bi Bj. unfold in_use, reached in *. destruct (manage_inv ex of l) as (hi & sl & M).
  apply (m_inj _ _ _ _ _ _ M _ _ g); now apply (m_bound _ _ _ _ _ _ M).
Qed.
Print Assumptions C39_different_targets_different_deques.

(** While an exclusive guard is in its block, no other guard on its target is. *)
Theorem C39_exclusion_per_target : forall exclusive of l i j,
  exclusive i = true -> of i = of j ->
  busy (seen exclusive of l) i -> busy (seen exclusive of l) j -> j = i.
Proof.
  intros ex of l i j X E Bi Bj. unfold seen in *. destruct (manage_inv ex of l) as (hi & sl & M).
  assert (G : forall k, busy (fst (manage ex of l nobody)) k ->
    exists g, stages (snd (manage ex of l nobody)) k = Bound g /\ busy (trace ex automatic (hi g)) k).
  { intros k [Bk Lk]. apply (m_trace _ _ _ _ _ _ M k (Entered k) eq_refl) in Bk as (g & P & Y).
    assert (B : busy (trace ex automatic (hi g)) k).
    { split; [exact Y|]. intros Z. apply Lk, (m_trace _ _ _ _ _ _ M k (Left k) eq_refl). eauto. }
    exists g. split; [|exact B]. apply busy_inside in B. rewrite <- (m_pairs _ _ _ _ _ _ M) in B.
    exact (busy_stage ex of l k g P B). }
  destruct (G i Bi) as (g & Si & Yi). destruct (G j Bj) as (h & Sj & Yj).
  destruct (C39_same_target_same_deques ex of l i j g h Si Sj E) as [<- _]. exact (C34_mutual_exclusion ex automatic _ i j X Yi Yj).
Qed.
Print Assumptions C39_exclusion_per_target.

(** Whatever the schedule, no first use of a guard ends with an exception of the
    guard or of the manager: in particular clean-up always finds its own user.
    (What a second entry of one guard raises at its caller is not an event here.) *)
Theorem C39_first_use_never_fails : forall exclusive of l i e, ~ In (Raised i e) (seen exclusive of l).
Proof.
  intros ex of l i e X. unfold seen in X. destruct (manage_inv ex of l) as (hi & sl & M).
  destruct (proj1 (m_trace _ _ _ _ _ _ M i (Raised i e) eq_refl) X) as (g & P & Y). unfold trace in Y.
  apply raised_reuse in Y as [_ Y]. destruct (m_hist _ _ _ _ _ _ M g _ Y) as (k & [Z|Z] & _); discriminate.
Qed.
Print Assumptions C39_first_use_never_fails.

(** In correct use (each guard entered once, no cancellation) a target is known
    exactly while some guard on it is in use. *)
Theorem C39_known_exactly_while_in_use : forall exclusive of l u,
  (forall c, In c l -> exists i, c = Go i) ->
  (targets (reached exclusive of l) u <> None <-> exists i g, of i = u /\ in_use (reached exclusive of l) i g).
Proof.
  intros ex of l u G. unfold reached, in_use. destruct (manage_clean ex of l G) as (hi & sl & M & S & C). split.
  - intros T. destruct (targets (snd (manage ex of l nobody)) u) as [g|] eqn:E; [|congruence].
    destruct (mc_used _ C u g E) as (i & B). exists i, g. split; [|exact B].
    apply (m_inj _ _ _ _ _ _ M _ _ g); [now apply (m_bound _ _ _ _ _ _ M)|exact E].
  - intros (i & g & <- & B). rewrite (m_bound _ _ _ _ _ _ M i g B). discriminate.
Qed.
Print Assumptions C39_known_exactly_while_in_use.

(** In correct use, if the schedule keeps giving every guard its turn, each guard
    enters its block, leaves it, and in the end no target is remembered. *)
Theorem C39_everyone_gets_through_and_is_forgotten : forall exclusive of gs l rounds,
  NoDup gs -> (forall c, In c l -> exists i, c = Go i /\ In i gs) ->
  (forall b, In b rounds -> mround gs b) -> 30 * length gs + 2 <= length rounds ->
  let t := seen exclusive of (l ++ concat rounds) in
  (forall i, In i gs -> In (Entered i) t /\ In (Left i) t) /\
  (forall u, targets (reached exclusive of (l ++ concat rounds)) u = None).
Proof.
  intros ex of gs l rounds N A R L t. destruct (everyone ex of gs l rounds N A R L) as [E T]. split; [|exact T].
  intros i X. destruct (E i X) as (E1 & E2 & _). auto.
Qed.
Print Assumptions C39_everyone_gets_through_and_is_forgotten.

(** Not so otherwise.  Cancelling a guard on its way in makes the manager
    remember the target whatever happens later. *)
Theorem C39_cancelled_target_is_forgotten_refuted : forall exclusive of l l' i g,
  on_the_way_in (reached exclusive of l) i g ->
  targets (reached exclusive of (l ++ Abort i :: l')) (of i) = Some g.
Proof.
  intros ex of l l' i g [B P]. unfold reached, in_use, seen in *. destruct (manage_inv ex of l) as (hi & sl & M).
  change (Abort i :: l') with ([Abort i] ++ l'). rewrite manage_app. cbn [snd]. rewrite manage_app. cbn [snd].
  destruct (abort_inv ex of _ _ _ _ i M) as (h' & s' & M' & _ & A).
  destruct (A g B ltac:(tauto)) as [A1 A2].
  assert (E : snd (manage ex of [Abort i] (snd (manage ex of l nobody))) = snd (abort ex of i (snd (manage ex of l nobody)))).
  { change [Abort i] with ([] ++ [Abort i]). rewrite manage_snoc. reflexivity. }
  rewrite E. apply (leak_stays ex of l' _ _ _ _ _ _ M' A1 A2).
Qed.
Print Assumptions C39_cancelled_target_is_forgotten_refuted.

(** Nor after one guard is entered a second time. *)
Theorem C39_reentered_target_is_forgotten_refuted : forall exclusive of l l' i,
  stages (reached exclusive of l) i <> Fresh ->
  targets (reached exclusive of (l ++ Again i :: l')) (of i) <> None.
Proof.
  intros ex of l l' i F. unfold reached in *. destruct (manage_inv ex of l) as (hi & sl & M).
  change (Again i :: l') with ([Again i] ++ l'). rewrite manage_app. cbn [snd]. rewrite manage_app. cbn [snd].
  destruct (again_inv ex of _ _ _ _ i M) as (s' & M' & _ & _ & A). destruct (A F) as (g & A1 & A2).
  assert (E : snd (manage ex of [Again i] (snd (manage ex of l nobody))) = snd (again of i (snd (manage ex of l nobody)))).
  { change [Again i] with ([] ++ [Again i]). rewrite manage_snoc. reflexivity. }
  rewrite E. rewrite (leak_stays ex of l' _ _ _ _ _ _ M' A1 A2). discriminate.
Qed.
Print Assumptions C39_reentered_target_is_forgotten_refuted.

(** Three guards, two of them on one target.  They get through and nothing is
    remembered; with a cancellation on the way in the target stays. *)
Definition two_targets (i : nat) : nat := match i with 0 | 1 => 5 | _ => 6 end.
Definition turns (n : nat) : list command := concat (repeat [Go 0; Go 1; Go 2] n).
Example C39_case :
  let ex := fun _ => true in
  in_use (reached ex two_targets (turns 1)) 0 0 /\ in_use (reached ex two_targets (turns 1)) 1 0 /\
  in_use (reached ex two_targets (turns 1)) 2 1 /\
  busy (seen ex two_targets (turns 7)) 0 /\ ~ busy (seen ex two_targets (turns 7)) 1 /\ busy (seen ex two_targets (turns 7)) 2 /\
  (forall u, targets (reached ex two_targets (turns 92)) u = None) /\
  on_the_way_in (reached ex two_targets (turns 6)) 1 0 /\
  targets (reached ex two_targets (turns 6 ++ Abort 1 :: turns 90)) 5 = Some 0.
Proof.
  intros ex. split; [reflexivity|]. split; [reflexivity|]. split; [reflexivity|].
  assert (E : seen ex two_targets (turns 7) = [Joined 0; Joined 1; Joined 2; Entered 0; Entered 2]) by reflexivity.
  unfold busy. rewrite E. cbn [In].
  clear E. split; [split; [auto|now intros [X|[X|[X|[X|[X|[]]]]]]]|]. split; [now intros [[X|[X|[X|[X|[X|[]]]]]] _]|].
  split; [split; [auto 6|now intros [X|[X|[X|[X|[X|[]]]]]]]|]. split; [|split].
  - change (turns 92) with ([] ++ concat (repeat [Go 0; Go 1; Go 2] 92)).
    refine (proj2 (C39_everyone_gets_through_and_is_forgotten ex two_targets [0; 1; 2] [] (repeat [Go 0; Go 1; Go 2] 92) _ _ _ _)).
    + repeat (constructor; [cbn; lia|]). constructor.
    + intros c [].
    + intros b X. apply repeat_spec in X as ->. split.
      * intros c X. cbn in X. destruct X as [<-|[<-|[<-|[]]]]; eexists; split; try reflexivity; cbn; tauto.
      * cbn. intros i [<-|[<-|[<-|[]]]]; tauto.
    + rewrite repeat_length. cbn. lia.
  - split; [reflexivity|right; reflexivity].
  - refine (C39_cancelled_target_is_forgotten_refuted ex two_targets (turns 6) (turns 90) 1 0 _). split; [reflexivity|right; reflexivity].
Qed.
