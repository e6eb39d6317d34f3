(** * C103: guards that their callers forgot to queue *)
From Coq Require Import Lia Permutation.
From Verif Require Import Base GuardModel GuardSpec GuardProofs GuardProps UnqueuedModel UnqueuedSpec UnqueuedProofs.
Import ListNotations.

(** A guard that is to be queued by hand and was not queued never joins and never enters its block. If it raises
    anything, that is IndexError. *)
Theorem C103_never_runs : forall exclusive manual forgotten l i,
  (forall i, forgotten i = true -> manual i = true) -> forgotten i = true ->
  ~ In (Joined i) (trace_without exclusive manual forgotten l) /\
  ~ In (Entered i) (trace_without exclusive manual forgotten l) /\
  forall e, In (Raised i e) (trace_without exclusive manual forgotten l) -> e = IndexErr.
Proof.
  intros ex man fo l i BH F. destruct (sim_after ex man fo BH l) as (_ & _ & _ & E).
  repeat split; [intros X|intros X|intros e X]; specialize (E _ X F); cbn in E; congruence.
Qed.
Print Assumptions C103_never_runs.

(** The other guards do just what they would do if the forgotten ones did not exist: what is seen of them, their
    states and the order queue are the same after every schedule. *)
Theorem C103_others_do_not_notice : forall exclusive manual forgotten l,
  (forall i, forgotten i = true -> manual i = true) ->
  of_others forgotten (trace_without exclusive manual forgotten l) = trace exclusive manual (others forgotten l) /\
  queue (after_without exclusive manual forgotten l) = queue (after exclusive manual (others forgotten l)) /\
  forall j, forgotten j = false ->
    pcs (after_without exclusive manual forgotten l) j = pcs (after exclusive manual (others forgotten l)) j /\
    uses (after_without exclusive manual forgotten l) j = uses (after exclusive manual (others forgotten l)) j.
Proof.
  intros ex man fo l BH. destruct (sim_after ex man fo BH l) as (T & S & _ & _). split; [symmetry; exact T|].
  split; [apply (sim_queue _ _ _ _ S)|]. intros j J. split; [now apply (sim_pcs _ _ _ _ S)|now apply (sim_uses _ _ _ _ S)].
Qed.
Print Assumptions C103_others_do_not_notice.

Lemma in_of_others fo t e : In e (of_others fo t) <-> In e t /\ fo (subject e) = false.
Proof. unfold of_others. rewrite filter_In. now destruct (fo (subject e)). Qed.

(** So while an exclusive guard is in its block, no other guard is. *)
Theorem C103_mutual_exclusion : forall exclusive manual forgotten l i j,
  (forall i, forgotten i = true -> manual i = true) -> exclusive i = true ->
  busy (trace_without exclusive manual forgotten l) i -> busy (trace_without exclusive manual forgotten l) j -> j = i.
Proof.
  intros ex man fo l i j BH X Bi Bj. destruct (C103_others_do_not_notice ex man fo l BH) as (T & _).
  assert (ON : forall k, busy (trace_without ex man fo l) k -> busy (trace ex man (others fo l)) k).
  { intros k [E N]. destruct (fo k) eqn:F; [exfalso; revert E; now apply (C103_never_runs ex man fo l k BH F)|].
    rewrite <- T. split; [apply in_of_others; auto|]. intros L. apply in_of_others in L as [L _]. auto. }
  apply (C34_mutual_exclusion ex man (others fo l) i j X); auto.
Qed.
Print Assumptions C103_mutual_exclusion.

(** And if one of two guards is exclusive, the one that joined the queue first has left its block (or was refused)
    before the other one enters. *)
Theorem C103_in_order : forall exclusive manual forgotten l i j a b c,
  (forall i, forgotten i = true -> manual i = true) -> exclusive i = true \/ exclusive j = true ->
  trace_without exclusive manual forgotten l = a ++ Joined j :: b ++ Entered j :: c -> In (Joined i) a ->
  In (Left i) (a ++ Joined j :: b) \/ exists e, In (Raised i e) (a ++ Joined j :: b).
Proof.
  intros ex man fo l i j a b c BH K E X. destruct (C103_others_do_not_notice ex man fo l BH) as (T & _).
  assert (Fi : fo i = false). { destruct (fo i) eqn:F; [|reflexivity]. exfalso. apply (proj1 (C103_never_runs ex man fo l i BH F)). rewrite E. apply in_or_app. auto. }
  assert (Fj : fo j = false). { destruct (fo j) eqn:F; [|reflexivity]. exfalso. apply (proj1 (C103_never_runs ex man fo l j BH F)). rewrite E. apply in_or_app. cbn. auto. }
  rewrite E in T. unfold of_others in T. rewrite filter_app in T. cbn [filter] in T. rewrite filter_app in T. cbn [filter subject] in T. rewrite Fj in T. cbn [negb] in T.
  destruct (C35_in_order ex man _ i j _ _ _ K (eq_sym T)) as [L|(e & R)].
  - apply filter_In. cbn. rewrite Fi. auto.
  - left. apply in_app_iff in L as [L|[L|L]]; [|discriminate|]; apply filter_In in L as [L _]; apply in_or_app; cbn; auto.
  - right. exists e. apply in_app_iff in R as [R|[R|R]]; [|discriminate|]; apply filter_In in R as [R _]; apply in_or_app; cbn; auto.
Qed.
Print Assumptions C103_in_order.

(** From any history of correct use, if all the guards keep taking steps: all the others get through their blocks; the
    forgotten ones end with IndexError; and each exclusive one of these leaves an entry among the observers for ever. *)
Theorem C103_how_it_ends : forall exclusive manual forgotten gs l rounds,
  (forall i, forgotten i = true -> manual i = true) -> NoDup gs ->
  (forall a, In a l -> exists i, a = Step i /\ In i gs) ->
  (forall b, In b rounds -> round gs b) -> 30 * length gs + 4 <= length rounds ->
  let l' := l ++ concat rounds in
  (forall i, In i gs -> forgotten i = false ->
     In (Entered i) (trace_without exclusive manual forgotten l') /\ pcs (after_without exclusive manual forgotten l') i = Complete) /\
  (forall i, In i gs -> forgotten i = true -> pcs (after_without exclusive manual forgotten l') i = Failed IndexErr) /\
  queue (after_without exclusive manual forgotten l') = [] /\
  length (observers (after_without exclusive manual forgotten l')) = length (forgotten_exclusive exclusive forgotten gs).
Proof.
  intros ex man fo gs l rounds BH N A R L l'.
  set (os := filter (fun i => negb (fo i)) gs).
  assert (NO : NoDup os) by now apply NoDup_filter.
  assert (AO : forall a, In a (others fo l) -> exists i, a = Step i /\ In i os).
  { intros a X. apply filter_In in X as [X Y]. destruct (A a X) as (i & -> & G). exists i. split; [reflexivity|]. now apply filter_In. }
  assert (LO : length os <= length gs) by apply filter_shorter.
  assert (RO : forall rs, (forall b, In b rs -> round gs b) -> forall b, In b (map (others fo) rs) -> round os b).
  { intros rs Rs b X. apply in_map_iff in X as (b' & <- & X). apply others_round. auto. }
  assert (FULL : forall rs, (forall b, In b rs -> round gs b) -> 30 * length gs <= length rs ->
    (forall i, In i os -> In (Entered i) (trace ex man (others fo (l ++ concat rs))) /\ pcs (after ex man (others fo (l ++ concat rs))) i = Complete) /\
    queue (after ex man (others fo (l ++ concat rs))) = [] /\ observers (after ex man (others fo (l ++ concat rs))) = []).
  { intros rs Rs Ls. replace (others fo (l ++ concat rs)) with (others fo l ++ concat (map (others fo) rs)).
    - apply (C36_everyone_gets_through ex man os (others fo l) (map (others fo) rs)); [exact NO|exact AO|exact (RO rs Rs)|rewrite map_length; lia].
    - rewrite <- others_concat. unfold others. now rewrite filter_app. }
  destruct (FULL rounds R ltac:(lia)) as (TH & QE & OE).
  assert (NOT : forall i, In i gs -> fo i = false -> In i os) by (intros i X Y; apply filter_In; now rewrite Y).
  destruct (C103_others_do_not_notice ex man fo l' BH) as (T & Q & P).
  assert (END : forall i, In i gs -> fo i = true -> pcs (after_without ex man fo l') i = Failed IndexErr).
  { intros i G F. set (k := 30 * length gs). rewrite <- (firstn_skipn k rounds) in R, L.
    assert (R1 : forall b, In b (firstn k rounds) -> round gs b) by (intros b X; apply R, in_or_app; auto).
    assert (R2 : forall b, In b (skipn k rounds) -> round gs b) by (intros b X; apply R, in_or_app; auto).
    rewrite firstn_skipn in L. assert (L1 : length (firstn k rounds) = k) by (apply firstn_length_le; lia).
    assert (L2 : 4 <= length (skipn k rounds)) by (rewrite skipn_length; lia).
    unfold l'. rewrite <- (firstn_skipn k rounds) at 1. rewrite concat_app, app_assoc.
    destruct (FULL (firstn k rounds) R1 ltac:(lia)) as (TH1 & QE1 & _).
    destruct (sim_after ex man fo BH (l ++ concat (firstn k rounds))) as (_ & S & SH & _).
    unfold after_without. rewrite run_app. cbn [snd].
    assert (C : calm ex man fo gs (snd (run ex man (l ++ concat (firstn k rounds)) (unqueued_start fo)))).
    { split; [rewrite (sim_queue _ _ _ _ S); exact QE1|]. split; [|eexists; split; [exact S|split; [apply (t_inv _ _ _ _ (tinv_run ex man _))|exact SH]]].
      intros j J Fj. rewrite (sim_pcs _ _ _ _ S j Fj). apply TH1. auto. }
    destruct (calm_run ex man fo BH gs (concat (skipn k rounds)) _ ltac:(intros a X; apply in_concat in X as (b & Xb & X); exact (proj1 (R2 b Xb) a X)) C) as [C2 D].
    specialize (D i F). pose proof (rounds_turns gs i (skipn k rounds) R2 G) as TU.
    destruct C2 as (_ & _ & s' & S2 & _ & _). destruct (sim_stuck _ _ _ _ S2 i F) as [ST _].
    assert (LE : far_from_over (pcs (snd (run ex man (l ++ concat (firstn k rounds)) (unqueued_start fo))) i) <= 4) by apply far_at_most.
    assert (Z : far_from_over (pcs (snd (run ex man (concat (skipn k rounds)) (snd (run ex man (l ++ concat (firstn k rounds)) (unqueued_start fo))))) i) = 0) by lia.
    assert (NG : forall q o, pcs (snd (run ex man (concat (skipn k rounds)) (snd (run ex man (l ++ concat (firstn k rounds)) (unqueued_start fo))))) i <> Gone q o).
    { intros q o.
      pose proof (never_gone ex man i ((l ++ concat (firstn k rounds)) ++ concat (skipn k rounds)) (unqueued_start fo)) as NG. rewrite run_app in NG. cbn [snd] in NG. apply NG.
      - intros a X. apply in_app_iff in X as [X|X]; [apply in_app_iff in X as [X|X]|].
        + destruct (A a X) as (x & -> & _). eauto.
        + apply in_concat in X as (b & Xb & X). destruct (proj1 (R1 b Xb) a X) as (x & -> & _). eauto.
        + apply in_concat in X as (b & Xb & X). destruct (proj1 (R2 b Xb) a X) as (x & -> & _). eauto.
      - intros q' o'. cbn. rewrite F. discriminate. }
    destruct (pcs (snd (run ex man (concat (skipn k rounds)) _)) i) eqn:PE; try discriminate; try contradiction; cbn in ST.
    - now rewrite ST.
    - exfalso. now apply (NG q o). }
  split; [|split; [exact END|split]].
  - intros i G F. destruct (TH i (NOT i G F)) as [E C]. split.
    + change (others fo l') with (others fo (l ++ concat rounds)) in T. rewrite <- T in E. apply in_of_others in E. apply E.
    + rewrite (proj1 (P i F)). exact C.
  - rewrite Q. exact QE.
  - destruct (sim_after ex man fo BH l') as (_ & S & _ & _). destruct (sim_obs _ _ _ _ S) as (a & b & a' & b' & lf & O & O' & _ & _ & _ & _ & L1 & L2 & LF).
    unfold after in OE. fold l' in OE. rewrite OE in O'. symmetry in O'. apply app_eq_nil in O' as [-> ->]. destruct a; [|discriminate].
    unfold after_without. rewrite O. cbn [app]. rewrite L2. cbn [length Nat.add]. apply Permutation_length. apply NoDup_Permutation.
    + apply LF.
    + now apply NoDup_filter.
    + intros i. unfold forgotten_exclusive. rewrite filter_In. rewrite (proj2 LF i). split.
      * intros X. apply Bool.andb_true_iff in X as [X Y]. apply Bool.andb_true_iff in Y as [Y Z]. split; [|now rewrite X, Y].
        destruct (in_dec Nat.eq_dec i gs) as [G|G]; [exact G|]. exfalso. rewrite (idle_stays ex man i) in Z; [cbn in Z; rewrite X in Z; discriminate|].
        intros ac W E. apply G. apply in_app_iff in W as [W|W]; [destruct (A ac W) as (x & -> & Gx)|apply in_concat in W as (bb & Wb & W); destruct (proj1 (R bb Wb) ac W) as (x & -> & Gx)]; cbn in E; now subst.
      * intros [G X]. apply Bool.andb_true_iff in X as [X Y]. rewrite X, Y. change (snd (run ex man l' (unqueued_start fo))) with (after_without ex man fo l'). now rewrite (END i G X).
Qed.
Print Assumptions C103_how_it_ends.

(** Queued when it has failed already (or was cancelled), it blocks every guard that has not joined by then: none of
    them ever enters, whatever happens. *)
Theorem C103_queued_too_late_refuted : forall exclusive manual forgotten l l' i j,
  (forall i, forgotten i = true -> manual i = true) -> forgotten i = true ->
  pcs (after_without exclusive manual forgotten l) i = Failed IndexErr ->
  ~ In (Joined j) (trace_without exclusive manual forgotten l) ->
  ~ In (Entered j) (fst (run exclusive manual l' (enqueue i (after_without exclusive manual forgotten l)))).
Proof.
  intros ex man fo l l' i j BH F P N X. destruct (sim_after ex man fo BH l) as (T & S & SH & _).
  unfold after_without in *. set (s := snd (run ex man l (unqueued_start fo))) in *. set (s' := snd (run ex man (others fo l) start)) in *.
  pose proof (t_inv _ _ _ _ (tinv_run ex man (others fo l))) as I. fold s' in I.
  assert (P' : pcs s' i = Idle).
  { unfold s'. rewrite (idle_stays ex man i); [reflexivity|]. intros a Y E. apply filter_In in Y as [_ Y]. rewrite E, F in Y. discriminate. }
  pose proof (sim_enqueue ex man fo BH s s' i S I F ltac:(now rewrite P) P') as S1.
  assert (SH1 : shaped ex fo (enqueue i s)) by exact SH.
  pose proof (run_inv ex man [Step i; Cancel i] s' I) as I1.
  destruct (sim_run ex man fo BH l' _ _ S1 I1 SH1) as (T2 & _ & _ & E2).
  destruct (fo j) eqn:Fj; [specialize (E2 _ X Fj); discriminate|].
  assert (Y : In (Entered j) (fst (run ex man (others fo l') (snd (run ex man [Step i; Cancel i] s'))))) by (rewrite T2; apply in_of_others; auto).
  apply (cancelled_queued ex man (others fo l ++ [Step i]) (others fo l') i j).
  - rewrite run_snoc. cbn [snd act]. fold s'. unfold step_guard. rewrite P', (BH i F). cbn. now rewrite Nat.eqb_refl.
  - rewrite run_snoc. cbn [fst act]. fold s'. unfold step_guard. rewrite P', (BH i F). cbn [fst]. intros Z. apply in_app_iff in Z as [Z|[Z|[]]].
    + rewrite T in Z. apply in_of_others in Z as [Z _]. auto.
    + injection Z as <-. congruence.
  - rewrite <- app_assoc. change ([Step i] ++ Cancel i :: others fo l') with ([Step i; Cancel i] ++ others fo l').
    rewrite !run_app. cbn [fst snd]. apply in_or_app. right. apply in_or_app. right. fold s'. exact Y.
Qed.
Print Assumptions C103_queued_too_late_refuted.

(** A guard that is appended while it has not failed yet is not lost. What is seen then of all guards but those that
    are never appended is what is seen of a history in which every guard was queued in time, made of the same steps
    and of steps of the guards appended late. *)
Theorem C103_queued_in_time : forall exclusive manual forgotten l,
  (forall i, forgotten i = true -> manual i = true) -> in_time exclusive manual forgotten l ->
  exists l', of_others (left_out forgotten l) (late_trace exclusive manual forgotten l) = trace exclusive manual l' /\
    queue (late_after exclusive manual forgotten l) = queue (after exclusive manual l') /\
    (forall j, left_out forgotten l j = false ->
       pcs (late_after exclusive manual forgotten l) j = pcs (after exclusive manual l') j /\
       uses (late_after exclusive manual forgotten l) j = uses (after exclusive manual l') j) /\
    forall a, In a l' -> In (Does a) l \/ exists i, In (Appends i) l /\ (a = Step i \/ a = Reuse i /\ In (Does (Reuse i)) l).
Proof.
  intros ex man fo l BH T. destruct (late_sim ex man fo BH l T) as (l' & NA & _ & TR & S & _ & _).
  exists l'. split; [exact TR|]. split; [apply (sim_queue _ _ _ _ S)|]. split; [|intros a X; now apply NA].
  intros j J. split; [now apply (sim_pcs _ _ _ _ S)|now apply (sim_uses _ _ _ _ S)].
Qed.
Print Assumptions C103_queued_in_time.

(** Those that are never appended do not run. *)
Theorem C103_left_out_never_runs : forall exclusive manual forgotten l i,
  (forall i, forgotten i = true -> manual i = true) -> in_time exclusive manual forgotten l -> left_out forgotten l i = true ->
  ~ In (Joined i) (late_trace exclusive manual forgotten l) /\ ~ In (Entered i) (late_trace exclusive manual forgotten l) /\
  forall e, In (Raised i e) (late_trace exclusive manual forgotten l) -> e = IndexErr.
Proof.
  intros ex man fo l i BH T F. destruct (late_sim ex man fo BH l T) as (l' & _ & _ & _ & _ & _ & E).
  repeat split; [intros X|intros X|intros e X]; destruct (E _ X F) as [Z _]; cbn in Z; congruence.
Qed.
Print Assumptions C103_left_out_never_runs.

(** While an exclusive guard is in its block, no other guard is. *)
Theorem C103_in_time_mutual_exclusion : forall exclusive manual forgotten l i j,
  (forall i, forgotten i = true -> manual i = true) -> in_time exclusive manual forgotten l -> exclusive i = true ->
  busy (late_trace exclusive manual forgotten l) i -> busy (late_trace exclusive manual forgotten l) j -> j = i.
Proof.
  intros ex man fo l i j BH T X Bi Bj. destruct (C103_queued_in_time ex man fo l BH T) as (l' & TR & _).
  assert (ON : forall k, busy (late_trace ex man fo l) k -> busy (trace ex man l') k).
  { intros k [E N]. destruct (left_out fo l k) eqn:F; [exfalso; revert E; now apply (C103_left_out_never_runs ex man fo l k BH T F)|].
    rewrite <- TR. split; [apply in_of_others; auto|]. intros L. apply in_of_others in L as [L _]. auto. }
  apply (C34_mutual_exclusion ex man l' i j X); auto.
Qed.
Print Assumptions C103_in_time_mutual_exclusion.

(** If one of two guards is exclusive, the one that was appended first has left its block (or was refused) before the other enters. *)
Theorem C103_in_time_in_order : forall exclusive manual forgotten l i j a b c,
  (forall i, forgotten i = true -> manual i = true) -> in_time exclusive manual forgotten l -> exclusive i = true \/ exclusive j = true ->
  late_trace exclusive manual forgotten l = a ++ Joined j :: b ++ Entered j :: c -> In (Joined i) a ->
  In (Left i) (a ++ Joined j :: b) \/ exists e, In (Raised i e) (a ++ Joined j :: b).
Proof.
  intros ex man fo l i j a b c BH IT K E X. destruct (C103_queued_in_time ex man fo l BH IT) as (l' & T & _).
  assert (Fi : left_out fo l i = false). { destruct (left_out fo l i) eqn:F; [|reflexivity]. exfalso. apply (proj1 (C103_left_out_never_runs ex man fo l i BH IT F)). rewrite E. apply in_or_app. auto. }
  assert (Fj : left_out fo l j = false). { destruct (left_out fo l j) eqn:F; [|reflexivity]. exfalso. apply (proj1 (C103_left_out_never_runs ex man fo l j BH IT F)). rewrite E. apply in_or_app. cbn. auto. }
  rewrite E in T. unfold of_others in T. rewrite filter_app in T. cbn [filter] in T. rewrite filter_app in T. cbn [filter subject] in T. rewrite Fj in T. cbn [negb] in T.
  destruct (C35_in_order ex man _ i j _ _ _ K (eq_sym T)) as [L|(e & R)].
  - apply filter_In. cbn. rewrite Fi. auto.
  - left. apply in_app_iff in L as [L|[L|L]]; [|discriminate|]; apply filter_In in L as [L _]; apply in_or_app; cbn; auto.
  - right. exists e. apply in_app_iff in R as [R|[R|R]]; [|discriminate|]; apply filter_In in R as [R _]; apply in_or_app; cbn; auto.
Qed.
Print Assumptions C103_in_time_in_order.

(** And if all guards keep taking steps, every guard that is queued, in time or late but in time, gets through its block. *)
Theorem C103_in_time_everyone_gets_through : forall exclusive manual forgotten gs l rounds,
  (forall i, forgotten i = true -> manual i = true) -> in_time exclusive manual forgotten l -> NoDup gs ->
  (forall x, In x l -> exists i, (x = Does (Step i) \/ x = Appends i) /\ In i gs) ->
  (forall b, In b rounds -> round gs b) -> 30 * length gs <= length rounds ->
  let l' := l ++ map Does (concat rounds) in
  (forall i, In i gs -> left_out forgotten l i = false ->
     In (Entered i) (late_trace exclusive manual forgotten l') /\ pcs (late_after exclusive manual forgotten l') i = Complete) /\
  queue (late_after exclusive manual forgotten l') = [].
Proof.
  intros ex man fo gs l rounds BH IT N A R L l'. destruct (late_sim ex man fo BH l IT) as (h & NA & _ & TR & S & SH & _).
  set (out := left_out fo l) in *. set (os := filter (fun i => negb (out i)) gs).
  assert (BL : forall i, out i = true -> man i = true) by (intros i F; apply BH; unfold out, left_out in F; now apply Bool.andb_true_iff in F as [F _]).
  pose proof (run_inv ex man h start (inv_start ex man)) as I.
  destruct (sim_run ex man out BL (concat rounds) _ _ S I SH) as (T2 & S2 & _ & _).
  assert (NO : NoDup os) by now apply NoDup_filter.
  assert (AO : forall a, In a h -> exists i, a = Step i /\ In i os).
  { intros a X. destruct (NA a X) as [[Y|(i & Y & Z)] F].
    - destruct (A _ Y) as (i & [E|E] & G); [|discriminate]. injection E as ->. exists i. split; [reflexivity|]. apply filter_In. cbn in F. now rewrite F.
    - destruct (A _ Y) as (i' & [E|E] & G); [discriminate|]. injection E as <-. destruct Z as [->|[_ Z]].
      + exists i. split; [reflexivity|]. apply filter_In. cbn in F. now rewrite F.
      + exfalso. destruct (A _ Z) as (x & [E|E] & _); discriminate. }
  assert (LO : length os <= length gs) by apply filter_shorter.
  assert (RO : forall b, In b (map (others out) rounds) -> round os b).
  { intros b X. apply in_map_iff in X as (b' & <- & X). apply others_round. auto. }
  destruct (C36_everyone_gets_through ex man os h (map (others out) rounds) NO AO RO ltac:(rewrite map_length; lia)) as (TH & QE & _).
  rewrite <- others_concat in TH, QE. unfold trace, after in TH, QE. rewrite run_app in TH, QE. cbn [fst snd] in TH, QE.
  unfold late_trace, late_after, l'. rewrite late_run_does. cbn [fst snd]. fold (late_after ex man fo l). split.
  - intros i G F. destruct (TH i) as [E P]; [apply filter_In; now rewrite F|]. split.
    + apply in_app_iff in E as [E|E]; apply in_or_app; [left|right].
      * change (fst (run ex man h start)) with (trace ex man h) in E. rewrite <- TR in E. now apply in_of_others in E as [E _].
      * change (snd (run ex man h start)) with (after ex man h) in E. rewrite T2 in E. now apply in_of_others in E as [E _].
    + rewrite (sim_pcs _ _ _ _ S2 i F). exact P.
  - rewrite (sim_queue _ _ _ _ S2). exact QE.
Qed.
Print Assumptions C103_in_time_everyone_gets_through.

(** Guard 0 is to be queued by hand and was not; guards 1 and 2 are ordinary, 2 is shared. Guard 0 waits while guard 1 runs; when
    the queue is empty it fails and an entry among the observers remains (guard 1 has removed that of guard 0 instead of its own). Then guard 2 runs all the same. But if guard 0 is
    queued now, guard 2 waits for ever. *)
Definition ex_turns (i n : nat) : list action := repeat (Step i) n.
Example C103_case :
  let ex i := negb (Nat.eqb i 2) in let zero i := Nat.eqb i 0 in
  let l := ex_turns 1 6 ++ ex_turns 0 6 ++ ex_turns 1 2 ++ ex_turns 0 2 in
  trace_without ex zero zero l = [Joined 1; Entered 1; Left 1; Raised 0 IndexErr] /\
  pcs (after_without ex zero zero l) 0 = Failed IndexErr /\ observers (after_without ex zero zero l) = [1] /\
  pcs (after_without ex zero zero (l ++ ex_turns 2 9)) 2 = Complete /\ observers (after_without ex zero zero (l ++ ex_turns 2 9)) = [1] /\
  fst (run ex zero (ex_turns 2 9) (enqueue 0 (after_without ex zero zero l))) = [Joined 2].
Proof. intros ex zero l. repeat match goal with |- _ /\ _ => split end; vm_compute; reflexivity. Qed.
(** The rounds of [C103_how_it_ends] can be made for any guards. *)
Example C103_rounds : forall gs, exists rounds, (forall b, In b rounds -> round gs b) /\ 30 * length gs + 4 <= length rounds.
Proof.
  intros gs. exists (repeat (map Step gs) (30 * length gs + 4)). split; [|rewrite repeat_length; lia].
  intros b X. apply repeat_spec in X as ->. split.
  - intros a X. apply in_map_iff in X as (i & <- & G). eauto.
  - intros i G. now apply in_map.
Qed.
(** One append is in time if the guard is between two looks then. *)
Lemma in_time_once ex man fo h i h' : fo i = true -> between_looks (pcs (late_after ex man fo (map Does h)) i) ->
  in_time ex man fo (map Does h ++ Appends i :: map Does h').
Proof.
  intros F B l1 j l2 E.
  assert (NO : forall r a b k, map Does r <> a ++ Appends k :: b).
  { intros r. induction r as [|x r IH]; intros [|y a] b k Z; try discriminate. cbn in Z. injection Z as _ Z. now apply (IH a b k). }
  assert (K : l1 = map Does h /\ j = i).
  { clear B. revert l1 E. induction h as [|x h IH]; intros [|y l1] E; cbn in E.
    - injection E as -> _. auto.
    - injection E as <- E. exfalso. now apply (NO h' l1 l2 j).
    - discriminate.
    - injection E as <- E. destruct (IH l1 E) as [-> ->]. auto. }
  destruct K as [-> ->]. split; [|exact B]. unfold left_out. rewrite F. cbn [andb]. apply Bool.negb_true_iff, Bool.not_true_iff_false.
  intros Z. apply existsb_exists in Z as (x & X & Z). apply in_map_iff in X as (a & <- & _). discriminate.
Qed.
(** Guard 0 looks at the queue twice while guard 1 runs, is appended then, and runs after guard 1. *)
Example C103_in_time_case :
  let ex i := true in let zero i := Nat.eqb i 0 in
  let h := ex_turns 1 6 ++ ex_turns 0 5 in let h' := ex_turns 0 3 ++ ex_turns 1 3 ++ ex_turns 0 9 in
  let l := map Does h ++ Appends 0 :: map Does h' in
  in_time ex zero zero l /\ pcs (late_after ex zero zero (map Does h)) 0 = Waiting /\
  late_trace ex zero zero l = [Joined 1; Entered 1; Joined 0; Left 1; Entered 0; Left 0] /\
  pcs (late_after ex zero zero l) 0 = Complete /\ observers (late_after ex zero zero l) = [].
Proof.
  intros ex zero h h' l. split; [apply in_time_once; [reflexivity|right; right; right; vm_compute; reflexivity]|].
  repeat match goal with |- _ /\ _ => split end; vm_compute; reflexivity.
Qed.
