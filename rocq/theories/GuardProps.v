(** * C34 - C38: concurrency guards *)
From Coq Require Import Lia.
From Verif Require Import Base GuardModel GuardSpec GuardProofs.

Lemma busy_inside ex man l i : busy (trace ex man l) i <-> pcs (after ex man l) i = Inside.
Proof.
  unfold busy, trace, after. pose proof (tinv_run ex man l) as T. split.
  - intros [E N]. pose proof (t_over _ _ _ _ T i E) as O. pose proof (t_entered _ _ _ _ T i E) as W.
    destruct (pcs (snd (run ex man l start)) i); try tauto; exfalso; apply N, O; discriminate.
  - intros P. split; [apply (t_inside _ _ _ _ T i P)|]. intros L. apply (t_not_over _ _ _ _ T) in L. now rewrite P in L.
Qed.

(** C34.  Whatever the guards, their policies, the schedule, misuse and
    cancellations: while an exclusive guard is in its block, no other guard is. *)
Theorem C34_mutual_exclusion : forall exclusive manual l i j,
  exclusive i = true ->
  busy (trace exclusive manual l) i -> busy (trace exclusive manual l) j -> j = i.
Proof.
  intros ex man l i j X Bi Bj. apply busy_inside in Bi, Bj. unfold after in *.
  pose proof (t_inv _ _ _ _ (tinv_run ex man l)) as I.
  destruct (ex j) eqn:Y.
  - destruct (inv_front _ _ _ I i) as (q1 & Q1); [rewrite Bi; exact X|].
    destruct (inv_front _ _ _ I j) as (q2 & Q2); [rewrite Bj; exact Y|]. congruence.
  - pose proof (inv_sole _ _ _ I i j) as S. rewrite Bi, Bj in S. specialize (S X Y). discriminate.
Qed.
Print Assumptions C34_mutual_exclusion.

(** C35.  If one of two guards is exclusive, the one that joined the queue first
    has left its block (or was refused) before the other one enters. *)
Theorem C35_in_order : forall exclusive manual l i j a b c,
  exclusive i = true \/ exclusive j = true ->
  trace exclusive manual l = a ++ Joined j :: b ++ Entered j :: c ->
  In (Joined i) a ->
  In (Left i) (a ++ Joined j :: b) \/ exists e, In (Raised i e) (a ++ Joined j :: b).
Proof.
  intros ex man l i j a b c K E X. unfold trace in E.
  assert (E' : fst (run ex man l start) = (a ++ Joined j :: b) ++ Entered j :: c) by (rewrite E, <- app_assoc; reflexivity).
  destruct (event_moment ex man l _ _ _ E') as (l1 & ac & l2 & e1 & e2 & -> & T1 & Ev).
  pose proof (tinv_run ex man l1) as T.
  assert (Xe : In (Entered j) (fst (act ex man ac (snd (run ex man l1 start))))) by (rewrite Ev; apply in_or_app; cbn; auto).
  destruct (act_entered ex man _ _ _ (t_inv _ _ _ _ T) Xe) as (-> & F & S). rewrite S in Ev.
  destruct e1 as [|z e1]; [|destruct e1; discriminate]. rewrite app_nil_r in T1. rewrite T1.
  apply (order ex man _ _ i j (joins a) (joins b) T F).
  - rewrite <- T1, joins_app. reflexivity.
  - now apply joins_in.
  - exact K.
Qed.
Print Assumptions C35_in_order.

(** Each guard joins at most once, and those still in the queue are the last ones
    that joined, in that order. *)
Theorem C35_queue_is_the_latest_joined : forall exclusive manual l,
  NoDup (joins (trace exclusive manual l)) /\
  exists served, joins (trace exclusive manual l) = served ++ queue (after exclusive manual l).
Proof.
  intros ex man l. pose proof (tinv_run ex man l) as T. split; [apply (t_nodup _ _ _ _ T)|apply (t_served _ _ _ _ T)].
Qed.
Print Assumptions C35_queue_is_the_latest_joined.

(** Two shared guards may overtake each other between leaving the queue and
    entering (as the documentation of the policies says). *)
Theorem C35_shared_guards_enter_in_order_refuted :
  let l := [Step 0; Step 0; Step 0; Step 1; Step 1; Step 1;      (* both join, 0 first *)
            Step 0; Step 0; Step 0;                              (* 0 leaves the queue *)
            Step 1; Step 1; Step 1; Step 1; Step 0] in           (* 1 leaves it and enters *)
  trace (fun _ => false) (fun _ => false) l = [Joined 0; Joined 1; Entered 1; Entered 0].
Proof. reflexivity. Qed.
Print Assumptions C35_shared_guards_enter_in_order_refuted.

(** C36.  The only error that ever arises is InvalidStateTransition, for a guard
    object that was used a second time: IndexError or IncoherentConcurrencyState
    never arise. *)
Theorem C36_errors_only_for_reused_guards : forall exclusive manual l i e,
  In (Raised i e) (trace exclusive manual l) -> e = InvalidStateTransition /\ In (Reuse i) l.
Proof. intros ex man l i e. apply (raised_reuse ex man). Qed.
Print Assumptions C36_errors_only_for_reused_guards.

Lemma finish ex man gs l rounds : NoDup gs ->
  (forall a, In a l -> exists i, uses_guard a i /\ In i gs) -> harmless_cancels ex man l ->
  (forall b, In b rounds -> round gs b) -> 30 * length gs <= length rounds ->
  well ex man gs (after ex man (l ++ concat rounds)) /\
  forall i, In i gs -> settled (pcs (after ex man (l ++ concat rounds)) i).
Proof.
  intros N A H R L. unfold after. rewrite run_app. cbn [snd].
  apply (all_through ex man gs N (10 * length gs) rounds).
  - apply well_run.
    + intros a X. destruct (A a X) as (i & [->|[-> | ->]] & G); exact G.
    + exact H.
  - apply total_bound.
  - lia.
  - exact R.
Qed.

(** From any history of correct use: if all the guards keep taking steps, then
    after 30 rounds per guard all of them have been through their block, whatever
    the order in the rounds, and the deques are empty. *)
Theorem C36_everyone_gets_through : forall exclusive manual gs l rounds,
  NoDup gs ->
  (forall a, In a l -> exists i, a = Step i /\ In i gs) ->
  (forall b, In b rounds -> round gs b) -> 30 * length gs <= length rounds ->
  let l' := l ++ concat rounds in
  (forall i, In i gs -> In (Entered i) (trace exclusive manual l') /\ pcs (after exclusive manual l') i = Complete) /\
  queue (after exclusive manual l') = [] /\ observers (after exclusive manual l') = [].
Proof.
  intros ex man gs l rounds N A R L l'.
  assert (St : forall a, In a l' -> exists i, a = Step i).
  { intros a X. apply in_app_iff in X as [X|X]; [destruct (A a X) as (i & -> & _); eauto|].
    apply in_concat in X as (b & Xb & X). destruct (R b Xb) as [R1 _]. destruct (R1 a X) as (i & -> & _). eauto. }
  destruct (finish ex man gs l rounds N) as [W S]; auto.
  - intros a X. destruct (A a X) as (i & -> & G). exists i. split; [now left|exact G].
  - intros l1 i l2 E. destruct (A (Cancel i)) as (k & Z & _); [rewrite E; apply in_or_app; cbn; auto|discriminate].
  - fold l' in W, S. split; [|apply (settled_empty ex man gs _ W S)].
    intros i X. pose proof (tinv_run ex man l') as T.
    assert (C : pcs (after ex man l') i = Complete).
    { destruct (clean_or_gone ex man l' i) with (s := start) as [[_ C]|(q & o & C)].
      - intros a Xa ->. destruct (St _ Xa). discriminate.
      - apply inv_start.
      - left. split; [reflexivity|exact I].
      - fold (after ex man l') in C. destruct (S i X) as [S'|[[e S']|S']]; [exact S'|..]; rewrite S' in C; destruct C.
      - exfalso. fold (after ex man l') in C. revert C. unfold after. clear - St.
        induction l' as [|a l' IH] using rev_ind; [discriminate|].
        rewrite run_snoc. cbn [snd]. destruct (St a) as (k & ->); [apply in_or_app; cbn; auto|]. cbn [act].
        intros C. apply IH; [intros; apply St, in_or_app; auto|].
        pose proof (t_inv _ _ _ _ (tinv_run ex man l')) as I0.
        destruct (Nat.eq_dec i k) as [<-|Ne]; [|now rewrite (proj1 (step_other ex man k _ i Ne)) in C].
        destruct (step_edge ex man i _ I0) as [E _]. rewrite C in E. now inversion E. }
    split; [|exact C]. apply (t_ent _ _ _ _ T). apply (t_left _ _ _ _ T). auto.
Qed.
Print Assumptions C36_everyone_gets_through.

(** The same after misuse of guard objects and after cancellations before joining:
    every guard comes to an end (through its block, or refused, or cancelled), and
    the deques are empty. *)
Theorem C36_misuse_blocks_nobody : forall exclusive manual gs l rounds,
  NoDup gs ->
  (forall a, In a l -> exists i, uses_guard a i /\ In i gs) -> harmless_cancels exclusive manual l ->
  (forall b, In b rounds -> round gs b) -> 30 * length gs <= length rounds ->
  let l' := l ++ concat rounds in
  (forall i, In i gs -> pcs (after exclusive manual l') i = Complete \/
     In (Reuse i) l \/ In (Cancel i) l) /\
  queue (after exclusive manual l') = [] /\ observers (after exclusive manual l') = [].
Proof.
  intros ex man gs l rounds N A H R L l'. destruct (finish ex man gs l rounds N A H R L) as [W S].
  fold l' in W, S. split; [|apply (settled_empty ex man gs _ W S)].
  assert (Rs : forall a, In a (concat rounds) -> exists i, a = Step i).
  { intros a X. apply in_concat in X as (b & Xb & X). destruct (R b Xb) as [R1 _]. destruct (R1 a X) as (i & -> & _). eauto. }
  intros i X. pose proof (tinv_run ex man l') as T. destruct (S i X) as [C|[[e C]|C]]; [now left|..].
  - right. left. destruct (t_raised _ _ _ _ T i e) as (e' & Ra); [left; exact C|].
    apply (raised_reuse ex man) in Ra as [_ Ra]. apply in_app_iff in Ra as [Ra|Ra]; [exact Ra|].
    destruct (Rs _ Ra). discriminate.
  - right. right. assert (D : In (Cancel i) l').
    { revert C. unfold after. clear. induction l' as [|a l' IH] using rev_ind; [discriminate|].
      rewrite run_snoc. cbn [snd]. intros C. apply in_or_app.
      pose proof (t_inv _ _ _ _ (tinv_run ex man l')) as I0. destruct a as [k|k|k]; cbn [act snd] in C.
      - left. apply IH. destruct (Nat.eq_dec i k) as [<-|Ne]; [|now rewrite (proj1 (step_other ex man k _ i Ne)) in C].
        destruct (step_edge ex man i _ I0) as [E _]. rewrite C in E. now inversion E.
      - left. apply IH. destruct (begun _); exact C.
      - destruct (Nat.eq_dec i k) as [<-|Ne]; [right; cbn; auto|left]. apply IH. unfold cancel_guard in C.
        rewrite <- Nat.eqb_neq in Ne. destruct (pcs (snd (run ex man l' start)) k); cbn in C; rewrite ?Ne in C; exact C. }
    apply in_app_iff in D as [D|D]; [exact D|]. destruct (Rs _ D). discriminate.
Qed.
Print Assumptions C36_misuse_blocks_nobody.

(** C37, refuted.  A task cancelled while it waits stays in the queue: no guard that
    joins later ever enters, whatever happens. *)
Theorem C37_cancelled_waiter_blocks_all_refuted : forall exclusive manual l l' i j,
  pcs (after exclusive manual l) i = Waiting ->
  ~ In (Joined j) (trace exclusive manual l) ->
  ~ In (Entered j) (trace exclusive manual (l ++ Cancel i :: l')).
Proof. intros ex man l l' i j. apply (cancelled_waiter ex man). Qed.
Print Assumptions C37_cancelled_waiter_blocks_all_refuted.

(** A task cancelled while it is about to leave: no other guard that has not
    entered already ever does, unless both are shared. *)
Theorem C37_cancelled_leaver_blocks_all_refuted : forall exclusive manual l l' i j,
  pcs (after exclusive manual l) i = Inside -> i <> j ->
  exclusive i = true \/ exclusive j = true ->
  ~ In (Entered j) (trace exclusive manual l) ->
  ~ In (Entered j) (trace exclusive manual (l ++ Cancel i :: l')).
Proof. intros ex man l l' i j. apply (cancelled_leaver ex man). Qed.
Print Assumptions C37_cancelled_leaver_blocks_all_refuted.

(** What does hold: cancelling a task that has not joined yet blocks nobody. *)
Theorem C37_cancel_before_joining_partial : forall exclusive manual gs l rounds,
  NoDup gs ->
  (forall a, In a l -> exists i, (a = Step i \/ a = Cancel i) /\ In i gs) ->
  harmless_cancels exclusive manual l ->
  (forall b, In b rounds -> round gs b) -> 30 * length gs <= length rounds ->
  forall i, In i gs -> ~ In (Cancel i) l -> In (Entered i) (trace exclusive manual (l ++ concat rounds)).
Proof.
  intros ex man gs l rounds N A H R L i X C.
  destruct (C36_misuse_blocks_nobody ex man gs l rounds N) as [M _]; auto.
  - intros a Xa. destruct (A a Xa) as (k & [->| ->] & G); exists k; (split; [|exact G]); unfold uses_guard; auto.
  - pose proof (tinv_run ex man (l ++ concat rounds)) as T.
    apply (t_ent _ _ _ _ T). apply (t_left _ _ _ _ T). right.
    destruct (M i X) as [D|[D|D]]; [exact D| |contradiction].
    exfalso. destruct (A _ D) as (k & [Z|Z] & _); discriminate.
Qed.
Print Assumptions C37_cancel_before_joining_partial.

(** C38.  Of any sequence of transitions asked of a fresh guard, one succeeds just
    when everything so far was the beginning of wait, run, finish. *)
Theorem C38_in_order_once : forall calls k, k < length calls ->
  (nth k (fst (try_moves calls (Some Unused))) false = true <->
   k < 3 /\ firstn (S k) calls = firstn (S k) [Wait; Run; Finish]).
Proof. intros calls k K. exact (try_moves_spec calls 0 k (Nat.le_0_l _) K). Qed.
Print Assumptions C38_in_order_once.

(** After a refusal the guard has no state left and every call is refused. *)
Theorem C38_refusal_is_final : forall before m rest,
  fst (try_move m (snd (try_moves before (Some Unused)))) = false ->
  let t := snd (try_move m (snd (try_moves before (Some Unused)))) in
  t = None /\ fst (try_moves rest t) = repeat false (length rest).
Proof.
  intros before m rest. destruct (snd (try_moves before (Some Unused))) as [[]|], m; cbn; try discriminate; intros _;
    (split; [reflexivity|]); rewrite try_moves_none; reflexivity.
Qed.
Print Assumptions C38_refusal_is_final.

(** The same for any number of threads that call transitions of one guard at the
    same time, with a pop and an append as separate operations: the calls that
    succeed are, in this order, a beginning of wait, run, finish. *)
Theorem C38_in_order_once_for_threads : forall what schedule, exists n,
  map what (fst (trun what schedule tstart)) = firstn n [Wait; Run; Finish].
Proof. intros what l. destruct (kinv_run what l) as [(n & _ & M & _)]. now exists n. Qed.
Print Assumptions C38_in_order_once_for_threads.

(** With threads a refusal is not final: a call refused while another one is under
    way leaves no trace. *)
Theorem C38_refusal_is_final_for_threads_refuted :
  let '(passed, s) := trun (fun _ => Wait) [0; 1; 0] tstart in
  tpcs s 1 = Refused /\ cell s = Some Pending /\ passed = [0].
Proof. cbn. auto. Qed.
Print Assumptions C38_refusal_is_final_for_threads_refuted.

(** A guard object that is entered a second time before its turn never runs its block. *)
Theorem C38_second_use_spoils_the_guard : forall exclusive manual l l' i,
  uses (after exclusive manual l) i <> Some Unused ->
  ~ In (Entered i) (trace exclusive manual l) ->
  ~ In (Entered i) (trace exclusive manual (l ++ Reuse i :: l')).
Proof.
  intros ex man l l' i U. apply (spoilt_guard ex man). fold (after ex man l).
  destruct (uses (after ex man l) i) as [[]|]; cbn; congruence.
Qed.
Print Assumptions C38_second_use_spoils_the_guard.

(** ** Examples *)
Definition odd_shared (i : nat) : bool := Nat.even i.
Definition steps (i n : nat) : list action := repeat (Step i) n.

(** Two shared guards inside together, an exclusive one waiting behind them, which
    enters when both have left. *)
Example C34_C35_case :
  let l1 := steps 1 7 ++ steps 3 7 ++ steps 0 9 in
  let l2 := l1 ++ steps 1 2 ++ steps 0 4 ++ steps 3 2 ++ steps 0 3 in
  busy (trace odd_shared (fun _ => false) l1) 1 /\ busy (trace odd_shared (fun _ => false) l1) 3 /\
  trace odd_shared (fun _ => false) l2 =
    [Joined 1; Entered 1; Joined 3; Entered 3; Joined 0; Left 1; Left 3; Entered 0] /\
  busy (trace odd_shared (fun _ => false) l2) 0.
Proof.
  cbn. unfold busy. cbn. repeat split; auto; intuition discriminate.
Qed.
Example C36_case :
  let b := [Step 2; Step 0; Step 1] in
  round [0; 1; 2] b /\
  let l := steps 1 2 ++ concat (repeat b 90) in
  queue (after odd_shared (fun i => Nat.eqb i 2) l) = [] /\
  filter (fun x => match x with Entered _ => true | _ => false end) (trace odd_shared (fun i => Nat.eqb i 2) l)
    = [Entered 2; Entered 1; Entered 0].
Proof.
  cbn zeta. split; [|split; vm_compute; reflexivity]. split.
  - intros a [<-|[<-|[<-|[]]]]; eexists; (split; [reflexivity|cbn; auto]).
  - intros i [<-|[<-|[<-|[]]]]; cbn; auto.
Qed.
Example C37_case :
  let l := steps 0 6 ++ steps 2 5 in
  pcs (after odd_shared (fun _ => false) l) 2 = Waiting /\
  busy (trace odd_shared (fun _ => false) l) 0 /\
  ~ In (Joined 4) (trace odd_shared (fun _ => false) l) /\
  pcs (after odd_shared (fun _ => false) (l ++ Cancel 2 :: steps 0 2 ++ steps 4 50)) 4 = Checked false /\
  pcs (after odd_shared (fun _ => false) (steps 0 6)) 0 = Inside /\
  harmless_cancels odd_shared (fun _ => false) ([Cancel 3] ++ steps 0 6).
Proof.
  cbn zeta. split; [vm_compute; reflexivity|]. split; [vm_compute; intuition discriminate|].
  split; [vm_compute; intuition discriminate|]. split; [vm_compute; reflexivity|]. split; [vm_compute; reflexivity|].
  intros l1 i l2 E. destruct l1 as [|a l1]; [left; cbn; tauto|exfalso].
  cbn in E. injection E as _ E. assert (X : In (Cancel i) (steps 0 6)) by (change (steps 0 6) with [Step 0; Step 0; Step 0; Step 0; Step 0; Step 0]; rewrite E; apply in_or_app; cbn; auto).
  cbn in X. intuition discriminate.
Qed.
Example C38_case :
  fst (try_moves [Wait; Run; Run; Finish] (Some Unused)) = [true; true; false; false] /\
  uses (after odd_shared (fun _ => false) (steps 0 3)) 0 <> Some Unused /\
  trace odd_shared (fun _ => false) (steps 0 3 ++ Reuse 0 :: steps 0 9 ++ steps 2 6)
    = [Joined 0; Raised 0 InvalidStateTransition; Joined 2; Entered 2].
Proof. cbn. repeat split; discriminate. Qed.
