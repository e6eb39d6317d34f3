(** * C98: what a guard says about itself *)
From Coq Require Import Lia.
From Verif Require Import Base GuardModel GuardSpec GuardProofs GuardProps StatusModel StatusSpec StatusProofs.

(** Whatever happened, misuse and cancellations included: exactly one of the five answers is yes. *)
Theorem C98_exactly_one_answer : forall exclusive manual l i,
  exists q, says exclusive manual l i q /\ forall q', says exclusive manual l i q' -> q' = q.
Proof.
  intros ex man l i. unfold says. destruct (uses (after ex man l) i) as [[]|].
  - exists Unused_q. split; [reflexivity|intros []; easy].
  - exists Pending_q. split; [reflexivity|intros []; easy].
  - exists Running_q. split; [reflexivity|intros []; easy].
  - exists Done_q. split; [reflexivity|intros []; easy].
  - exists Faulted_q. split; [reflexivity|intros []; easy].
Qed.
Print Assumptions C98_exactly_one_answer.

(** The answers only go forward: unused, pending, running, done; and a fault is for ever. *)
Theorem C98_never_back : forall exclusive manual l l' i q q',
  says exclusive manual l i q -> says exclusive manual (l ++ l') i q' -> rank q <= rank q'.
Proof.
  intros ex man l l' i q q' S S'. unfold says, after in S, S'. rewrite run_app in S'. cbn [snd] in S'.
  pose proof (run_rank ex man l' (snd (run ex man l start)) i) as R.
  rewrite (asks_level _ _ S), (asks_level _ _ S') in R. exact R.
Qed.
Print Assumptions C98_never_back.

(** A guard says that it faulted only if its object was used a second time. *)
Theorem C98_faults_are_misuse : forall exclusive manual l i,
  says exclusive manual l i Faulted_q -> In (Reuse i) l.
Proof.
  intros ex man l i S. destruct (in_dec action_dec (Reuse i) l) as [R|R]; [exact R|exfalso].
  pose proof (fits_run ex man l i R) as F. unfold says, after in S.
  destruct (pcs (snd (run ex man l start)) i); cbn in F; try (rewrite F in S; discriminate); try contradiction.
  destruct (uses (snd (run ex man l start)) i); [discriminate S|now apply F].
Qed.
Print Assumptions C98_faults_are_misuse.

(** The answers of a guard that is used once and not cancelled are true. *)
Theorem C98_truth : forall exclusive manual l i, proper l i ->
  (says exclusive manual l i Unused_q ->
     ~ In (Entered i) (trace exclusive manual l) /\
     (manual i = false -> ~ In (Joined i) (trace exclusive manual l))) /\
  (says exclusive manual l i Pending_q -> ~ In (Entered i) (trace exclusive manual l)) /\
  (says exclusive manual l i Running_q -> In (Entered i) (trace exclusive manual l)) /\
  (says exclusive manual l i Done_q -> In (Left i) (trace exclusive manual l)) /\
  ~ says exclusive manual l i Faulted_q.
Proof.
  intros ex man l i [R C].
  pose proof (fits_run ex man l i R) as F. pose proof (tinv_run ex man l) as T.
  pose proof (not_gone ex man l i C) as G. pose proof (t_entered _ _ _ _ T i) as En.
  pose proof (t_joined _ _ _ _ T i) as Jo. pose proof (t_inside _ _ _ _ T i) as In1.
  pose proof (t_left _ _ _ _ T i) as Le. pose proof (t_ent _ _ _ _ T i) as Le2.
  pose proof (t_inv _ _ _ _ T) as Iv. pose proof (inv_shape _ _ _ Iv i) as Sh.
  unfold says, trace, after.
  destruct (pcs (snd (run ex man l start)) i) eqn:P; cbn in F; try contradiction;
    try (rewrite F; cbn; repeat split; try discriminate; auto; fail);
    try (exfalso; now apply (G _ _ eq_refl)).
  all: try (rewrite F; cbn; repeat split; try discriminate; auto; intros; 
    try (intros J; apply Jo in J; cbn in J; congruence); auto; fail).
  rewrite F. cbn. destruct Sh as [Sh _]. repeat split; try discriminate; auto. congruence.
Qed.
Print Assumptions C98_truth.

(** Inside its block a guard says that it is running. *)
Theorem C98_running_inside : forall exclusive manual l i, proper l i ->
  busy (trace exclusive manual l) i -> says exclusive manual l i Running_q.
Proof.
  intros ex man l i [R C] B. apply busy_inside in B. unfold after in B.
  pose proof (fits_run ex man l i R) as F. rewrite B in F. unfold says, after. now rewrite F.
Qed.
Print Assumptions C98_running_inside.

(** After it began to leave, its next operation makes it say that it is done. *)
Theorem C98_done_after_leaving : forall exclusive manual l i, proper l i ->
  In (Left i) (trace exclusive manual l) -> says exclusive manual (l ++ [Step i]) i Done_q.
Proof. intros ex man l i [R C] L. now apply done_next. Qed.
Print Assumptions C98_done_after_leaving.

(** The documented assertions: once a guard has entered, the ones which joined before it - if one
    of the two is exclusive - say that they are done, at the latest when they have done their next
    operation.  Missing from the documented assertion: the moment before that (see below). *)
Theorem C98_earlier_guards_are_done_partial : forall exclusive manual l i j a b c,
  exclusive i = true \/ exclusive j = true ->
  trace exclusive manual l = a ++ Joined j :: b ++ Entered j :: c ->
  In (Joined i) a -> proper l i ->
  says exclusive manual l i Done_q \/
  (says exclusive manual l i Running_q /\ says exclusive manual (l ++ [Step i]) i Done_q).
Proof.
  intros ex man l i j a b c K E X Pr.
  assert (L : In (Left i) (trace ex man l)).
  { destruct (C35_in_order ex man l i j a b c K E X) as [L|[e L]].
    - rewrite E. replace (a ++ Joined j :: b ++ Entered j :: c) with ((a ++ Joined j :: b) ++ Entered j :: c)
        by (rewrite <- app_assoc; reflexivity). apply in_or_app. now left.
    - exfalso. destruct Pr as [R C]. apply R, (C36_errors_only_for_reused_guards ex man l i e). rewrite E.
      replace (a ++ Joined j :: b ++ Entered j :: c) with ((a ++ Joined j :: b) ++ Entered j :: c)
        by (rewrite <- app_assoc; reflexivity). apply in_or_app. now left. }
  destruct Pr as [R C]. pose proof (fits_run ex man l i R) as F.
  pose proof (t_not_over _ _ _ _ (tinv_run ex man l) i L) as O.
  pose proof (not_gone ex man l i C) as G.
  pose proof (done_next ex man l i R C L) as D. unfold says at 1 2, after at 1 2.
  destruct (pcs (snd (run ex man l start)) i) eqn:P; cbn in F; try contradiction.
  - right. split; [now rewrite F|exact D].
  - left. now rewrite F.
  - exfalso. now apply (G _ _ eq_refl).
Qed.
Print Assumptions C98_earlier_guards_are_done_partial.

(** In asyncio nothing happens between the two operations of leaving: there the documented
    assertions hold at every moment. *)
Theorem C98_earlier_guards_are_done_for_tasks : forall exclusive manual l i j a b c,
  exclusive i = true \/ exclusive j = true ->
  trace exclusive manual l = a ++ Joined j :: b ++ Entered j :: c ->
  In (Joined i) a -> proper l i ->
  leaves_at_once exclusive manual l i ->
  says exclusive manual l i Done_q.
Proof.
  intros ex man l i j a b c K E X Pr At.
  destruct (C98_earlier_guards_are_done_partial ex man l i j a b c K E X Pr) as [D|[Rn _]]; [exact D|exfalso].
  destruct Pr as [R C]. eapply running_stays; eauto.
  destruct (C35_in_order ex man _ i j a b c K E X) as [L|[e L]].
  - rewrite E. replace (a ++ Joined j :: b ++ Entered j :: c) with ((a ++ Joined j :: b) ++ Entered j :: c)
      by (rewrite <- app_assoc; reflexivity). apply in_or_app. now left.
  - exfalso. apply R, (C36_errors_only_for_reused_guards ex man _ i e). rewrite E.
    replace (a ++ Joined j :: b ++ Entered j :: c) with ((a ++ Joined j :: b) ++ Entered j :: c)
      by (rewrite <- app_assoc; reflexivity). apply in_or_app. now left.
Qed.
Print Assumptions C98_earlier_guards_are_done_for_tasks.

(** With threads they do not: in Context B of the documentation, [assert a.is_done()] can fail,
    since the shared guard [a] leaves the observers before it says that it is done. *)
Theorem C98_earlier_guards_are_done_refuted :
  let exclusive i := Nat.eqb i 1 in
  let l := repeat (Step 0) 7 ++ repeat (Step 1) 3 ++ [Step 0] ++ repeat (Step 1) 3 in
  trace exclusive (fun _ => false) l = [Joined 0; Entered 0; Joined 1; Left 0; Entered 1] /\
  busy (trace exclusive (fun _ => false) l) 1 /\
  says exclusive (fun _ => false) l 0 Running_q /\ ~ says exclusive (fun _ => false) l 0 Done_q.
Proof.
  cbn. unfold busy, says. cbn. repeat split; auto; try discriminate; intuition discriminate.
Qed.
Print Assumptions C98_earlier_guards_are_done_refuted.

(** Seen from another thread a guard may say for a moment that it has faulted although it was
    used once: a transition empties the state before it puts the next one there. *)
Theorem C98_no_fault_is_seen_without_misuse_refuted :
  let once k := match k with 0 => Wait | 1 => Run | _ => Finish end in
  has_faulted (cell (snd (trun once [0] tstart))) = true /\
  has_faulted (cell (snd (trun once [0; 0] tstart))) = false /\
  trun once [0; 0; 1; 1; 2; 2] tstart = ([0; 1; 2], snd (trun once [0; 0; 1; 1; 2; 2] tstart)) /\
  is_done (cell (snd (trun once [0; 0; 1; 1; 2; 2] tstart))) = true.
Proof. repeat split. Qed.
Print Assumptions C98_no_fault_is_seen_without_misuse_refuted.

(** ** Examples *)

(** The diagram in the documentation: a (0) and c (2) shared, b (1) exclusive, d (3) shared. *)
Example C98_documented_case :
  let exclusive i := Nat.eqb i 1 in
  let man := fun _ : nat => false in
  let l1 := repeat (Step 0) 7 ++ repeat (Step 2) 7 ++ repeat (Step 1) 4 in
  let l2 := l1 ++ repeat (Step 0) 2 ++ repeat (Step 2) 2 ++ repeat (Step 3) 3 ++ repeat (Step 1) 2 in
  let l3 := l2 ++ repeat (Step 1) 2 ++ repeat (Step 3) 4 in
  (says exclusive man l1 0 Running_q /\ says exclusive man l1 2 Running_q /\
   says exclusive man l1 1 Pending_q /\ says exclusive man l1 3 Unused_q) /\
  (says exclusive man l2 1 Running_q /\ says exclusive man l2 0 Done_q /\ says exclusive man l2 2 Done_q /\
   says exclusive man l2 3 Pending_q) /\
  (says exclusive man l3 3 Running_q /\ says exclusive man l3 1 Done_q) /\
  proper l3 0 /\ proper l3 1 /\
  trace exclusive man l2 = [Joined 0; Entered 0; Joined 2; Entered 2] ++ Joined 1 :: [Left 0; Left 2; Joined 3] ++ [Entered 1] /\
  leaves_at_once exclusive man l2 0.
Proof.
  cbn zeta. unfold says, proper. cbn. repeat split; try (intuition discriminate).
  apply at_once. cbn. reflexivity.
Qed.
Example C98_fault_case :
  let l := repeat (Step 0) 3 ++ [Reuse 0] in
  says (fun _ => true) (fun _ => false) (repeat (Step 0) 3) 0 Pending_q /\
  says (fun _ => true) (fun _ => false) l 0 Faulted_q /\
  says (fun _ => true) (fun _ => false) (l ++ repeat (Step 0) 9) 0 Faulted_q.
Proof. repeat split. Qed.
