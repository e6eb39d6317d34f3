(** * Starting and cancelling the entropy daemon: the property C113 *)
From Verif Require Import Base BaseFacts DaemonModel DaemonSpec DaemonProofs.
Open Scope list_scope.

(** C113: until it is cancelled no thread of it ends; and a thread that has ended has fed the pool. *)
Theorem C113_runs_until_cancelled : forall es i t, ~ In Cancel es -> nth_error (threads (history new_daemon es)) i = Some t -> at_ t <> Returned.
Proof.
  intros es i t N E. assert (Forall (fun t => at_ t <> Returned) (threads (history new_daemon es))) as F.
  { apply (keeps _ (fun c => c = false)); [discriminate| |  |constructor].
    - intros c [[] f] -> H; cbn in *; congruence.
    - intros es1 es2 ->. rewrite not_cancelled; [reflexivity|]. intros I. apply N. apply in_or_app. now left. }
  rewrite Forall_forall in F. apply F. eapply nth_error_In; eauto.
Qed.
Theorem C113_every_thread_feeds : forall es i t, nth_error (threads (history new_daemon es)) i = Some t -> at_ t = Returned -> 1 <= feeds t.
Proof.
  intros es i t E R. assert (Forall (fun t => (at_ t = Returned \/ at_ t = AtTest) -> 1 <= feeds t) (threads (history new_daemon es))) as F.
  { apply (keeps _ (fun _ => True)); [intros [H|H]; discriminate| |auto|constructor].
    intros c [p f] _ H [K|K]; destruct p, c; cbn in *; try discriminate; try lia; auto. }
  rewrite Forall_forall in F. apply (F t); [eapply nth_error_In; eauto|now left].
Qed.
(** C113: the pool is fed as often as the running thread gets to it: every fourth step, for as long as it is not cancelled. *)
Theorem C113_keeps_feeding : forall es, ~ In Cancel es -> ~ In Start es ->
  exists t, threads (history new_daemon (Start :: es)) = [t] /\ feeds t = (turns 0 es + 1) / 4.
Proof.
  assert (forall es c, ~ In Cancel es -> ~ In Start es -> forall p f n, n = match p with AtSnapshot => 0 | AtHash => 1 | AtFeed => 2 | _ => 3 end -> p <> Returned -> c = false ->
    exists t, threads (history {| cancelled := c; threads := [{| at_ := p; feeds := f |}] |} es) = [t] /\
      feeds t + (match p with AtTest => 1 | _ => 0 end) = f + (turns 0 es + n + 1) / 4) as G.
  { induction es as [|e es IH]; intros c N1 N2 p f n E R ->.
    - eexists. split; [reflexivity|]. cbn [feeds turns filter length]. subst n. destruct p; cbn; try congruence; lia.
    - assert (~ In Cancel es) as M1 by (intros I; apply N1; now right). assert (~ In Start es) as M2 by (intros I; apply N2; now right).
      change (history ?d (e :: es)) with (history (happen d e) es). destruct e as [| |[|j]]; [exfalso; apply N2; now left|exfalso; apply N1; now left| |].
      + change (turns 0 (Step 0 :: es)) with (S (turns 0 es)). cbn [happen change threads cancelled]. destruct p; try congruence; cbn [advance at_ feeds].
        * destruct (IH false M1 M2 AtHash f 1 eq_refl ltac:(discriminate) eq_refl) as (t & A & B). exists t. split; [exact A|].
          rewrite B. subst n. replace (S (turns 0 es) + 0 + 1) with (turns 0 es + 1 + 1) by lia. reflexivity.
        * destruct (IH false M1 M2 AtFeed f 2 eq_refl ltac:(discriminate) eq_refl) as (t & A & B). exists t. split; [exact A|].
          rewrite B. subst n. replace (S (turns 0 es) + 1 + 1) with (turns 0 es + 2 + 1) by lia. reflexivity.
        * destruct (IH false M1 M2 AtTest (S f) 3 eq_refl ltac:(discriminate) eq_refl) as (t & A & B). exists t. split; [exact A|].
          subst n. replace (S (turns 0 es) + 2 + 1) with (turns 0 es + 3 + 1) by lia. lia.
        * destruct (IH false M1 M2 AtSnapshot f 0 eq_refl ltac:(discriminate) eq_refl) as (t & A & B). exists t. split; [exact A|].
          subst n. replace (S (turns 0 es) + 3 + 1) with ((turns 0 es + 0 + 1) + 1 * 4) by lia. rewrite Nat.div_add by lia. lia.
      + change (turns 0 (Step (S j) :: es)) with (turns 0 es). destruct (IH false M1 M2 p f n E R eq_refl) as (t & A & B). exists t.
        split; [|exact B]. rewrite <- A. f_equal. f_equal. cbn. now destruct j. }
  intros es N1 N2. destruct (G es false N1 N2 AtSnapshot 0 0 eq_refl ltac:(discriminate) eq_refl) as (t & A & B). exists t. split; [exact A|].
  rewrite <- (Nat.add_0_r (feeds t)), B. now rewrite Nat.add_0_r, Nat.add_0_l.
Qed.

(** C113: after it was cancelled, whatever happens, every thread feeds the pool at most once more, not at all if it was asleep,
    and has ended when it has had four turns. *)
Theorem C113_cancel_stops : forall es later i t, In Cancel es -> nth_error (threads (history new_daemon es)) i = Some t ->
  exists t', nth_error (threads (history new_daemon (es ++ later))) i = Some t' /\
    feeds t' <= S (feeds t) /\ (at_ t = AtTest -> feeds t' = feeds t) /\ (4 <= turns i later -> at_ t' = Returned).
Proof.
  intros es later i t C N. unfold history. rewrite fold_left_app. change (fold_left happen es new_daemon) with (history new_daemon es) in *.
  assert (cancelled (history new_daemon es) = true) as CC.
  { apply in_split in C as (a & b & ->). unfold history. rewrite fold_left_app. cbn [fold_left]. apply cancel_stays. reflexivity. }
  exists (iter (turns i later) t). split; [apply alone; assumption|]. destruct (iter_feeds (turns i later) t) as [A B]. split; [lia|]. split; [auto|]. apply iter_four.
Qed.

(** C113: a thread that is started after a cancellation feeds the pool once at most. *)
Theorem C113_restarted_feeds_once : forall es later, In Cancel es ->
  forall t, nth_error (threads (history new_daemon (es ++ Start :: later))) (starts es) = Some t ->
  feeds t <= 1 /\ (4 <= turns (starts es) later -> at_ t = Returned).
Proof.
  intros es later C t E. pose proof (history_length es new_daemon) as L. cbn in L.
  assert (nth_error (threads (history new_daemon (es ++ [Start]))) (starts es) = Some {| at_ := AtSnapshot; feeds := 0 |}) as N.
  { unfold history. rewrite fold_left_app. cbn. change (fold_left happen es new_daemon) with (history new_daemon es). rewrite nth_error_app2 by lia. now rewrite L, Nat.sub_diag. }
  destruct (C113_cancel_stops (es ++ [Start]) later (starts es) _ (in_or_app _ _ _ (or_introl C)) N) as (t' & E' & F & _ & R).
  rewrite <- app_assoc in E'. cbn [app] in E'. rewrite E in E'. injection E' as <-. cbn in F. split; [exact F|exact R].
Qed.

(** C113 refuted: a daemon that has been started, cancelled and started again runs until it is cancelled again. *)
Theorem C113_restart_refuted : exists later, ~ In Cancel later /\
  let d := history new_daemon ([Start; Cancel; Start] ++ later) in Forall (fun t => at_ t = Returned) (threads d) /\ length (threads d) = 2.
Proof.
  exists [Step 0; Step 0; Step 0; Step 0; Step 1; Step 1; Step 1; Step 1]. split.
  - intros H. cbn in H. decompose [or] H; try discriminate; contradiction.
  - cbn. split; [repeat constructor|reflexivity].
Qed.
Print Assumptions C113_runs_until_cancelled.
Print Assumptions C113_every_thread_feeds.
Print Assumptions C113_keeps_feeding.
Print Assumptions C113_cancel_stops.
Print Assumptions C113_restarted_feeds_once.
Print Assumptions C113_restart_refuted.

(** A thread that has fed twice when it is cancelled before it feeds again; another one asleep. *)
Example C113_case :
  let steps n i := repeat (Step i) n in
  history new_daemon ([Start; Start] ++ steps 10 0 ++ steps 3 1) = {| cancelled := false; threads := [{| at_ := AtFeed; feeds := 2 |}; {| at_ := AtTest; feeds := 1 |}] |} /\
  history new_daemon ([Start; Start] ++ steps 10 0 ++ steps 3 1 ++ [Cancel] ++ steps 5 0 ++ steps 5 1) =
    {| cancelled := true; threads := [{| at_ := Returned; feeds := 3 |}; {| at_ := Returned; feeds := 1 |}] |}.
Proof. split; reflexivity. Qed.
