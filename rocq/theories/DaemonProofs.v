(** * Starting and cancelling the entropy daemon: proofs *)
From Verif Require Import Base BaseFacts DaemonModel DaemonSpec.
Open Scope list_scope.

Lemma change_nth f l : forall i j, nth_error (change f i l) j = if Nat.eqb i j then option_map f (nth_error l j) else nth_error l j.
Proof. induction l as [|t l IH]; intros [|i] [|j]; cbn; try reflexivity; [now destruct (Nat.eqb i j)|apply IH]. Qed.
Lemma change_length f l : forall i, length (change f i l) = length l.
Proof. induction l as [|t l IH]; intros [|i]; cbn; auto. Qed.

Lemma history_length es : forall d, length (threads (history d es)) = length (threads d) + starts es.
Proof.
  induction es as [|e es IH]; intros d; cbn [history fold_left]; [cbn; lia|]. change (fold_left happen es (happen d e)) with (history (happen d e) es). rewrite IH.
  destruct e; cbn; rewrite ?app_length, ?change_length; cbn; unfold starts; cbn; lia.
Qed.

(** A property of threads that their steps keep, whatever the flag is. *)
Lemma keeps (P : thread -> Prop) (b : bool -> Prop) : 
  P {| at_ := AtSnapshot; feeds := 0 |} -> (forall c t, b c -> P t -> P (advance c t)) ->
  forall es d, (forall es1 es2, es = es1 ++ es2 -> b (cancelled (history d es1))) -> Forall P (threads d) -> Forall P (threads (history d es)).
Proof.
  intros P0 PS. induction es as [|e es IH]; intros d B F; [exact F|]. change (history d (e :: es)) with (history (happen d e) es). apply IH.
  - intros es1 es2 ->. apply (B (e :: es1) es2). reflexivity.
  - pose proof (B [] (e :: es) eq_refl) as B0. cbn in B0. destruct e as [| |i]; cbn.
    + apply Forall_app. split; [exact F|]. constructor; [exact P0|constructor].
    + exact F.
    + apply Forall_forall. intros t I. apply In_nth_error in I as (j & N). rewrite change_nth in N. rewrite Forall_forall in F.
      destruct (Nat.eqb i j); [|apply F; eapply nth_error_In; eauto]. destruct (nth_error (threads d) j) eqn:N2; [|discriminate]. cbn in N. injection N as <-.
      apply PS; [exact B0|]. apply F. eapply nth_error_In; eauto.
Qed.

Lemma cancel_stays es : forall d, cancelled d = true -> cancelled (history d es) = true.
Proof. induction es as [|e es IH]; intros d C; [exact C|]. change (history d (e :: es)) with (history (happen d e) es). apply IH. now destruct e. Qed.
Lemma not_cancelled es : forall d, ~ In Cancel es -> cancelled (history d es) = cancelled d.
Proof.
  induction es as [|e es IH]; intros d N; [reflexivity|]. change (history d (e :: es)) with (history (happen d e) es). rewrite IH by (intros I; apply N; now right).
  destruct e; try reflexivity. exfalso. apply N. now left.
Qed.

Fixpoint iter (n : nat) (t : thread) : thread := match n with O => t | S n => iter n (advance true t) end.
(** After it was cancelled a thread's history is its own steps. *)
Lemma alone es : forall d i t, cancelled d = true -> nth_error (threads d) i = Some t -> nth_error (threads (history d es)) i = Some (iter (turns i es) t).
Proof.
  induction es as [|e es IH]; intros d i t C N; [exact N|]. change (history d (e :: es)) with (history (happen d e) es). destruct e as [| |j].
  - erewrite IH; [reflexivity|exact C|]. cbn. rewrite nth_error_app1; [exact N|]. apply nth_error_Some. congruence.
  - erewrite IH; [reflexivity|reflexivity|exact N].
  - unfold turns. cbn [filter]. fold (turns i es). rewrite Nat.eqb_sym. destruct (Nat.eqb j i) eqn:E.
    + cbn [length iter]. apply IH; [exact C|]. cbn. rewrite change_nth, E, N, C. reflexivity.
    + apply IH; [exact C|]. cbn. rewrite change_nth, E. exact N.
Qed.
Lemma iter_end n : forall t, at_ t = Returned -> iter n t = t.
Proof. induction n as [|n IH]; intros t E; [reflexivity|]. cbn. unfold advance. rewrite E. now apply IH. Qed.
Lemma iter_four n : forall t, 4 <= n -> at_ (iter n t) = Returned.
Proof.
  intros t L. destruct n as [|[|[|[|n]]]]; try lia. cbn [iter]. rewrite iter_end; destruct t as [[] f]; reflexivity.
Qed.
Lemma iter_feeds n : forall t, feeds t <= feeds (iter n t) <= S (feeds t) /\ (at_ t = AtTest \/ at_ t = Returned -> feeds (iter n t) = feeds t).
Proof.
  intros [p f]. destruct n as [|[|[|[|n]]]]; cbn [iter]; try rewrite iter_end by (destruct p; reflexivity);
    destruct p; cbn; (split; [lia|]); intros [E|E]; try discriminate; reflexivity.
Qed.
