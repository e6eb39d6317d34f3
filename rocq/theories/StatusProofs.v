(** * What a guard says about itself: proofs *)
From Coq Require Import Lia.
From Verif Require Import Base GuardModel GuardSpec GuardProofs GuardProps StatusModel StatusSpec.

Lemma action_dec (x y : action) : {x = y} + {x <> y}.
Proof. decide equality; apply Nat.eq_dec. Qed.

Definition level (t : tracker) : nat :=
  match t with
  | Some Unused => 0 | Some Pending => 1 | Some Running => 2 | Some Finished => 3 | None => 4
  end.
Lemma asks_level q t : asks q t = true -> level t = rank q.
Proof. destruct q, t as [[]|]; cbn; easy. Qed.

Lemma level_transition from to t : (from = Unused /\ to = Pending) \/ (from = Pending /\ to = Running) \/ (from = Running /\ to = Finished) ->
  level t <= level (snd (transition from to t)).
Proof. intros [[-> ->]|[[-> ->]|[-> ->]]]; destruct t as [[]|]; cbn; lia. Qed.
Lemma level_pending t : level t <= level (snd (to_pending t)).
Proof. apply level_transition. auto. Qed.
Lemma level_running t : level t <= level (snd (to_running t)).
Proof. apply level_transition. auto. Qed.
Lemma level_done t : level t <= level (snd (to_done t)).
Proof. apply level_transition. auto. Qed.

Lemma act_rank ex man a s i : level (uses s i) <= level (uses (snd (act ex man a s)) i).
Proof.
  destruct a as [k|k|k]; cbn [act snd].
  - unfold step_guard. pose proof (level_pending (uses s k)) as A1. pose proof (level_running (uses s k)) as A2.
    pose proof (level_done (uses s k)) as A3.
    destruct (to_pending (uses s k)) as [o1 t1] eqn:E1, (to_running (uses s k)) as [o2 t2] eqn:E2,
      (to_done (uses s k)) as [o3 t3] eqn:E3. cbn [snd] in A1, A2, A3.
    assert (Nn : level (uses s k) <= 4) by (destruct (uses s k) as [[]|]; cbn; lia).
    destruct (pcs s k); try destruct next; destruct (man k); destruct (ex k); destruct o1, o2, o3;
      destruct (queue s) as [|h z]; destruct (observers s) as [|h' z']; cbn; try lia;
      repeat (match goal with |- context[Nat.eqb ?a ?b] => destruct (Nat.eqb_spec a b) end; subst; cbn; try lia).
  - destruct (begun (uses s k)); [|lia]. cbn [set_use uses]. destruct (Nat.eqb_spec i k) as [->|]; [apply level_pending|lia].
  - unfold cancel_guard. destruct (pcs s k); cbn; lia.
Qed.
Lemma run_rank ex man : forall l s i, level (uses s i) <= level (uses (snd (run ex man l s)) i).
Proof.
  induction l as [|a l IH] using rev_ind; intros s i; [cbn; lia|]. rewrite run_snoc. cbn [snd].
  etransitivity; [apply IH|apply act_rank].
Qed.

(** What the state of a guard is, if it is used once. *)
Definition fits (p : pc) (t : tracker) : Prop :=
  match p with
  | Idle | Queued => t = Some Unused
  | Used | Notified | Waiting | Checked _ | Head | Prepended | Free => t = Some Pending
  | Inside | Off => t = Some Running
  | Complete => t = Some Finished
  | Fault1 _ | Fault2 _ | Failed _ => False
  | Gone _ _ => t <> None
  end.

Lemma fits_some p t : fits p t -> t <> None.
Proof. destruct p; cbn; intros F; try contradiction; congruence. Qed.

Lemma act_fits ex man a s i : inv ex man s -> a <> Reuse i -> fits (pcs s i) (uses s i) ->
  fits (pcs (snd (act ex man a s)) i) (uses (snd (act ex man a s)) i).
Proof.
  intros I N F.
  assert (Q : forall e, ~ In (Raised i e) (fst (act ex man a s))).
  { intros e X. destruct (act_raised ex man a s i e I X) as (_ & _ & U). apply (fits_some _ _ F U). }
  destruct a as [k|k|k]; cbn [act snd fst] in *.
  - destruct (Nat.eq_dec i k) as [<-|Ne].
    + unfold step_guard in *.
      destruct (pcs s i) eqn:P; cbn in F; try contradiction; try (rewrite ?P; cbn in *; rewrite ?F in *; cbn in *);
        repeat (match goal with
        | |- context[if ?b then _ else _] => destruct b
        | |- context[match queue s with _ => _ end] => destruct (queue s)
        | |- context[match pop ?o with _ => _ end] => destruct (pop o)
        | |- context[match observers s with _ => _ end] => destruct (observers s)
        end; cbn in *; rewrite ?Nat.eqb_refl in *);
        try (exfalso; eapply Q; cbn; eauto; fail); auto; try reflexivity; try (rewrite P; cbn; auto; fail).
    + assert (E : pcs (snd (step_guard ex man k s)) i = pcs s i /\ uses (snd (step_guard ex man k s)) i = uses s i).
      { unfold step_guard. destruct (to_pending (uses s k)), (to_running (uses s k)), (to_done (uses s k)).
        apply Nat.eqb_neq in Ne.
        destruct (pcs s k); try destruct next; destruct (man k); destruct (ex k); 
          destruct (queue s) as [|h z]; destruct (observers s) as [|h' z']; cbn; rewrite ?Ne; auto;
          repeat (match goal with |- context[if ?b then _ else _] => destruct b end; cbn; rewrite ?Ne; auto). }
      destruct E as [-> ->]. exact F.
  - destruct (begun (uses s k)); [|exact F]. cbn. destruct (Nat.eqb_spec i k) as [<-|]; [now elim N|exact F].
  - unfold cancel_guard. destruct (pcs s k) eqn:P; cbn; try exact F;
      (destruct (Nat.eqb_spec i k) as [<-|]; [rewrite P in F; cbn in *; congruence|exact F]).
Qed.
Lemma fits_run ex man : forall l i, ~ In (Reuse i) l ->
  fits (pcs (snd (run ex man l start)) i) (uses (snd (run ex man l start)) i).
Proof.
  induction l as [|a l IH] using rev_ind; intros i N; [reflexivity|]. rewrite run_snoc. cbn [snd].
  apply act_fits.
  - apply (t_inv _ _ _ _ (tinv_run ex man l)).
  - intros ->. apply N, in_or_app. cbn; auto.
  - apply IH. intros X. apply N, in_or_app. auto.
Qed.

Lemma act_gone ex man a s i : a <> Cancel i -> (forall q o, pcs s i <> Gone q o) ->
  forall q o, pcs (snd (act ex man a s)) i <> Gone q o.
Proof.
  intros N G q o. destruct a as [k|k|k]; cbn [act snd].
  - unfold step_guard. destruct (to_pending (uses s k)), (to_running (uses s k)), (to_done (uses s k)).
    destruct (pcs s k) eqn:P; try destruct next; destruct (man k); destruct (ex k); 
      destruct (queue s) as [|h z]; destruct (observers s) as [|h' z']; cbn;
      repeat (match goal with |- context[if ?b then _ else _] => destruct b end; cbn); auto; discriminate.
  - destruct (begun (uses s k)); [|apply G]. cbn. apply G.
  - unfold cancel_guard. destruct (pcs s k) eqn:P; cbn; try apply G;
      (destruct (Nat.eqb_spec i k) as [<-|]; [now elim N|apply G]).
Qed.
Lemma not_gone ex man : forall l i, ~ In (Cancel i) l ->
  forall q o, pcs (snd (run ex man l start)) i <> Gone q o.
Proof.
  induction l as [|a l IH] using rev_ind; intros i N; [discriminate|]. rewrite run_snoc. cbn [snd].
  apply act_gone.
  - intros ->. apply N, in_or_app. cbn; auto.
  - apply IH. intros X. apply N, in_or_app. auto.
Qed.

Lemma done_next ex man l i : ~ In (Reuse i) l -> ~ In (Cancel i) l ->
  In (Left i) (trace ex man l) -> says ex man (l ++ [Step i]) i Done_q.
Proof.
  intros R C L. unfold says, after. pose proof (fits_run ex man l i R) as F.
  assert (R' : ~ In (Reuse i) (l ++ [Step i])).
  { intros X. apply in_app_or in X. destruct X as [X|[X|[]]]; [auto|discriminate]. }
  pose proof (fits_run ex man (l ++ [Step i]) i R') as F'.
  pose proof (t_not_over _ _ _ _ (tinv_run ex man l) i L) as O. pose proof (not_gone ex man l i C) as G.
  rewrite run_snoc in *. cbn [snd act] in *. set (s := snd (run ex man l start)) in *.
  assert (E : pcs (snd (step_guard ex man i s)) i = Complete).
  { unfold step_guard in *. destruct (pcs s i) eqn:P; cbn in F; try contradiction.
    - rewrite F in *. cbn in *. destruct (ex i).
      + destruct (queue s) as [|h q]; cbn in *; rewrite ?Nat.eqb_refl in *; [contradiction|].
        destruct (Nat.eqb h i); cbn in *; rewrite ?Nat.eqb_refl in *; [reflexivity|contradiction].
      + cbn in *. rewrite ?Nat.eqb_refl in *. reflexivity.
    - cbn. exact P.
    - exfalso. eapply G. reflexivity. }
  rewrite E in F'. cbn in F'. now rewrite F'.
Qed.

Lemma running_stays ex man l i : ~ In (Reuse i) l -> ~ In (Cancel i) l -> leaves_at_once ex man l i ->
  says ex man l i Running_q -> In (Left i) (trace ex man l) -> False.
Proof.
  intros R C At Rn L. unfold trace in L. apply in_split in L. destruct L as (t1 & t2 & E).
  destruct (event_moment ex man l _ _ _ E) as (l1 & a & l2 & e1 & e2 & -> & T1 & X).
  assert (La : In (Left i) (fst (act ex man a (snd (run ex man l1 start))))) by (rewrite X; apply in_or_app; cbn; auto).
  assert (Ea : a = Step i).
  { destruct a as [k|k|k]; cbn [act fst] in La.
    - unfold step_guard in La. destruct (to_pending (uses (snd (run ex man l1 start)) k)), (to_running (uses (snd (run ex man l1 start)) k)), (to_done (uses (snd (run ex man l1 start)) k)).
      destruct (pcs (snd (run ex man l1 start)) k); try destruct next; destruct (man k); destruct (ex k);
      destruct (queue (snd (run ex man l1 start))) as [|h z]; destruct (observers (snd (run ex man l1 start))) as [|h' z']; cbn in La;
      repeat (match type of La with context[if ?b then _ else _] => destruct b end; cbn in La);
      repeat (destruct La as [La|La]; try discriminate; try (injection La as ->; reflexivity)); destruct La.
    - destruct La.
    - destruct (pcs (snd (run ex man l1 start)) k); cbn in La; try (now destruct La).
      destruct La as [La|[]]. injection La as ->. exfalso. apply C, in_or_app. cbn. auto. }
  subst a.
  assert (R1 : ~ In (Reuse i) (l1 ++ [Step i])).
  { intros Z. apply in_app_or in Z. apply R, in_or_app. destruct Z as [Z|[Z|[]]]; [auto|discriminate]. }
  assert (C1 : ~ In (Cancel i) (l1 ++ [Step i])).
  { intros Z. apply in_app_or in Z. apply C, in_or_app. destruct Z as [Z|[Z|[]]]; [auto|discriminate]. }
  assert (L1 : In (Left i) (trace ex man (l1 ++ [Step i]))).
  { unfold trace. rewrite run_snoc. cbn [fst]. apply in_or_app. now right. }
  assert (N1 : ~ In (Left i) (trace ex man l1)).
  { intros Z. unfold trace in Z. pose proof (t_not_over _ _ _ _ (tinv_run ex man l1) i Z) as O.
    cbn [act] in La. unfold step_guard in La.
    assert (Rl : ~ In (Reuse i) l1) by (intros Y; apply R1, in_or_app; auto).
    pose proof (fits_run ex man l1 i Rl) as F.
    destruct (pcs (snd (run ex man l1 start)) i); cbn in F; try contradiction.
    rewrite F in La. cbn in La. destruct (ex i); [|now destruct La].
    destruct (queue (snd (run ex man l1 start))) as [|h q]; cbn in La; [destruct La as [La|[]]; discriminate|].
    destruct (Nat.eqb h i); cbn in La; [now destruct La|destruct La as [La|[]]; discriminate]. }
  destruct (At l1 l2 eq_refl L1 N1) as [l3 ->].
  pose proof (done_next ex man _ i R1 C1 L1) as D. unfold says, after in D, Rn.
  replace (l1 ++ Step i :: Step i :: l3) with (((l1 ++ [Step i]) ++ [Step i]) ++ l3) in Rn by (rewrite <- !app_assoc; reflexivity).
  rewrite (run_app ex man _ l3) in Rn. cbn [snd] in Rn.
  pose proof (run_rank ex man l3 (snd (run ex man ((l1 ++ [Step i]) ++ [Step i]) start)) i) as Rk.
  apply asks_level in D, Rn. cbn [rank] in D, Rn. lia.
Qed.

(** A check of [leaves_at_once], for examples. *)
Definition saw_left (ex man : nat -> bool) (l : list action) (i : nat) : bool :=
  existsb (fun e => match e with Left k => Nat.eqb k i | _ => false end) (trace ex man l).
Lemma saw_left_in ex man l i : In (Left i) (trace ex man l) <-> saw_left ex man l i = true.
Proof.
  unfold saw_left. rewrite existsb_exists. split.
  - intros I. exists (Left i). split; [exact I|apply Nat.eqb_refl].
  - intros (e & I & K). destruct e; try discriminate. apply Nat.eqb_eq in K. now subst.
Qed.
Definition checked_leave (ex man : nat -> bool) (l : list action) (i n : nat) : bool :=
  negb (saw_left ex man (firstn (S n) l) i) || saw_left ex man (firstn n l) i ||
  match skipn (S n) l with Step k :: _ => Nat.eqb k i | _ => false end.
Lemma at_once ex man l i : forallb (checked_leave ex man l i) (seq 0 (length l)) = true -> leaves_at_once ex man l i.
Proof.
  intros K l1 l2 E L1 N1. rewrite forallb_forall in K.
  assert (I : In (length l1) (seq 0 (length l))) by (apply in_seq; rewrite E, app_length; cbn; lia).
  apply K in I. unfold checked_leave in I.
  assert (E1 : firstn (length l1) l = l1) by (rewrite E, firstn_app, Nat.sub_diag, firstn_all; cbn; apply app_nil_r).
  assert (E2 : firstn (S (length l1)) l = l1 ++ [Step i]).
  { rewrite E, firstn_app. replace (S (length l1) - length l1) with 1 by lia. rewrite firstn_all2 by lia. reflexivity. }
  assert (E3 : skipn (S (length l1)) l = l2).
  { rewrite E, skipn_app. replace (S (length l1) - length l1) with 1 by lia. rewrite skipn_all2 by lia. reflexivity. }
  rewrite E1, E2, E3 in I. rewrite saw_left_in in L1, N1. rewrite L1 in I.
  destruct (saw_left ex man l1 i); [now elim N1|]. cbn in I.
  destruct l2 as [|[k|k|k] l3]; try discriminate. apply Nat.eqb_eq in I. subst. eauto.
Qed.
