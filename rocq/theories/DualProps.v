(** * One authenticator of Chunky2048 shared by asyncio tasks (C100): theorems *)
From Coq Require Import ZArith Lia.
From Verif Require Import Base BaseFacts CanonModel ClockModel CipherModel CipherProps AuthModel AuthSpec AuthProofs AuthProps
  AwaitModel AwaitSpec AwaitProofs AwaitProps DualModel DualSpec DualProofs.

(** ** C100: overlapping calls are calls made one at a time, if the first block is left in peace

    As for Slick256 in C99, provided that nobody makes a tag or another authenticator of the bundle,
    or cancels the task, between the two halves of the hashing of the first block, and nobody makes a
    tag while a block is under way which is too large. *)
Theorem C100_as_if_one_at_a_time_partial : forall H c, c_type c = DualOutput -> forall b l, undisturbed H c b l ->
  exists turns w, closes turns <= cancellations l /\
    one_at_a_time H c (unused b) turns = (filter (fun x => negb (turned_away x)) (j_ended H c b l), w) /\
    w_shmacs (j_world (j_after H c b l)) = w_shmacs w /\ w_gens (j_world (j_after H c b l)) = w_gens w /\
    ((forall t g, ~ half_hashed (j_after H c b l) t g) -> same_objects (j_world (j_after H c b l)) w).
Proof.
  intros H c T b l U. destruct (run_sim H c T b l U) as (turns & w & C & R & S). exists turns, w.
  split; [exact C|]. split; [exact R|]. split; [apply S|]. split; [apply S|]. intros Q. split; [apply S|]. split; [apply S|].
  pose proof (m_fixed _ _ _ _ S) as F. unfold fixed in F. rewrite F, (m_mac _ _ _ _ S Q). reflexivity.
Qed.
Print Assumptions C100_as_if_one_at_a_time_partial.

(** ** C100: one tag, whatever is done

    At most one finalization of an object ever answers, and whatever shows a tag of this object shows
    that one. *)
Theorem C100_one_tag : forall H c b l i t l1 l2,
  j_ended H c b l = l1 ++ (Finalize i, Got t) :: l2 ->
  (forall t', ~ In (Finalize i, Got t') (l1 ++ l2)) /\
  (forall t' x, In x (j_ended H c b l) -> shows i t' x -> t' = t).
Proof.
  intros H c b l i t l1 l2 E. destruct (j_tags H c b l) as (_ & I2 & I3). split.
  - intros t' I. apply in_app_or in I. destruct I as [I|I]; [exact (I3 i t l1 l2 E t' I)|].
    apply in_split in I. destruct I as (m1 & m2 & ->). refine (I3 i t' (l1 ++ (Finalize i, Got t) :: m1) m2 _ t _).
    + rewrite E. now rewrite <- app_assoc.
    + apply in_or_app. right. now left.
  - intros t' x I S. apply (tagged_same i t' t (j_world (j_after H c b l))); [eapply I2; eauto|].
    apply (I2 i t (Finalize i, Got t)); [|now left]. rewrite E. apply in_or_app. right. now left.
Qed.
Print Assumptions C100_one_tag.

(** ** C100: who is turned away

    A block is refused as coming too early only while the generator is busy with the block of another
    task. *)
Theorem C100_busy_only_while_feeding : forall H c, c_type c = DualOutput -> forall b l t g block asynchronous,
  j_ended H c b (l ++ [Make t (Feed g block) asynchronous]) = j_ended H c b l ++ [(Feed g block, Raised RuntimeErr)] ->
  exists u, u <> t /\
    ((exists block' key, j_tasks (j_after H c b l) u = Some (Waiting g block' key)) \/
     (exists block' out hashed, j_tasks (j_after H c b l) u = Some (Hashing g block' out hashed))).
Proof.
  intros H c T b l t g block asy E. pose proof (j_held_run H c b l g) as Q. revert E Q. unfold j_ended, j_after.
  rewrite j_run_snoc. cbn [fst j_act]. set (s := snd (j_run H c l (j_fresh b))). intros E Q. apply app_inv_head in E.
  unfold j_make in E. destruct (j_tasks s t) eqn:K; [discriminate|].
  assert (R : j_running s g = true).
  { assert (A : fst (j_at_once H c (Feed g block) s) <> [(Feed g block, Raised RuntimeErr)]).
    { unfold j_at_once. destruct (nth_error (w_gens (j_world s)) g) as [x|] eqn:G; [|cbn [step]; rewrite G; discriminate].
      destruct (g_live x) eqn:L; [|cbn [step]; rewrite G, L; discriminate].
      destruct (nth_error (w_shmacs (j_world s)) (g_shmac x)) as [h|] eqn:Sh; [|cbn [step]; rewrite G, L, Sh; discriminate].
      rewrite (feed_step H c T _ g block x h G L Sh). destruct (pieces_err H c (g_mode x) (g_first x) (w_bundle (j_world s)) h block) as [P1 P2].
      destruct (pieces H c (g_mode x) (g_first x) (w_bundle (j_world s)) h block) as [e b'|b' out hashed].
      - intros X. cbn in X. injection X as ->. now apply (P1 b').
      - destruct (update_mac H (b', h) hashed). destruct out as [o|e]; [discriminate|]. intros X. cbn in X. injection X as ->. now apply (P2 b' hashed). }
    destruct (b_mode (w_bundle (j_world s))) as [[]|]; try (now elim A). revert E. unfold j_begin_feed.
    destruct (nth_error (w_gens (j_world s)) g) as [x|]; [|discriminate]. destruct (j_running s g); [reflexivity|].
    destruct (negb (g_live x)); [discriminate|]. destruct (nth_error (w_shmacs (j_world s)) (g_shmac x)) as [h|]; [|discriminate].
    destruct (negb (g_first x) && s_finalized h); discriminate. }
  destruct (Q R) as (u & p & P & F). exists u. split; [congruence|].
  destruct p as [g' bl key|g' bl out hs|k|i]; cbn in F; try contradiction; subst g'; eauto.
Qed.
Print Assumptions C100_busy_only_while_feeding.

(** ** Cases *)

(** Three tasks overlap. *)
Example C100_case : exists c ks b, chunky2048 [x61] 13 = Ok c /\ c_type c = DualOutput /\
  make_cipher toy c a_key = Ok ks /\
  make_bundle toy c ks None [] None (repeat x01 8) (repeat x02 8) = Ok b /\
  let l := preamble ++
    [Make 1 (Feed 0 (repeat x41 256)) true; Make 2 (Feed 0 (repeat x42 256)) true;
     Make 2 (BlockId 0 (repeat x43 256) None []) true; Resume 1; Resume 2; Resume 1;
     Make 1 (Feed 0 (repeat x44 256)) true; Make 2 (Finalize 0) true; Make 3 (Finalize 0) false;
     Make 3 (Result 0) false; Resume 1; Resume 2; Make 3 (Result 0) false; Resume 1; Make 1 (Feed 0 (repeat x45 256)) true] in
  outline (j_ended toy c b l) =
    [Done; Made 0; Done; Made 0; Raised RuntimeErr; Done; Done; Raised PermissionErr; Raised AttributeErr; Done; Done;
     Raised AttributeErr; Raised StopIter].
Proof.
  destruct (chunky2048 [x61] 13) as [c|] eqn:E; [|vm_compute in E; discriminate].
  vm_compute in E. apply Ok_inj in E. subst c. eexists _, _, _.
  split; [reflexivity|]. split; [reflexivity|]. split; [vm_compute; reflexivity|]. split; [vm_compute; reflexivity|].
  vm_compute. reflexivity.
Qed.

(** Such a schedule is undisturbed. *)
Example C100_undisturbed_case : exists c ks b, chunky2048 [x61] 13 = Ok c /\ c_type c = DualOutput /\
  make_cipher toy c a_key = Ok ks /\
  make_bundle toy c ks None [] None (repeat x01 8) (repeat x02 8) = Ok b /\
  let l := preamble ++
    [Make 1 (Feed 0 (repeat x41 256)) true; Make 2 (Feed 0 (repeat x42 256)) true;
     Make 2 (BlockId 0 (repeat x43 256) None []) true; Resume 1; Resume 2; Resume 1; Make 2 (Finalize 0) false] in
  undisturbed toy c b l /\ outline (j_ended toy c b l) = [Done; Made 0; Done; Made 0; Raised RuntimeErr; Done; Done; Done].
Proof.
  destruct (chunky2048 [x61] 13) as [c|] eqn:E; [|vm_compute in E; discriminate].
  vm_compute in E. apply Ok_inj in E. subst c. eexists _, _, _.
  split; [reflexivity|]. split; [reflexivity|]. split; [vm_compute; reflexivity|]. split; [vm_compute; reflexivity|].
  cbv zeta. split; [|vm_compute; reflexivity].
  match goal with |- undisturbed _ ?c0 ?b0 _ => set (c := c0); set (b := b0) end.
  assert (U0 : undisturbed toy c b []) by (intros l1 x l2 X; destruct l1; discriminate).
  assert (U1 : undisturbed toy c b preamble).
  { change preamble with (((([] ++ [Make 0 (DeclareRun Async) false]) ++ [Make 0 NewShmac false]) ++ [Make 0 (DeclareMode 0 Encryption) false]) ++
      [Make 0 (Start 0 Encryption Async) false]).
    repeat apply undisturbed_snoc; auto; apply idle_undisturbed; intros t; vm_compute; reflexivity. }
  match goal with |- undisturbed _ _ _ (preamble ++ [?a1; ?a2; ?a3; ?a4; ?a5; ?a6; ?a7]) =>
    change (preamble ++ [a1; a2; a3; a4; a5; a6; a7]) with (((((((preamble ++ [a1]) ++ [a2]) ++ [a3]) ++ [a4]) ++ [a5]) ++ [a6]) ++ [a7]) end.
  apply undisturbed_snoc.
  2:{ apply idle_undisturbed. intros t. vm_compute. do 3 (destruct t as [|t]; [reflexivity|]). reflexivity. }
  repeat (apply undisturbed_gentle; [|exact I|intros t i; vm_compute; do 3 (destruct t as [|t]; [discriminate|]); discriminate]).
  exact U1.
Qed.

(** A tag made while the first block is half hashed is the tag of calls made one at a time:
    refuted. *)
Theorem C100_tag_in_the_first_block_refuted : exists c ks b, chunky2048 [x61] 13 = Ok c /\
  make_cipher toy c a_key = Ok ks /\
  make_bundle toy c ks None [] None (repeat x01 8) (repeat x02 8) = Ok b /\
  let l := preamble ++ [Make 1 (Feed 0 (repeat x41 256)) true; Resume 1; Make 2 (Finalize 0) false; Resume 1] in
  (exists t, In (Finalize 0, Got t) (j_ended toy c b l)) /\
  ~ exists turns, closes turns <= cancellations l /\
    fst (one_at_a_time toy c (unused b) turns) = filter (fun x => negb (turned_away x)) (j_ended toy c b l).
Proof.
  destruct (chunky2048 [x61] 13) as [c|] eqn:E; [|vm_compute in E; discriminate].
  vm_compute in E. apply Ok_inj in E. subst c. eexists _, _, _.
  split; [reflexivity|]. split; [vm_compute; reflexivity|]. split; [vm_compute; reflexivity|].
  cbv zeta. split.
  - eexists. vm_compute. do 4 right. left. reflexivity.
  - intros (turns & C & R). assert (C0 : closes turns = 0) by (cbn in C; lia).
    match type of R with fst (one_at_a_time _ ?c0 ?w0 _) = _ => pose proof (replies_calls toy c0 turns w0 C0) as X end.
    rewrite R in X. rewrite X in R. revert R. clear. vm_compute. discriminate.
Qed.
Print Assumptions C100_tag_in_the_first_block_refuted.

(** After a cancellation in the middle of the first block the tag is one of calls made one at a time,
    with or without that block: refuted.  In particular it is not the tag of a message without the
    block. *)
Theorem C100_cancelled_first_block_refuted : exists c ks b, chunky2048 [x61] 13 = Ok c /\
  make_cipher toy c a_key = Ok ks /\
  make_bundle toy c ks None [] None (repeat x01 8) (repeat x02 8) = Ok b /\
  let l := preamble ++ [Make 1 (Feed 0 (repeat x41 256)) true; Resume 1; Cancel 1; Make 1 (Finalize 0) false] in
  (exists t, In (Finalize 0, Got t) (j_ended toy c b l)) /\
  ~ exists turns, fst (one_at_a_time toy c (unused b) turns) = filter (fun x => negb (turned_away x)) (j_ended toy c b l).
Proof.
  destruct (chunky2048 [x61] 13) as [c|] eqn:E; [|vm_compute in E; discriminate].
  vm_compute in E. apply Ok_inj in E. subst c. eexists _, _, _.
  split; [reflexivity|]. split; [vm_compute; reflexivity|]. split; [vm_compute; reflexivity|].
  cbv zeta. split.
  - eexists. vm_compute. do 4 right. left. reflexivity.
  - intros (turns & R).
    match type of R with fst (one_at_a_time _ ?c0 ?w0 _) = _ =>
      assert (N : forall g block, ~ In (Call (Feed g block)) turns);
      [intros g block I; assert (J : In (Feed g block) (map fst (fst (one_at_a_time toy c0 w0 turns)))) by (now apply asked);
       rewrite R in J; revert J; clear; vm_compute; intros J; repeat (destruct J as [J|J]; [discriminate J|]); exact J|
       pose proof (replies_alike toy c0 turns w0 w0 (conj eq_refl (conj eq_refl eq_refl)) N) as X] end.
    rewrite R in X. revert X. clear. vm_compute. discriminate.
Qed.
Print Assumptions C100_cancelled_first_block_refuted.

(** A block which a tag has overtaken fails as if it had been offered after the tag: refuted for a
    block that is too large. *)
Theorem C100_error_behind_the_tag_refuted : exists c ks b, chunky2048 [x61] 13 = Ok c /\
  make_cipher toy c a_key = Ok ks /\
  make_bundle toy c ks None [] None (repeat x01 8) (repeat x02 8) = Ok b /\
  let l := preamble ++ [Make 1 (Feed 0 (repeat x41 256)) true; Resume 1; Resume 1;
                        Make 1 (Feed 0 (repeat x41 257)) true; Make 2 (Finalize 0) false; Resume 1] in
  outline (j_ended toy c b l) = [Done; Made 0; Done; Made 0; Done; Done; Raised OverflowErr] /\
  ~ exists turns, closes turns <= cancellations l /\
    fst (one_at_a_time toy c (unused b) turns) = filter (fun x => negb (turned_away x)) (j_ended toy c b l).
Proof.
  destruct (chunky2048 [x61] 13) as [c|] eqn:E; [|vm_compute in E; discriminate].
  vm_compute in E. apply Ok_inj in E. subst c. eexists _, _, _.
  split; [reflexivity|]. split; [vm_compute; reflexivity|]. split; [vm_compute; reflexivity|].
  cbv zeta. split; [vm_compute; reflexivity|].
  intros (turns & C & R). assert (C0 : closes turns = 0) by (cbn in C; lia).
  match type of R with fst (one_at_a_time _ ?c0 ?w0 _) = _ => pose proof (replies_calls toy c0 turns w0 C0) as X end.
    rewrite R in X. rewrite X in R. apply (f_equal (fun l => option_map snd (nth_error l 6))) in R.
    revert R. clear. vm_compute. discriminate.
Qed.
Print Assumptions C100_error_behind_the_tag_refuted.
