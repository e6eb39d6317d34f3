(** * The life cycle of authenticators and key bundles: C31, C32

    Throughout, a key bundle was made from the arguments [salt], [aad] and [iv],
    and then any calls were made on it, on the StreamHMACs made from it and on
    the generators which were started. *)
From Coq Require Import ZArith Lia ZifyBool ZifyNat ZifyN.
From Verif Require Import Base BaseFacts CanonModel ClockModel GentoolsModel CipherModel CipherSpec CipherProps
  AuthModel AuthSpec AuthProofs.
Local Open Scope N_scope.

Section Props.
Variable H : hasher.
Variable c : cfg.
Variables (ks : kdfs) (salt : option bytes) (aad : bytes) (iv : option bytes) (rsalt riv : bytes).
Variable b : bundle.
Hypothesis B : make_bundle H c ks salt aad iv rsalt riv = Ok b.

Notation happened := (happened H c (unused b)).
Notation reply_to := (reply_to H c (unused b)).
Notation after := (after H c (unused b)).

Local Arguments check_modes : simpl never.
Local Arguments register_shmac : simpl never.
Local Arguments for_encryption : simpl never.
Local Arguments for_decryption : simpl never.
Local Arguments finalize : simpl never.
Local Arguments transform : simpl never.

Lemma B_mode : b_mode b = None. Proof. now apply make_bundle_unused in B. Qed.
Lemma B_reg : b_registered b = false. Proof. now apply make_bundle_unused in B. Qed.

Lemma is_made l i : happened l NewShmac (Made i) <-> exists s, nth_error (w_shmacs (after l)) i = Some s.
Proof.
  rewrite <- made_hist. destruct (nth_error (w_shmacs (after l)) i); split; try congruence.
  - eauto.
  - intros (s & X). discriminate.
Qed.

(** ** C31 *)

(** C31: once a mode was accepted, every further one is refused. *)
Theorem C31_one_mode : forall calls i m m',
  happened calls (DeclareMode i m) Done ->
  reply_to calls (DeclareMode i m') = Raised PermissionErr.
Proof.
  intros l i m m' X. apply (modes_hist H c b) in X as (s & A & M).
  unfold AuthSpec.reply_to. cbn [step]. rewrite A.
  destruct m'; unfold for_encryption, for_decryption; now rewrite M.
Qed.

(** C31: an authenticator which has no mode accepts the one that fits the IV's
    origin, and refuses the other one. *)
Theorem C31_first_mode : forall calls i m,
  happened calls NewShmac (Made i) ->
  (forall m', ~ happened calls (DeclareMode i m') Done) ->
  reply_to calls (DeclareMode i m) =
  match m, iv with
  | Encryption, None | Decryption, Some _ => Done
  | _, _ => Raised PermissionErr
  end.
Proof.
  intros l i m N X. apply is_made in N as (s & A).
  unfold AuthSpec.reply_to. cbn [step]. rewrite A.
  assert (M : s_mode s = None).
  { destruct (s_mode s) as [m'|] eqn:M; [|reflexivity]. exfalso. apply (X m'). apply modes_hist. exists s. auto. }
  destruct (static_hist H c b l) as (F & _).
  destruct (make_bundle_unused _ _ _ _ _ _ _ _ _ B) as (_ & _ & Fr & _).
  destruct m; unfold for_encryption, for_decryption; rewrite M, F, Fr; now destruct iv.
Qed.

(** C31: the first finalization gives a tag, every further one is refused. *)
Theorem C31_one_finalization : forall calls i,
  happened calls NewShmac (Made i) ->
  ((forall t, ~ happened calls (Finalize i) (Got t)) -> exists t, reply_to calls (Finalize i) = Got t) /\
  (forall t, happened calls (Finalize i) (Got t) -> reply_to calls (Finalize i) = Raised PermissionErr).
Proof.
  intros l i N. apply is_made in N as (s & A).
  pose proof (finalized_result H c b l i s A) as F.
  unfold AuthSpec.reply_to. cbn [step]. rewrite A. unfold finalize. split.
  - intros X. destruct (s_finalized s); [|eexists; reflexivity].
    exfalso. destruct (s_result s) as [t|] eqn:R; [|now apply F].
    apply (X t). apply results_hist. exists s. auto.
  - intros t X. apply (results_hist H c b) in X as (s' & A' & R). rewrite A in A'. injection A' as <-.
    rewrite (proj2 F) by congruence. reflexivity.
Qed.

(** C31: no result before the finalization; afterwards the result is the tag
    which the finalization returned, for ever, and the only tag which
    [test_shmac] accepts. *)
Theorem C31_result_is_the_final_tag : forall calls i,
  happened calls NewShmac (Made i) ->
  (forall t, reply_to calls (Result i) = Got t <-> happened calls (Finalize i) (Got t)) /\
  (forall t, reply_to calls (TestShmac i t) = Done <-> happened calls (Finalize i) (Got t)) /\
  ((forall t, ~ happened calls (Finalize i) (Got t)) ->
   reply_to calls (Result i) = Raised AttributeErr /\
   forall t, reply_to calls (TestShmac i t) = Raised AttributeErr).
Proof.
  intros l i N. apply is_made in N as (s & A).
  unfold AuthSpec.reply_to. cbn [step]. rewrite A. cbn [fst].
  assert (R : forall t, happened l (Finalize i) (Got t) <-> s_result s = Some t).
  { intros t. rewrite <- results_hist. split.
    - intros (s' & A' & R). rewrite A in A'. now injection A' as <-.
    - intros R. exists s. auto. }
  unfold result_of, test_shmac. split; [|split].
  - intros t. rewrite R. unfold result_of. destruct (s_result s) as [u|]; cbn; split; congruence.
  - intros t. rewrite R. unfold result_of. destruct (s_result s) as [u|]; cbn; [|split; discriminate].
    destruct (bytes_eqb t u) eqn:E.
    + apply bytes_eqb_eq in E. subst. split; reflexivity.
    + apply bytes_eqb_neq in E. split; [discriminate|]. intros X. injection X as ->. congruence.
  - intros X. unfold result_of. destruct (s_result s) as [u|] eqn:E; [|auto].
    exfalso. apply (X u). now apply R.
Qed.

(** C31: an authenticator which was finalized takes no more data: feeding its
    generator is refused and neither the hash nor any authenticator changes;
    block IDs are refused too. *)
Theorem C31_no_data_after_finalization : forall calls i t,
  happened calls (Finalize i) (Got t) ->
  (forall m r g block, happened calls (Start i m r) (Made g) ->
     refused (reply_to calls (Feed g block)) /\
     w_bundle (after (calls ++ [Feed g block])) = w_bundle (after calls) /\
     w_shmacs (after (calls ++ [Feed g block])) = w_shmacs (after calls)) /\
  (forall block size aad', refused (reply_to calls (BlockId i block size aad'))) /\
  (forall id block aad', refused (reply_to calls (TestBlockId i id block aad'))).
Proof.
  intros l i t X. apply (results_hist H c b) in X as (s & A & R).
  assert (F : s_finalized s = true) by (apply (finalized_result H c b l i s A); congruence).
  assert (Bid : forall block size aad', exists e, next_block_id H c s block size aad' = Err e).
  { intros block size aad'. unfold next_block_id.
    destruct (test_block_id_size _ _) as [[]|e]; cbn; [|eauto].
    destruct (kdf_factory _ _) as [f|e]; cbn; [|eauto].
    unfold get_block_id_mac. rewrite F. cbn. eauto. }
  split; [|split].
  - intros m r g block S. assert (G : gen_is i m g (after l)) by (apply gens_hist; eauto).
    destruct G as (x & G & Gi & Gm). rewrite after_snoc. unfold AuthSpec.reply_to. cbn [step]. rewrite G.
    destruct (g_live x); cbn [negb]; [|cbn; split; [eexists; reflexivity|auto]].
    rewrite Gi, A.
    destruct (transform H c (g_mode x) (g_first x) (w_bundle (after l), s) block) as [[out [b' s']]|e] eqn:T.
    + apply transform_same in T as (T & _). congruence.
    + destruct (left_behind_same H c (g_mode x) (g_first x) (w_bundle (after l)) s block) as (_ & _ & L).
      rewrite (L F). cbn. split; [eexists; reflexivity|]. split; [reflexivity|].
      now apply replace_nth_same.
  - intros block size aad'. unfold AuthSpec.reply_to. cbn [step]. rewrite A.
    destruct (Bid block size aad') as (e & ->). eexists; reflexivity.
  - intros id block aad'. unfold AuthSpec.reply_to. cbn [step]. rewrite A.
    unfold test_next_block_id. destruct (Bid block (Some (blen id)) aad') as (e & ->). eexists; reflexivity.
Qed.

(** C31: a refused call changes nothing at all, unless it is one that starts a
    generator or feeds one. *)
Theorem C31_refused_calls_change_nothing_partial : forall calls k,
  refused (reply_to calls k) ->
  match k with
  | Start _ _ _ | Feed _ _ => True
  | _ => after (calls ++ [k]) = after calls
  end.
Proof.
  intros l k (e & E). unfold AuthSpec.reply_to in E.
  destruct k; try exact I; rewrite after_snoc; cbn [step] in *.
  - destruct (set_run_mode r (w_bundle (after l))); [discriminate|reflexivity].
  - destruct (make_shmac H c (w_bundle (after l))); [discriminate|reflexivity].
  - destruct (nth_error (w_shmacs (after l)) i) as [s|]; [|reflexivity].
    destruct m; [destruct (for_encryption (w_bundle (after l)) s)|destruct (for_decryption (w_bundle (after l)) s)];
      (discriminate || reflexivity).
  - now destruct (nth_error (w_shmacs (after l)) i).
  - now destruct (nth_error (w_shmacs (after l)) i).
  - destruct (nth_error (w_shmacs (after l)) i) as [s|]; [|reflexivity].
    destruct (finalize H c (w_bundle (after l)) s) as [[t s']|]; [discriminate|reflexivity].
  - now destruct (nth_error (w_shmacs (after l)) i).
  - now destruct (nth_error (w_shmacs (after l)) i).
Qed.

(** C31: what is missing: a call that starts a generator and is refused for the
    wrong mode has registered the authenticator all the same, after which no
    generator can be started on this bundle at all. *)
Theorem C31_refused_start_is_final_refuted : forall calls i m r,
  reply_to calls (Start i m r) = Raised ValueErr ->
  forall i' m' r' later, happened calls NewShmac (Made i') ->
  reply_to (calls ++ Start i m r :: later) (Start i' m' r') = Raised PermissionErr.
Proof.
  intros l i m r E i' m' r' later N.
  assert (M : happened (l ++ Start i m r :: later) NewShmac (Made i')) by now apply happened_app.
  apply is_made in M as (s & A).
  assert (G : b_registered (w_bundle (after (l ++ Start i m r :: later))) = true).
  { apply (reg_hist H c b B_reg). exists i, m, r, (Raised ValueErr). split; [|discriminate].
    exists l, later. auto. }
  unfold AuthSpec.reply_to. cbn [step]. rewrite A. unfold register_shmac. now rewrite G.
Qed.

(** ** C32 *)

(** C32: a generator can be started exactly if the authenticator has this mode,
    the bundle this run mode, and no start was attempted before on any
    authenticator of the bundle. *)
Theorem C32_started_iff : forall calls i m r,
  happened calls NewShmac (Made i) ->
  ((exists g, reply_to calls (Start i m r) = Made g) <->
   happened calls (DeclareMode i m) Done /\ happened calls (DeclareRun r) Done /\
   forall i' m' r' rep, happened calls (Start i' m' r') rep -> rep = NoSuchObject).
Proof.
  intros l i m r N. split.
  - intros (g & E).
    assert (X : happened (l ++ [Start i m r]) (Start i m r) (Made g)) by (exists l, []; auto).
    destruct (start_needs H c b B_mode B_reg _ _ _ _ _ X) as (h & t & E' & A1 & A2 & A3).
    destruct t as [|y t _] using rev_ind.
    + apply app_inj_tail in E' as [<- _]. auto.
    + exfalso. rewrite app_comm_cons, app_assoc in E'. apply app_inj_tail in E' as [-> <-].
      (* a start before this one *)
      assert (Y : happened (h ++ Start i m r :: t) (Start i m r) (reply_to h (Start i m r)))
        by (exists h, t; auto).
      assert (Nm : b_registered (w_bundle (after (h ++ Start i m r :: t))) = true).
      { apply (reg_hist H c b B_reg). exists i, m, r, (reply_to h (Start i m r)). split; [exact Y|].
        apply (modes_hist H c b) in A1 as (s & S1 & S2). unfold AuthSpec.reply_to. cbn [step]. rewrite S1.
        destruct (register_shmac _) as [b'|e]; [|discriminate].
        now destruct (check_modes _ _ _). }
      unfold AuthSpec.reply_to in E. cbn [step] in E. destruct (nth_error _ i); [|discriminate].
      unfold register_shmac in E. rewrite Nm in E. discriminate.
  - intros (A1 & A2 & A3). apply (modes_hist H c b) in A1 as (s & S1 & S2).
    apply (run_hist H c b B_mode) in A2.
    assert (Nr : b_registered (w_bundle (after l)) = false).
    { destruct (b_registered (w_bundle (after l))) eqn:G; [exfalso|reflexivity].
      apply (reg_hist H c b B_reg) in G as (i' & m' & r' & rep & X & Ne). apply Ne. eauto. }
    unfold AuthSpec.reply_to. cbn [step]. rewrite S1. unfold register_shmac. rewrite Nr.
    unfold check_modes. rewrite S2. cbn [b_mode]. rewrite A2.
    destruct m, r; cbn; eexists; reflexivity.
Qed.

(** C32: a start which is refused raises a PermissionError if one was attempted before, and
    otherwise a ValueError: the modes are not the declared ones. *)
Theorem C32_refused_starts : forall calls i m r e,
  reply_to calls (Start i m r) = Raised e ->
  (exists i' m' r' rep, happened calls (Start i' m' r') rep /\ rep <> NoSuchObject) /\ e = PermissionErr \/
  (forall i' m' r' rep, happened calls (Start i' m' r') rep -> rep = NoSuchObject) /\ e = ValueErr.
Proof.
  intros l i m r e E. unfold AuthSpec.reply_to in E. cbn [step] in E.
  destruct (nth_error (w_shmacs (after l)) i) as [s|] eqn:S; [|discriminate].
  unfold register_shmac in E. destruct (b_registered (w_bundle (after l))) eqn:R.
  - left. injection E as <-. split; [|reflexivity]. exact (proj1 (reg_hist H c b B_reg l) R).
  - right. split.
    + intros i' m' r' rep X. destruct rep; try reflexivity; exfalso;
        (assert (T : b_registered (w_bundle (after l)) = true);
         [apply (reg_hist H c b B_reg); do 4 eexists; split; [exact X|discriminate]|congruence]).
    + assert (N : happened l NewShmac (Made i)) by (apply is_made; eauto).
      assert (B1 : exists r', b_mode (w_bundle (after l)) = Some r').
      { destruct N as (h & t & -> & N). unfold AuthSpec.reply_to in N. cbn [step] in N.
        unfold make_shmac in N. destruct (b_mode (w_bundle (after h))) as [r'|] eqn:M; [|discriminate].
        exists r'. apply (run_hist H c b B_mode) in M as (h1 & t1 & -> & M). apply (run_hist H c b B_mode).
        exists h1, (t1 ++ NewShmac :: t). split; [now rewrite <- app_assoc|exact M]. }
      destruct B1 as (r' & B1). unfold check_modes in E. cbn [b_mode] in E. rewrite B1 in E.
      destruct (s_mode s) as [m'|]; [|injection E as <-; reflexivity].
      destruct (mode_eqb m' m); [|injection E as <-; reflexivity].
      destruct (run_mode_eqb r' r); [discriminate|injection E as <-; reflexivity].
Qed.

(** C32: hence at most one generator is ever started on a bundle. *)
Theorem C32_one_registration : forall calls i m r g,
  happened calls (Start i m r) (Made g) ->
  g = 0%nat /\
  (forall i' m' r' g', happened calls (Start i' m' r') (Made g') -> i' = i /\ m' = m /\ r' = r) /\
  (forall i' m' r', happened calls NewShmac (Made i') ->
     reply_to calls (Start i' m' r') = Raised PermissionErr).
Proof.
  intros l i m r g X.
  assert (Uniq : forall i' m' r' g', happened l (Start i' m' r') (Made g') -> i' = i /\ m' = m /\ r' = r).
  { intros i' m' r' g' Y.
    destruct (start_needs H c b B_mode B_reg _ _ _ _ _ X) as (h & t & E & A1 & A2 & A3).
    destruct (start_needs H c b B_mode B_reg _ _ _ _ _ Y) as (h' & t' & E' & A1' & A2' & A3').
    assert (Nn : forall h i m r, happened h (DeclareMode i m) Done -> reply_to h (Start i m r) <> NoSuchObject).
    { intros h0 i0 m0 r0 M. apply (modes_hist H c b) in M as (s & S1 & S2).
      unfold AuthSpec.reply_to. cbn [step]. rewrite S1.
      destruct (register_shmac _) as [b'|e]; [|discriminate]. now destruct (check_modes _ _ _). }
    destruct (Nat.lt_trichotomy (length h) (length h')) as [L|[L|L]].
    - exfalso. assert (exists z, h' = h ++ Start i m r :: z) as (z & ->).
      { assert (P := f_equal (firstn (length h')) (eq_trans (eq_sym E) E')).
        rewrite firstn_app, (firstn_all2 h), firstn_app, firstn_all, Nat.sub_diag in P by lia.
        cbn [firstn] in P. rewrite app_nil_r in P. rewrite <- P.
        destruct (length h' - length h)%nat eqn:D; [lia|]. cbn [firstn]. eauto. }
      apply (Nn h i m r A1). apply (A3' i m r). exists h, z. auto.
    - assert (h' = h) as ->.
      { assert (P := f_equal (firstn (length h)) (eq_trans (eq_sym E) E')).
        rewrite firstn_app, firstn_all, Nat.sub_diag, L, firstn_app, firstn_all, Nat.sub_diag in P.
        cbn [firstn] in P. rewrite !app_nil_r in P. auto. }
      rewrite E in E'. apply app_inv_head in E'. injection E' as -> -> -> _. auto.
    - exfalso. assert (exists z, h = h' ++ Start i' m' r' :: z) as (z & ->).
      { assert (P := f_equal (firstn (length h)) (eq_trans (eq_sym E') E)).
        rewrite firstn_app, (firstn_all2 h'), firstn_app, firstn_all, Nat.sub_diag in P by lia.
        cbn [firstn] in P. rewrite app_nil_r in P. rewrite <- P.
        destruct (length h - length h')%nat eqn:D; [lia|]. cbn [firstn]. eauto. }
      apply (Nn h' i' m' r' A1'). apply (A3 i' m' r'). exists h', z. auto. }
  assert (Reg : forall i' m' r', happened l NewShmac (Made i') -> reply_to l (Start i' m' r') = Raised PermissionErr).
  { intros i' m' r' N. apply is_made in N as (s & A).
    assert (G : b_registered (w_bundle (after l)) = true).
    { apply (reg_hist H c b B_reg). exists i, m, r, (Made g). split; [exact X|discriminate]. }
    unfold AuthSpec.reply_to. cbn [step]. rewrite A. unfold register_shmac. now rewrite G. }
  split; [|auto].
  (* the generator's number *)
  destruct (start_needs H c b B_mode B_reg _ _ _ _ _ X) as (h0 & t0 & E0 & _ & _ & _).
  destruct X as (h & t & -> & R).
  destruct (w_gens (after h)) as [|x gs] eqn:G.
  - unfold AuthSpec.reply_to in R. cbn [step] in R. rewrite G in R.
    destruct (nth_error _ i); [|discriminate]. destruct (register_shmac _); [|discriminate].
    destruct (check_modes _ _ _); [|discriminate]. cbn in R. congruence.
  - exfalso.
    assert (Gx : gen_is (g_shmac x) (g_mode x) 0 (after h)) by (exists x; rewrite G; auto).
    apply gens_hist in Gx as (r1 & Gx).
    assert (Rg : b_registered (w_bundle (after h)) = true).
    { apply (reg_hist H c b B_reg). exists (g_shmac x), (g_mode x), r1, (Made 0). split; [exact Gx|discriminate]. }
    unfold AuthSpec.reply_to in R. cbn [step] in R.
    destruct (nth_error _ i); [|discriminate]. unfold register_shmac in R. rewrite Rg in R. discriminate.
Qed.

(** C32: data is enciphered only under an IV which the library drew, and
    deciphered only under one which the caller supplied; in both cases the mode
    was declared and the authenticator was not finalized. *)
Theorem C32_data_needs_the_right_iv : forall calls g block out,
  reply_to calls (Feed g block) = Got out ->
  exists i m r, happened calls (Start i m r) (Made g) /\ happened calls (DeclareMode i m) Done /\
    (forall t, ~ happened calls (Finalize i) (Got t)) /\
    match m with
    | Encryption => iv = None /\ b_iv (w_bundle (after calls)) = riv
    | Decryption => exists v, iv = Some v /\ b_iv (w_bundle (after calls)) = v
    end.
Proof.
  intros l g block out E. unfold AuthSpec.reply_to in E. cbn [step] in E.
  destruct (nth_error (w_gens (after l)) g) as [x|] eqn:G; [|discriminate].
  destruct (g_live x); cbn [negb] in E; [|discriminate].
  destruct (nth_error (w_shmacs (after l)) (g_shmac x)) as [s|] eqn:S; [|discriminate].
  assert (Gx : gen_is (g_shmac x) (g_mode x) g (after l)) by (exists x; auto).
  apply gens_hist in Gx as (r & Gx).
  exists (g_shmac x), (g_mode x), r. split; [exact Gx|].
  destruct (start_needs H c b B_mode B_reg _ _ _ _ _ Gx) as (h & t & El & M & _ & _).
  assert (M' : happened l (DeclareMode (g_shmac x) (g_mode x)) Done) by (rewrite El; now apply happened_app).
  split; [exact M'|]. split.
  - intros u U. apply (results_hist H c b) in U as (s' & S' & U). rewrite S in S'. injection S' as <-.
    assert (F : s_finalized s = true) by (apply (finalized_result H c b l _ s S); congruence).
    destruct (transform H c (g_mode x) (g_first x) (w_bundle (after l), s) block) as [[o [b' s']]|e] eqn:T.
    + apply transform_same in T as (T & _). congruence.
    + destruct (left_behind _ _ _ _ _ _). discriminate.
  - apply mode_iv in M'. destruct (static_hist H c b l) as (_ & I & _). rewrite I.
    destruct (make_bundle_unused _ _ _ _ _ _ _ _ _ B) as (_ & _ & Fr & V). rewrite V. rewrite M' in Fr.
    destruct (g_mode x), iv; try discriminate; eauto.
Qed.

End Props.

(** ** Objects driven by hand *)

Section ByHand.
Variable H : hasher.
Variable c : cfg.

Local Arguments transform : simpl never.
Local Arguments finalize : simpl never.

Lemma replies_app w l1 l2 : replies H c w (l1 ++ l2) = replies H c w l1 ++ replies H c (after H c w l1) l2.
Proof. revert w. induction l1; intro w; cbn; congruence. Qed.

Lemma feeds m blocks : forall first b s outs b' s',
  transform_blocks H c m first (b, s) blocks = Ok (outs, (b', s')) ->
  let w := {| w_bundle := b; w_shmacs := [s];
              w_gens := [{| g_shmac := 0; g_mode := m; g_first := first; g_live := true |}] |} in
  replies H c w (map (Feed 0) blocks) = map Got outs /\
  exists x, after H c w (map (Feed 0) blocks) = {| w_bundle := b'; w_shmacs := [s']; w_gens := [x] |}.
Proof.
  induction blocks as [|x blocks IH]; intros first b s outs b' s' T; cbn in T.
  - apply Ok_inj in T. injection T as <- <- <-. cbn. split; eauto.
  - destruct (transform H c m first (b, s) x) as [[out [b1 s1]]|] eqn:T1; cbn in T; [|discriminate].
    destruct (transform_blocks H c m false (b1, s1) blocks) as [[outs1 st2]|] eqn:T2; cbn in T; [|discriminate].
    apply Ok_inj in T. injection T as <- ->. destruct (IH _ _ _ _ _ _ T2) as [R A].
    cbn. rewrite T1. cbn. split; [now f_equal|exact A].
Qed.

Lemma blocks_same m blocks : forall first b s outs b' s',
  transform_blocks H c m first (b, s) blocks = Ok (outs, (b', s')) -> same_bundle b b'.
Proof.
  induction blocks as [|x blocks IH]; intros first b s outs b' s' T; cbn in T.
  - apply Ok_inj in T. injection T as <- <- <-. unfold same_bundle. auto 12.
  - destruct (transform H c m first (b, s) x) as [[out [b1 s1]]|] eqn:T1; cbn in T; [|discriminate].
    destruct (transform_blocks H c m false (b1, s1) blocks) as [[outs1 st2]|] eqn:T2; cbn in T; [|discriminate].
    apply Ok_inj in T. injection T as <- ->. apply IH in T2. apply transform_same in T1.
    unfold same_bundle in *. intuition congruence.
Qed.

(** The calls of the documented way to use the objects. *)
Definition by_hand (m : cipher_mode) (blocks : list bytes) (ending : list call) : list call :=
  [DeclareRun Sync; NewShmac; DeclareMode 0 m; Start 0 m Sync] ++ map (Feed 0) blocks ++ ending.

Lemma by_hand_what m ks salt aad iv rsalt riv b b1 s s1 st blocks outs b2 s2 ending :
  make_bundle H c ks salt aad iv rsalt riv = Ok b ->
  set_run_mode Sync b = Ok b1 -> make_shmac H c b1 = Ok s ->
  match m with Encryption => for_encryption b1 s | Decryption => for_decryption b1 s end = Ok s1 ->
  junction m Sync (b1, s1) = Ok st ->
  combine_streams H c m st blocks = Ok (outs, (b2, s2)) ->
  exists x, replies H c (unused b) (by_hand m blocks ending) =
    [Done; Made 0; Done; Made 0] ++ map Got outs ++
    replies H c {| w_bundle := b2; w_shmacs := [s2]; w_gens := [x] |} ending.
Proof.
  intros B R S M J C. unfold by_hand. rewrite replies_app.
  assert (T : transform_blocks H c m true st blocks = Ok (outs, (b2, s2)))
    by (unfold combine_streams in C; destruct (c_type c), blocks; try discriminate; exact C).
  unfold junction in J. destruct (register_shmac b1) as [b1'|] eqn:G; [|discriminate]. cbn [bind] in J.
  destruct (check_modes m Sync (b1', s1)) as [u|] eqn:K; [|discriminate]. cbn [bind] in J.
  apply Ok_inj in J. subst st. destruct (feeds _ _ _ _ _ _ _ _ T) as [RR (x & AA)].
  exists x.
  assert (S1 : step H c (unused b) (DeclareRun Sync) = (Done, unused b1)) by (cbn; now rewrite R).
  assert (S2 : step H c (unused b1) NewShmac = (Made 0, {| w_bundle := b1; w_shmacs := [s]; w_gens := [] |}))
    by (cbn; now rewrite S).
  assert (S3 : step H c {| w_bundle := b1; w_shmacs := [s]; w_gens := [] |} (DeclareMode 0 m)
               = (Done, {| w_bundle := b1; w_shmacs := [s1]; w_gens := [] |}))
    by (cbn; now rewrite M).
  assert (S4 : step H c {| w_bundle := b1; w_shmacs := [s1]; w_gens := [] |} (Start 0 m Sync)
               = (Made 0, {| w_bundle := b1'; w_shmacs := [s1];
                    w_gens := [{| g_shmac := 0; g_mode := m; g_first := true; g_live := true |}] |}))
    by (cbn [step nth_error w_shmacs w_bundle]; now rewrite G, K).
  cbn [replies after]. rewrite S1. cbn [fst snd]. rewrite S2. cbn [fst snd]. rewrite S3. cbn [fst snd].
  rewrite S4. cbn [fst snd]. rewrite replies_app, RR, AA. reflexivity.
Qed.

(** C32: who makes the key bundle and the authenticator, feeds the padded
    plaintext block by block and finalizes, gets the tag and the body of the
    ciphertext which the one-shot method gives for the same choices. *)
Theorem C32_by_hand_encryption ks r data salt aad b padded ct :
  make_bundle H c ks salt aad None (r_salt r) (r_iv r) = Ok b ->
  pad_plaintext c (r_now r) (r_siv r) (r_extra r) data = Ok padded ->
  bytes_encrypt H c ks r data salt aad = Ok ct ->
  exists tag outs,
    ct = tag ++ b_salt b ++ b_iv b ++ concat outs /\
    replies H c (unused b)
      ([DeclareRun Sync; NewShmac; DeclareMode 0 Encryption; Start 0 Encryption Sync] ++
       map (Feed 0) (batch padded (c_blocksize c)) ++ [Finalize 0; Result 0; Finalize 0]) =
    [Done; Made 0; Done; Made 0] ++ map Got outs ++ [Got tag; Got tag; Raised PermissionErr].
Proof.
  intros B P E. unfold bytes_encrypt in E. rewrite B in E. cbn [bind] in E.
  destruct (set_run_mode Sync b) as [b1|] eqn:R; [|discriminate]. cbn [bind] in E.
  destruct (make_shmac H c b1) as [s|] eqn:S; [|discriminate]. cbn [bind] in E.
  destruct (for_encryption b1 s) as [s1|] eqn:M; [|discriminate]. cbn [bind] in E.
  rewrite P in E. cbn [bind] in E.
  destruct (junction Encryption Sync (b1, s1)) as [st|] eqn:J; [|discriminate]. cbn [bind] in E.
  destruct (combine_streams H c Encryption st _) as [[outs [b2 s2]]|] eqn:C; [|discriminate]. cbn [bind] in E.
  destruct (finalize H c b2 s2) as [[tag s3]|] eqn:F; [|discriminate]. cbn [bind] in E. apply Ok_inj in E.
  exists tag, outs. split.
  - subst ct.
    assert (T : transform_blocks H c Encryption true st (batch padded (c_blocksize c)) = Ok (outs, (b2, s2)))
      by (unfold combine_streams in C; destruct (c_type c), (batch padded (c_blocksize c)); try discriminate; exact C).
    unfold junction in J. destruct (register_shmac b1) as [b1'|] eqn:G; [|discriminate]. cbn [bind] in J.
    destruct (check_modes Encryption Sync (b1', s1)) as [u|] eqn:K; [|discriminate]. cbn [bind] in J.
    apply Ok_inj in J. subst st. apply blocks_same in T. unfold same_bundle in T.
    destruct T as (-> & _ & -> & _).
    unfold register_shmac in G. destruct (b_registered b1); [discriminate|]. apply Ok_inj in G. subst b1'.
    unfold set_run_mode in R. destruct (b_mode b); [discriminate|]. apply Ok_inj in R. subst b1. reflexivity.
  - destruct (by_hand_what Encryption _ _ _ _ _ _ _ _ _ _ _ _ _ _ _ [Finalize 0; Result 0; Finalize 0] B R S M J C) as (x & W).
    unfold by_hand in W. rewrite W. do 2 f_equal. cbn. rewrite F. cbn.
    unfold finalize in F. destruct (s_finalized s2); [discriminate|]. apply Ok_inj in F. injection F as <- <-. reflexivity.
Qed.

(** C32: and who feeds the body of an accepted ciphertext gets its padded
    plaintext, and the authenticator accepts the ciphertext's tag. *)
Theorem C32_by_hand_decryption ks rsalt now ct aad ttl data :
  bytes_decrypt H c ks rsalt now ct aad ttl = Ok data ->
  exists d b outs tag,
    parse_ciphertext c ct = Ok d /\
    make_bundle H c ks (Some (ct_salt d)) aad (Some (ct_iv d)) rsalt [] = Ok b /\
    replies H c (unused b)
      ([DeclareRun Sync; NewShmac; DeclareMode 0 Decryption; Start 0 Decryption Sync] ++
       map (Feed 0) (batch (ct_body d) (c_blocksize c)) ++ [Finalize 0; TestShmac 0 (ct_shmac d)]) =
    [Done; Made 0; Done; Made 0] ++ map Got outs ++ [Got tag; Done] /\
    depad_plaintext c now (concat outs) ttl = Ok data.
Proof.
  intros E. unfold bytes_decrypt in E.
  destruct (parse_ciphertext c ct) as [d|] eqn:P; [|discriminate]. cbn [bind] in E.
  destruct (make_bundle H c ks _ aad _ _ _) as [b|] eqn:B; [|discriminate]. cbn [bind] in E.
  destruct (set_run_mode Sync b) as [b1|] eqn:R; [|discriminate]. cbn [bind] in E.
  destruct (make_shmac H c b1) as [s|] eqn:S; [|discriminate]. cbn [bind] in E.
  destruct (for_decryption b1 s) as [s1|] eqn:M; [|discriminate]. cbn [bind] in E.
  destruct (junction Decryption Sync (b1, s1)) as [st|] eqn:J; [|discriminate]. cbn [bind] in E.
  destruct (combine_streams H c Decryption st _) as [[outs [b2 s2]]|] eqn:C; [|discriminate]. cbn [bind] in E.
  destruct (finalize H c b2 s2) as [[tag s3]|] eqn:F; [|discriminate]. cbn [bind] in E.
  destruct (test_shmac s3 (ct_shmac d)) as [u|] eqn:T; [|discriminate]. cbn [bind] in E.
  exists d, b, outs, tag. split; [reflexivity|]. split; [exact B|]. split; [|exact E].
  destruct (by_hand_what Decryption _ _ _ _ _ _ _ _ _ _ _ _ _ _ _ [Finalize 0; TestShmac 0 (ct_shmac d)] B R S M J C) as (x & W).
  unfold by_hand in W. rewrite W. do 2 f_equal. cbn. rewrite F. cbn. rewrite T. reflexivity.
Qed.

End ByHand.

Print Assumptions C31_one_mode.
Print Assumptions C31_first_mode.
Print Assumptions C31_one_finalization.
Print Assumptions C31_result_is_the_final_tag.
Print Assumptions C31_no_data_after_finalization.
Print Assumptions C31_refused_calls_change_nothing_partial.
Print Assumptions C31_refused_start_is_final_refuted.
Print Assumptions C32_started_iff.
Print Assumptions C32_refused_starts.
Print Assumptions C32_one_registration.
Print Assumptions C32_data_needs_the_right_iv.
Print Assumptions C32_by_hand_encryption.
Print Assumptions C32_by_hand_decryption.

(** A history which meets the hypotheses: the intended use, an attempt at a
    second mode, a second authenticator on the same bundle, a start with the
    wrong mode; and one where the mistaken start makes the bundle useless. *)
Definition is_got (r : reply) : bool := match r with Got _ => true | _ => false end.
Example C31_C32_case : exists c ks b, slick256 [x61] 13 = Ok c /\
  make_cipher toy c a_key = Ok ks /\
  make_bundle toy c ks None [] None (repeat x01 8) (repeat x02 8) = Ok b /\
  let rs := replies toy c (unused b)
    [DeclareMode 0 Encryption; NewShmac; DeclareRun Sync; DeclareRun Sync; NewShmac; NewShmac;
     DeclareMode 0 Decryption; DeclareMode 0 Encryption; DeclareMode 0 Encryption;
     DeclareMode 1 Encryption; Result 0; Start 0 Encryption Sync; Start 1 Encryption Sync;
     Feed 0 (repeat x41 32); BlockId 0 (repeat x42 32) None []; Finalize 0; Finalize 0;
     Feed 0 (repeat x41 32); Feed 0 (repeat x41 32); Result 0] in
  map (fun r => if is_got r then Done else r) rs =
    [NoSuchObject; Raised AttributeErr; Done; Raised PermissionErr; Made 0; Made 1;
     Raised PermissionErr; Done; Raised PermissionErr;
     Done; Raised AttributeErr; Made 0; Raised PermissionErr;
     Done; Done; Done; Raised PermissionErr;
     Raised AttributeErr; Raised StopIter; Done] /\
  replies toy c (unused b)
    [DeclareRun Sync; NewShmac; DeclareMode 0 Encryption; Start 0 Decryption Sync; Start 0 Encryption Sync] =
    [Done; Made 0; Done; Raised ValueErr; Raised PermissionErr].
Proof.
  destruct (slick256 [x61] 13) as [c|] eqn:E; [|vm_compute in E; discriminate].
  vm_compute in E. apply Ok_inj in E. subst c. eexists _, _, _.
  split; [reflexivity|]. split; [vm_compute; reflexivity|]. split; [vm_compute; reflexivity|].
  split; vm_compute; reflexivity.
Qed.
(** A message for which the one-shot method answers. *)
Example C32_by_hand_case : exists c ks b padded ct, slick256 [x61] 13 = Ok c /\
  make_cipher toy c a_key = Ok ks /\
  make_bundle toy c ks None [] None (r_salt slick_coins) (r_iv slick_coins) = Ok b /\
  pad_plaintext c (r_now slick_coins) (r_siv slick_coins) (r_extra slick_coins) (repeat x41 40) = Ok padded /\
  bytes_encrypt toy c ks slick_coins (repeat x41 40) None [] = Ok ct /\
  bytes_decrypt toy c ks [] (r_now slick_coins) ct [] None = Ok (repeat x41 40).
Proof.
  destruct (slick256 [x61] 13) as [c|] eqn:E; [|vm_compute in E; discriminate].
  vm_compute in E. apply Ok_inj in E. subst c. eexists _, _, _, _, _.
  repeat (split; [vm_compute; reflexivity|]). vm_compute; reflexivity.
Qed.
