(** * One authenticator of Chunky2048 shared by asyncio tasks: proofs *)
From Coq Require Import ZArith Lia.
From Verif Require Import Base BaseFacts CanonModel TransformModel PermModel ClockModel IdModel CipherModel AuthModel AuthSpec AuthProofs
  AwaitModel AwaitSpec AwaitProofs DualModel DualSpec.
Local Open Scope N_scope.
Local Arguments check_modes : simpl never.
Local Arguments draw : simpl never.

Lemma j_run_snoc H c l a s : j_run H c (l ++ [a]) s =
  (fst (j_run H c l s) ++ fst (j_act H c a (snd (j_run H c l s))), snd (j_act H c a (snd (j_run H c l s)))).
Proof.
  revert s. induction l as [|x l IH]; intros s; cbn.
  - destruct (j_act H c a s) as [e s']. cbn. now rewrite app_nil_r.
  - destruct (j_act H c x s) as [e1 s1]. rewrite IH. destruct (j_run H c l s1) as [e2 s2]. cbn. now rewrite app_assoc.
Qed.

Section Dual.
Variable H : hasher.
Variable c : cfg.
Hypothesis T : c_type c = DualOutput.

(** ** The pieces put together *)
Definition pieces (m : cipher_mode) (first : bool) (b : bundle) (s : shmac) (block : bytes) : drawn :=
  if negb first && s_finalized s then Fails AttributeErr b else draw H c m first b s block (s_cur s ++ s_prev s).

Lemma split_transform m first b s block :
  match pieces m first b s block with
  | Fails e b' => transform H c m first (b, s) block = Err e /\ left_behind H c m first (b, s) block = (b', s)
  | Draws b' out hashed =>
    s_finalized s = false /\
    match out with
    | Ok o => transform H c m first (b, s) block = Ok (o, update_mac H (b', s) hashed)
    | Err e => transform H c m first (b, s) block = Err e /\ left_behind H c m first (b, s) block = update_mac H (b', s) hashed
    end
  end.
Proof.
  unfold pieces, draw, transform, left_behind. rewrite T. destruct first; cbn [negb andb].
  - unfold draw_first. destruct m.
    + unfold dual_first_encipher.
      destruct (chain_permute (s_perm s) (be_z (take (inner_header_bytes c) block))) as [x|e]; cbn [bind];
        [|destruct (s_finalized s); auto].
      destruct (z_to_bytes (inner_header_bytes c) BigEndian x) as [made|e]; cbn [bind]; [|destruct (s_finalized s); auto].
      destruct (s_finalized s) eqn:F; [auto|].
      rewrite <- !app_assoc. destruct (keystream_send H _ _) as [key b'] eqn:K.
      destruct (z_to_bytes (first_content_bytes c) BigEndian _) as [body|e]; cbn [bind]; [|auto]. split; reflexivity.
    + unfold dual_first_decipher.
      destruct (chain_invert (s_perm s) (be_z (take (inner_header_bytes c) block))) as [x|e]; cbn [bind];
        [|destruct (s_finalized s); auto].
      destruct (z_to_bytes (inner_header_bytes c) BigEndian x) as [made|e]; cbn [bind]; [|destruct (s_finalized s); auto].
      destruct (s_finalized s) eqn:F; [auto|].
      rewrite <- !app_assoc. destruct (keystream_send H _ _) as [key b'] eqn:K.
      destruct (z_to_bytes (first_content_bytes c) BigEndian _) as [body|e]; cbn [bind]; [|auto]. split; reflexivity.
  - destruct (s_finalized s) eqn:F.
    + destruct m; unfold dual_encipher, dual_decipher; rewrite F; auto.
    + unfold draw_later. destruct m; unfold dual_encipher, dual_decipher; rewrite F;
        destruct (keystream_send H b (s_cur s ++ s_prev s)) as [key b'];
        (destruct (z_to_bytes (c_blocksize c) BigEndian _) as [o|e]; cbn [bind]; [split; auto|auto]).
Qed.

Lemma feed_step w g block x h : nth_error (w_gens w) g = Some x -> g_live x = true ->
  nth_error (w_shmacs w) (g_shmac x) = Some h ->
  step H c w (Feed g block) =
    match pieces (g_mode x) (g_first x) (w_bundle w) h block with
    | Fails e b => (Raised e, close g (set_bundle w b))
    | Draws b out hashed =>
      let '(b', h') := update_mac H (b, h) hashed in
      let w' := set_shmac (set_bundle w b') (g_shmac x) h' in
      match out with
      | Ok o => (Got o, set_gen w' g {| g_shmac := g_shmac x; g_mode := g_mode x; g_first := false; g_live := true |})
      | Err e => (Raised e, close g w')
      end
    end.
Proof.
  intros G L S. cbn [step]. rewrite G, L, S. cbn [negb]. pose proof (split_transform (g_mode x) (g_first x) (w_bundle w) h block) as P.
  destruct (pieces (g_mode x) (g_first x) (w_bundle w) h block) as [e b|b out hashed].
  - destruct P as [-> ->]. f_equal. unfold close. cbn [w_gens set_bundle]. rewrite G. unfold set_gen, set_shmac. cbn.
    now rewrite (replace_nth_same _ _ _ S).
  - destruct P as [F P]. destruct (update_mac H (b, h) hashed) as [b' h']. destruct out as [o|e].
    + rewrite P. reflexivity.
    + destruct P as [-> ->]. f_equal. unfold close. cbn [w_gens set_shmac set_bundle]. now rewrite G.
Qed.

(** No exception of a block is the one of a busy generator. *)
Lemma permute_err p v : chain_permute p v <> Err RuntimeErr.
Proof.
  assert (P : forall a v, aff_permute a v <> Err RuntimeErr) by (intros a u E; apply walk_err in E; discriminate).
  unfold chain_permute. destruct (aff_permute (ch_aff_in _) _) as [x|e] eqn:E1; cbn [bind]; [|intros [= ->]; now apply P in E1].
  destruct (aff_permute (ch_aff_mid _) _) as [y|e] eqn:E2; cbn [bind]; [|intros [= ->]; now apply P in E2].
  destruct (aff_permute (ch_aff_out _) _) as [z|e] eqn:E3; cbn [bind]; [discriminate|intros [= ->]; now apply P in E3].
Qed.
Lemma invert_err p v : chain_invert p v <> Err RuntimeErr.
Proof.
  assert (P : forall a v, aff_invert a v <> Err RuntimeErr) by (intros a u E; apply walk_err in E; discriminate).
  unfold chain_invert. destruct (aff_invert (ch_aff_out _) _) as [x|e] eqn:E1; cbn [bind]; [|intros [= ->]; now apply P in E1].
  destruct (aff_invert (ch_aff_mid _) _) as [y|e] eqn:E2; cbn [bind]; [|intros [= ->]; now apply P in E2].
  destruct (aff_invert (ch_aff_in _) _) as [z|e] eqn:E3; cbn [bind]; [discriminate|intros [= ->]; now apply P in E3].
Qed.
Lemma z_err n o v : z_to_bytes n o v <> Err RuntimeErr.
Proof.
  unfold z_to_bytes, to_bytes_be, to_bytes_le. destruct (v <? 0)%Z, o; try discriminate;
      destruct (Z.to_N v <? 256 ^ n)%N; discriminate.
Qed.
Lemma pieces_err m first b s block :
  (forall b', pieces m first b s block <> Fails RuntimeErr b') /\ (forall b' hashed, pieces m first b s block <> Draws b' (Err RuntimeErr) hashed).
Proof.
  unfold pieces, draw. destruct (negb first && s_finalized s); [split; discriminate|]. destruct first.
  - unfold draw_first.
    destruct (x <- match m with Encryption => _ | Decryption => _ end ;; _) as [made|e] eqn:E.
    + destruct (s_finalized s); [split; discriminate|]. destruct (keystream_send H _ _) as [key b''].
      destruct (z_to_bytes (first_content_bytes c) BigEndian _) as [body|e'] eqn:Z; [split; discriminate|].
      split; [intros b' [= -> _]; now apply z_err in Z|discriminate].
    + split; [|discriminate]. intros b' [= -> _]. destruct m.
      * destruct (chain_permute _ _) as [x|e'] eqn:P; cbn [bind] in E; [now apply z_err in E|]. injection E as ->. now apply permute_err in P.
      * destruct (chain_invert _ _) as [x|e'] eqn:P; cbn [bind] in E; [now apply z_err in E|]. injection E as ->. now apply invert_err in P.
  - unfold draw_later. destruct (keystream_send H b _) as [key b'']. 
    destruct (z_to_bytes (c_blocksize c) BigEndian _) as [o|e] eqn:Z; destruct m; split; try discriminate.
    + intros b' [= -> _]. now apply z_err in Z.
    + intros b' hashed [= _ -> _]. now apply z_err in Z.
Qed.

(** ** Calls other than Feed *)
Definition hashes (b : bundle) := (b_mac b, b_left b, b_right b).
Definition fixed (b b' : bundle) : Prop := b' = set_hashes b (b_mac b') (b_left b') (b_right b').

Lemma fixed_refl b : fixed b b.
Proof. now destruct b. Qed.
Lemma fixed_eq b b' : fixed b b' -> hashes b = hashes b' -> b = b'.
Proof. unfold fixed, hashes. intros F [= E1 E2 E3]. rewrite F, <- E1, <- E2, <- E3. now destruct b. Qed.
Lemma world_eq w w' : w_bundle w = w_bundle w' -> w_shmacs w = w_shmacs w' -> w_gens w = w_gens w' -> w = w'.
Proof. destruct w, w'. cbn. congruence. Qed.

Lemma step_fixed w w1 k : (forall g block, k <> Feed g block) ->
  w_shmacs w1 = w_shmacs w -> w_gens w1 = w_gens w -> fixed (w_bundle w) (w_bundle w1) ->
  b_mac (w_bundle w1) = b_mac (w_bundle w) \/ (k <> NewShmac /\ forall i, k <> Finalize i) ->
  fst (step H c w1 k) = fst (step H c w k) /\
  w_shmacs (snd (step H c w1 k)) = w_shmacs (snd (step H c w k)) /\
  w_gens (snd (step H c w1 k)) = w_gens (snd (step H c w k)) /\
  fixed (w_bundle (snd (step H c w k))) (w_bundle (snd (step H c w1 k))) /\
  hashes (w_bundle (snd (step H c w k))) = hashes (w_bundle w) /\
  hashes (w_bundle (snd (step H c w1 k))) = hashes (w_bundle w1).
Proof.
  destruct w as [b sh ge], w1 as [b1 sh1 ge1]. cbn [w_shmacs w_gens w_bundle]. intros N -> -> F M.
  destruct b as [salt aad iv fr mode reg mac l r], b1 as [salt1 aad1 iv1 fr1 mode1 reg1 mac1 l1 r1].
  unfold fixed in F. cbn in F. injection F as -> -> -> -> -> ->. cbn in M.
  destruct k; cbn [step w_bundle w_shmacs w_gens].
  - unfold set_run_mode. cbn. destruct mode; cbn; repeat split.
  - unfold make_shmac. cbn. destruct M as [->|[M _]]; [|now elim M]. destruct mode; cbn; [|repeat split].
    destruct (make_chain _ _); cbn; repeat split.
  - destruct (nth_error sh i) as [s|]; [|cbn; repeat split].
    destruct m; unfold for_encryption, for_decryption; cbn; destruct (s_mode s), fr; cbn; repeat split.
  - destruct (nth_error sh i) as [s|]; [|cbn; repeat split]. unfold register_shmac. cbn. destruct reg; [cbn; repeat split|].
    unfold check_modes. cbn. destruct (s_mode s) as [m'|]; [|cbn; repeat split]. destruct (mode_eqb m' m); [|cbn; repeat split].
    destruct mode as [r'|]; [|cbn; repeat split]. destruct (run_mode_eqb r' r0); cbn; repeat split.
  - now elim (N g block).
  - destruct (nth_error sh i); cbn; repeat split.
  - destruct (nth_error sh i); cbn; repeat split.
  - destruct (nth_error sh i) as [s|]; [|cbn; repeat split]. unfold finalize. cbn.
    destruct M as [->|[_ M]]; [|now elim (M i)]. destruct (s_finalized s); cbn; repeat split.
  - destruct (nth_error sh i); cbn; repeat split.
  - destruct (nth_error sh i); cbn; repeat split.
Qed.

(** What such a call leaves. *)
Lemma step_keeps w k : (forall g block, k <> Feed g block) ->
  (forall g x, nth_error (w_gens w) g = Some x -> nth_error (w_gens (snd (step H c w k))) g = Some x) /\
  (forall i h, nth_error (w_shmacs w) i = Some h -> exists h', nth_error (w_shmacs (snd (step H c w k))) i = Some h' /\
     s_cur h' = s_cur h /\ s_prev h' = s_prev h /\ s_perm h' = s_perm h /\ (s_finalized h' = s_finalized h \/ k = Finalize i)) /\
  (forall i h', nth_error (w_shmacs (snd (step H c w k))) i = Some h' -> s_finalized h' = true ->
     k = Finalize i \/ exists h, nth_error (w_shmacs w) i = Some h /\ s_finalized h = true) /\
  (w_gens w <> [] -> one_gen w -> b_mode (w_bundle w) <> None -> w_bundle (snd (step H c w k)) = w_bundle w).
Proof.
  intros N.
  assert (Q : forall i h h', nth_error (w_shmacs w) i = Some h -> s_cur h' = s_cur h -> s_prev h' = s_prev h ->
    s_perm h' = s_perm h -> (s_finalized h' = s_finalized h \/ k = Finalize i) -> forall l, l = replace_nth i h' (w_shmacs w) ->
    (forall j q, nth_error (w_shmacs w) j = Some q -> exists q', nth_error l j = Some q' /\ s_cur q' = s_cur q /\
       s_prev q' = s_prev q /\ s_perm q' = s_perm q /\ (s_finalized q' = s_finalized q \/ k = Finalize j)) /\
    (forall j q', nth_error l j = Some q' -> s_finalized q' = true ->
       k = Finalize j \/ exists q, nth_error (w_shmacs w) j = Some q /\ s_finalized q = true)).
  { intros i h h' E A1 A2 A3 A4 l ->. split.
    - intros j q Eq. rewrite nth_error_replace. destruct (Nat.eqb_spec i j) as [<-|]; [|eauto 8].
      rewrite E in *. injection Eq as <-. eauto 8.
    - intros j q' Eq Fq. rewrite nth_error_replace in Eq. destruct (Nat.eqb_spec i j) as [<-|]; [|eauto 8].
      rewrite E in *. injection Eq as <-. destruct A4 as [A4|A4]; [|auto]. right. exists h. split; [auto|congruence]. }
  destruct k; cbn [step]; try (now elim (N g block));
    try (destruct (nth_error (w_shmacs w) i) as [s|] eqn:E; cbn [snd]; [|split; [auto|split; [eauto 8|split; [eauto 8|auto]]]]);
    try (split; [auto|split; [eauto 8|split; [eauto 8|auto]]]; fail).
  - destruct (set_run_mode r (w_bundle w)) as [b|] eqn:E; cbn [snd]; [|split; [auto|split; [eauto 8|split; [eauto 8|auto]]]].
    cbn. split; [auto|split; [eauto 8|split; [eauto 8|]]]. intros _ _ M. unfold set_run_mode in E. destruct (b_mode (w_bundle w)); [discriminate|now elim M].
  - destruct (make_shmac H c (w_bundle w)) as [s|] eqn:E; cbn [snd]; [|split; [auto|split; [eauto 8|split; [eauto 8|auto]]]].
    cbn. split; [auto|split; [|split; [|auto]]].
    + intros i h Eh. exists h. split; [|auto]. rewrite nth_error_app1; [exact Eh|]. apply nth_error_Some. congruence.
    + intros i h' Eh Fh. right. destruct (Nat.ltb_spec i (length (w_shmacs w))) as [L|L].
      * rewrite nth_error_app1 in Eh by exact L. eauto.
      * rewrite nth_error_app2 in Eh by exact L. destruct (i - length (w_shmacs w))%nat as [|n]; [|now destruct n].
        cbn in Eh. injection Eh as <-. unfold make_shmac in E. destruct (b_mode (w_bundle w)); [|discriminate].
        destruct (make_chain _ _); [|discriminate]. apply Ok_inj in E. subst s. discriminate.
  - destruct (match m with Encryption => for_encryption (w_bundle w) s | Decryption => for_decryption (w_bundle w) s end) as [s'|] eqn:F;
      cbn [snd]; [|split; [auto|split; [eauto 8|split; [eauto 8|auto]]]].
    assert (A : s_cur s' = s_cur s /\ s_prev s' = s_prev s /\ s_perm s' = s_perm s /\ s_finalized s' = s_finalized s).
    { unfold for_encryption, for_decryption in F.
      destruct m, (s_mode s), (b_iv_is_fresh (w_bundle w)); cbn in F; try discriminate; apply Ok_inj in F; subst s'; auto. }
    destruct A as (A1 & A2 & A3 & A4). destruct (Q i s s' E A1 A2 A3 (or_introl A4) _ eq_refl) as [Q1 Q2].
    split; [auto|split; [exact Q1|split; [exact Q2|auto]]].
  - unfold register_shmac. destruct (b_registered (w_bundle w)) eqn:R; cbn [snd]; [split; [auto|split; [eauto 8|split; [eauto 8|auto]]]|].
    assert (Z : w_gens w <> [] -> one_gen w -> False) by (intros G [_ O]; apply O in G; congruence).
    destruct (check_modes m r _) as [u|e]; cbn; (split; [|split; [eauto 8|split; [eauto 8|intros G O; now elim (Z G O)]]]); [|auto].
    intros g x E'. rewrite nth_error_app1; [exact E'|]. apply nth_error_Some. congruence.
  - unfold finalize. destruct (s_finalized s) eqn:F; cbn [snd]; [split; [auto|split; [eauto 8|split; [eauto 8|auto]]]|].
    destruct (Q i s {| s_mode := s_mode s; s_finalized := true; s_result := Some (shmac_result H c (b_mac (w_bundle w)));
         s_prev := s_prev s; s_cur := s_cur s; s_perm := s_perm s |} E eq_refl eq_refl eq_refl (or_intror eq_refl) _ eq_refl) as [Q1 Q2].
    split; [auto|split; [exact Q1|split; [exact Q2|auto]]].
Qed.

Lemma draw_same m first b s s' block key : s_finalized s' = s_finalized s -> s_cur s' = s_cur s -> s_perm s' = s_perm s ->
  draw H c m first b s' block key = draw H c m first b s block key.
Proof. intros A B C. unfold draw, draw_first. now rewrite A, B, C. Qed.

(** ** The simulation *)
Definition feeds (p : waiting) (g : nat) : Prop :=
  match p with Waiting g' _ _ | Hashing g' _ _ _ => g' = g | _ => False end.
Definition going (s : joint) (w : world) (p : waiting) : Prop :=
  match p with
  | Waiting g block key =>
    j_running s g = true /\ b_mode (w_bundle w) = Some Async /\
    exists x h, nth_error (w_gens w) g = Some x /\ g_live x = true /\ nth_error (w_shmacs w) (g_shmac x) = Some h /\
      key = s_cur h ++ s_prev h /\
      (g_first x = false -> s_finalized h = true -> forall e b, draw H c (g_mode x) false (w_bundle w) h block key <> Fails e b)
  | Hashing g block out hashed =>
    j_running s g = true /\ b_mode (w_bundle w) = Some Async /\
    exists x h, nth_error (w_gens w) g = Some x /\ g_live x = true /\ nth_error (w_shmacs w) (g_shmac x) = Some h /\
      draw H c (g_mode x) (g_first x) (w_bundle w) h block (s_cur h ++ s_prev h) = Draws (w_bundle (j_world s)) out hashed
  | Asks k => match k with BlockId _ _ _ _ | TestBlockId _ _ _ _ => True | _ => False end
  | Finalizes i => j_claimed s i = true
  end.
Definition hashing (s : joint) : Prop := exists t g block out hashed, j_tasks s t = Some (Hashing g block out hashed).

Record sim (s : joint) (w : world) : Prop := {
  m_shmacs : w_shmacs (j_world s) = w_shmacs w;
  m_gens : w_gens (j_world s) = w_gens w;
  m_fixed : fixed (w_bundle w) (w_bundle (j_world s));
  m_one : one_gen w;
  m_tasks : forall t p, j_tasks s t = Some p -> going s w p;
  m_unique : forall t t' p p' g g', j_tasks s t = Some p -> j_tasks s t' = Some p' -> feeds p g -> feeds p' g' -> t = t';
  m_mac : (forall t g, ~ half_hashed s t g) -> b_mac (w_bundle (j_world s)) = b_mac (w_bundle w);
  m_quiet : ~ hashing s -> w_gens w = [] \/ (exists g x, nth_error (w_gens w) g = Some x /\ g_live x = true) ->
    w_bundle (j_world s) = w_bundle w;
  m_claimed : forall i h, nth_error (w_shmacs w) i = Some h -> s_finalized h = true -> j_claimed s i = true;
  m_claims : forall i, j_claimed s i = true -> nth_error (w_shmacs w) i <> None;
}.

Lemma sim_fresh b : sim (j_fresh b) (unused b).
Proof.
  constructor; cbn; auto; try discriminate.
  - apply fixed_refl.
  - split; [cbn; lia|now intros []].
  - intros i h E. now destruct i.
Qed.

(** A waiting task is no longer waiting, or begins to ask or to finalize. *)
Lemma sim_free s w t p : sim s w -> j_tasks s t = Some p -> (forall g, ~ feeds p g) -> sim (j_set_task s t None) w.
Proof.
  intros S E N. constructor; cbn.
  1-4: apply S.
  - intros u q. destruct (Nat.eqb u t); [discriminate|]. intros Eu. pose proof (m_tasks _ _ S u q Eu) as G. destruct q; exact G.
  - intros u u' q q' g g'. destruct (Nat.eqb u t); [discriminate|]. destruct (Nat.eqb u' t); [discriminate|]. apply (m_unique _ _ S).
  - intros Q. apply (m_mac _ _ S). intros u g [(bl & out & hs & Eu) F]. apply (Q u g). split; [|exact F]. exists bl, out, hs. cbn.
    destruct (Nat.eqb_spec u t) as [->|]; [|exact Eu]. rewrite Eu in E. injection E as <-. now elim (N g).
  - intros Q. apply (m_quiet _ _ S). intros (u & g & bl & out & hs & Eu). apply Q. exists u, g, bl, out, hs. cbn.
    destruct (Nat.eqb_spec u t) as [->|]; [|exact Eu]. rewrite Eu in E. injection E as <-. now elim (N g).
  - apply (m_claimed _ _ S).
  - apply (m_claims _ _ S).
Qed.
Lemma sim_add s w t p : sim s w -> j_tasks s t = None -> (forall g, ~ feeds p g) -> going s w p -> sim (j_set_task s t (Some p)) w.
Proof.
  intros S E N G0. constructor; cbn.
  1-4: apply S.
  - intros u q. destruct (Nat.eqb u t); [intros [= <-]; destruct p; exact G0|]. intros Eu.
    pose proof (m_tasks _ _ S u q Eu) as G. destruct q; exact G.
  - intros u u' q q' g g'. destruct (Nat.eqb u t); [intros [= <-] _ F; now elim (N g)|].
    destruct (Nat.eqb u' t); [intros _ [= <-] _ F; now elim (N g')|]. apply (m_unique _ _ S).
  - intros Q. apply (m_mac _ _ S). intros u g [(bl & out & hs & Eu) F]. apply (Q u g). split; [|exact F]. exists bl, out, hs. cbn.
    destruct (Nat.eqb_spec u t) as [->|]; [congruence|exact Eu].
  - intros Q. apply (m_quiet _ _ S). intros (u & g & bl & out & hs & Eu). apply Q. exists u, g, bl, out, hs. cbn.
    destruct (Nat.eqb_spec u t) as [->|]; [congruence|exact Eu].
  - apply (m_claimed _ _ S).
  - apply (m_claims _ _ S).
Qed.
Lemma sim_claim s w i : sim s w -> nth_error (w_shmacs w) i <> None -> sim (j_claim s i) w.
Proof.
  intros S N. constructor; cbn; try apply S.
  - intros t p E. pose proof (m_tasks _ _ S t p E) as G. destruct p; auto. cbn in *. now destruct (Nat.eqb i0 i).
  - intros j h E F. destruct (Nat.eqb j i); [reflexivity|]. eapply m_claimed; eauto.
  - intros j. destruct (Nat.eqb_spec j i) as [->|]; [auto|]. apply (m_claims _ _ S).
Qed.

Definition flying (s : joint) : Prop := exists t p g, j_tasks s t = Some p /\ feeds p g.

Lemma flying_hashing s : hashing s -> flying s.
Proof. intros (t & g & bl & out & hs & E). exists t, (Hashing g bl out hs), g. split; [exact E|reflexivity]. Qed.
Lemma flying_half s t g : half_hashed s t g -> flying s.
Proof. intros [(bl & out & hs & E) _]. exists t, (Hashing g bl out hs), g. split; [exact E|reflexivity]. Qed.
Lemma gen_zero w g x : one_gen w -> nth_error (w_gens w) g = Some x -> g = 0%nat.
Proof. intros [O _] X. assert (g < length (w_gens w))%nat by (apply nth_error_Some; congruence). lia. Qed.
Lemma flying_gens s w t p g : sim s w -> j_tasks s t = Some p -> feeds p g ->
  j_running s g = true /\ b_mode (w_bundle w) = Some Async /\ g = 0%nat /\
  exists x h, nth_error (w_gens w) g = Some x /\ g_live x = true /\ nth_error (w_shmacs w) (g_shmac x) = Some h.
Proof.
  intros S E F. pose proof (m_tasks _ _ S t p E) as G.
  destruct p as [g' bl key|g' bl out hs| |]; cbn in F, G; try contradiction; subst g'; destruct G as (R & M & x & h & X & L & Sh & _);
    (split; [exact R|split; [exact M|split; [eapply gen_zero; [apply S|eauto]|eauto 6]]]).
Qed.
Lemma still s w g x : sim s w -> nth_error (w_gens w) g = Some x -> j_running s g = false -> ~ flying s.
Proof.
  intros S X R (t & p & g' & E & F). destruct (flying_gens s w t p g' S E F) as (R' & _ & Z & _).
  pose proof (gen_zero w g x (m_one _ _ S) X). congruence.
Qed.

(** The reply and the state of an action, and what one at a time gives. *)
Definition matched (w : world) (n : nat) (out : list (call * reply) * joint) : Prop :=
  exists turns w', (closes turns <= n)%nat /\
    one_at_a_time H c w turns = (filter (fun x => negb (turned_away x)) (fst out), w') /\ sim (snd out) w'.

Lemma matched_none w n s' : sim s' w -> matched w n ([], s').
Proof. intros S. exists [], w. split; [cbn; lia|]. split; [reflexivity|exact S]. Qed.
Lemma matched_away w n s' k r : sim s' w -> turned_away (k, r) = true -> matched w n ([(k, r)], s').
Proof. intros S A. exists [], w. split; [cbn; lia|]. split; [cbn [fst filter one_at_a_time]; now rewrite A|exact S]. Qed.
Lemma matched_call w n s' k r w' : step H c w k = (r, w') -> turned_away (k, r) = false -> sim s' w' -> matched w n ([(k, r)], s').
Proof.
  intros K A S. exists [Call k], w'. split; [cbn; lia|]. split; [|exact S].
  cbn [fst filter one_at_a_time]. rewrite K, A. reflexivity.
Qed.

(** A call other than Feed, made at once. *)
Lemma at_once_sim s w k n : sim s w -> (forall g block, k <> Feed g block) ->
  (forall t g, half_hashed s t g -> k <> NewShmac /\ forall i, k <> Finalize i) -> (forall i, k = Finalize i -> j_claimed s i = true) ->
  (forall i t, k = Finalize i -> ~ doomed H c s t) -> matched w n (j_at_once H c k s).
Proof.
  intros S N D Cl Do. unfold j_at_once.
  assert (M : b_mac (w_bundle (j_world s)) = b_mac (w_bundle w) \/ (k <> NewShmac /\ forall i, k <> Finalize i)).
  { assert (Z : k = NewShmac \/ (exists i, k = Finalize i) \/ (k <> NewShmac /\ forall i, k <> Finalize i))
      by (destruct k; eauto; right; right; split; congruence).
    destruct Z as [->|[[i ->]|Z]]; [left|left|auto]; apply (m_mac _ _ S); intros t g Hh; destruct (D t g Hh) as [D1 D2];
      [now elim D1|now elim (D2 i)]. }
  pose proof (step_fixed w (j_world s) k N (m_shmacs _ _ S) (m_gens _ _ S) (m_fixed _ _ S) M) as F.
  pose proof (step_keeps w k N) as (K1 & K2 & K3 & K4).
  pose proof (proj2 (step_calm H c w k (m_one _ _ S) N)) as O'.
  destruct (step H c w k) as [r w'] eqn:K. destruct (step H c (j_world s) k) as [r1 w1]. cbn [fst snd] in *.
  destruct F as (-> & F2 & F3 & F4 & F5 & F6).
  assert (Ge : w_gens w <> [] -> w_gens w' = w_gens w).
  { intros Z. destruct O' as [O1 _]. destruct (w_gens w) as [|y l] eqn:Gw; [now elim Z|]. pose proof (K1 0%nat y eq_refl) as K1'.
    destruct (m_one _ _ S) as [O2 _]. rewrite Gw in O2. cbn in O2. destruct l as [|]; [|cbn in O2; lia].
    destruct (w_gens w') as [|y' [|]]; [discriminate| |cbn in O1; lia]. cbn in K1'. congruence. }
  assert (S' : sim (j_set_world s w1) w').
  { constructor; cbn; [exact F2|exact F3|exact F4|exact O'| |apply (m_unique _ _ S)| | | |].
    - intros t p E. pose proof (m_tasks _ _ S t p E) as G.
      assert (B : forall g x, nth_error (w_gens w) g = Some x -> b_mode (w_bundle w) = Some Async -> w_bundle w' = w_bundle w /\ w_bundle w1 = w_bundle (j_world s)).
      { intros g x X Md. assert (W : w_bundle w' = w_bundle w).
        { apply K4; [intros Z; rewrite Z in X; now destruct g|apply S|congruence]. }
        split; [exact W|]. apply fixed_eq; [|now symmetry]. unfold fixed in *. rewrite W in F4.
        pose proof (m_fixed _ _ S) as M0. unfold fixed in M0. rewrite F4, M0. cbn. unfold hashes in F6. injection F6 as <- <- <-.
        now rewrite F4. }
      destruct p as [g bl key|g bl out hs|q|i]; cbn in G |- *; auto.
      + destruct G as (R & Md & x & h & X & L & Sh & Ky & Nf). destruct (B g x X Md) as [-> _]. split; [exact R|]. split; [exact Md|].
        destruct (K2 _ _ Sh) as (h' & Sh' & A1 & A2 & A3 & A4). exists x, h'.
        split; [auto|]. split; [exact L|]. split; [exact Sh'|]. split; [congruence|]. intros Fx Fh e b Dr.
        destruct (s_finalized h) eqn:Fo; [exact (Nf Fx eq_refl e b Dr)|].
        destruct A4 as [A4|A4]; [congruence|]. apply (Do _ t A4).
        assert (NH : ~ hashing s).
        { intros (u & g' & bl' & out & hs & Eu). assert (u = t) by (eapply (m_unique _ _ S); [exact Eu|exact E|reflexivity|reflexivity]). congruence. }
        assert (Ew : j_world s = w) by (apply world_eq; [apply (m_quiet _ _ S NH); right; eauto|apply S|apply S]).
        exists g, bl, key, e. split; [exact E|]. rewrite Ew, (feed_step w g bl x h X L Sh). unfold pieces. rewrite Fx, Fo. cbn [negb andb].
        subst key. assert (Dr' : draw H c (g_mode x) false (w_bundle w) h bl (s_cur h ++ s_prev h) = Fails e b) by exact Dr.
        rewrite Dr'. split; [reflexivity|]. intros ->. unfold draw, draw_later in Dr. destruct (keystream_send _ _ _) as [ky b0].
        destruct (g_mode x); [|discriminate]. destruct (z_to_bytes _ _ _) as [o|e'] eqn:Z; [discriminate|]. injection Dr as -> _.
        unfold z_to_bytes, to_bytes_be in Z. destruct (_ <? 0)%Z; [discriminate|]. destruct (_ <? 256 ^ _)%N; discriminate.
      + destruct G as (R & Md & x & h & X & L & Sh & Dr). destruct (B g x X Md) as [-> ->]. split; [exact R|]. split; [exact Md|].
        destruct (K2 _ _ Sh) as (h' & Sh' & A1 & A2 & A3 & A4).
        exists x, h'. split; [auto|]. split; [exact L|]. split; [exact Sh'|].
        rewrite A1, A2. destruct (g_first x) eqn:Fx; [|exact Dr].
        destruct A4 as [A4|A4]; [rewrite (draw_same _ _ _ h) by congruence; exact Dr|].
        exfalso. assert (Hh : half_hashed s t g). { split; [eauto|]. exists x. rewrite (m_gens _ _ S). auto. }
        destruct (D t g Hh) as [_ D']. now apply (D' (g_shmac x)).
    - intros Q. unfold hashes in F5, F6. injection F5 as E1 E2 E3. injection F6 as E4 E5 E6. rewrite E1, E4. apply (m_mac _ _ S).
      intros t g [(bl & out & hs & E) (x & X & Fx)]. apply (Q t g). split; [exists bl, out, hs; exact E|]. exists x. cbn.
      rewrite F3, Ge; [rewrite <- (m_gens _ _ S); auto|]. rewrite <- (m_gens _ _ S). intros Z. rewrite Z in X. now destruct g.
    - intros Q Li. unfold hashes in F5, F6. injection F5 as E1 E2 E3. injection F6 as E4 E5 E6.
      assert (Z : w_gens w = [] \/ exists g x, nth_error (w_gens w) g = Some x /\ g_live x = true).
      { destruct (w_gens w) as [|y l]; [auto|]. right. rewrite Ge in Li by discriminate. destruct Li as [Li|Li]; [discriminate|exact Li]. }
      pose proof (m_quiet _ _ S Q Z) as Q2. symmetry. apply fixed_eq; [exact F4|]. unfold hashes. rewrite Q2 in *. congruence.
    - intros i h' E Fh. destruct (K3 i h' E Fh) as [->|(h & E0 & F0)]; [now apply Cl|]. eapply m_claimed; eauto.
    - intros i Ci. pose proof (m_claims _ _ S i Ci) as Z. destruct (nth_error (w_shmacs w) i) as [h|] eqn:E0; [|now elim Z].
      destruct (K2 i h E0) as (h' & E' & _). congruence. }
  destruct (turned_away (k, r)) eqn:A; [|now apply (matched_call w n _ k r w')].
  assert (w' = w) as ->. { destruct k; try discriminate A; [now elim (N g block)|]. eapply finalize_refused; eauto. }
  now apply matched_away.
Qed.

(** No block is under way afterwards. *)
Lemma sim_still s w s' w' : sim s w ->
  (forall t p, j_tasks s' t = Some p -> j_tasks s t = Some p /\ forall g, ~ feeds p g) ->
  (forall i, j_claimed s' i = j_claimed s i) ->
  w_shmacs (j_world s') = w_shmacs w' -> w_gens (j_world s') = w_gens w' ->
  fixed (w_bundle w') (w_bundle (j_world s')) -> one_gen w' ->
  b_mac (w_bundle (j_world s')) = b_mac (w_bundle w') ->
  (w_gens w' = [] \/ (exists g x, nth_error (w_gens w') g = Some x /\ g_live x = true) -> w_bundle (j_world s') = w_bundle w') ->
  (forall i h', nth_error (w_shmacs w') i = Some h' -> exists h, nth_error (w_shmacs w) i = Some h /\ s_finalized h' = s_finalized h) ->
  (length (w_shmacs w') = length (w_shmacs w)) -> sim s' w'.
Proof.
  intros S Ta Cl E1 E2 Fx O Mc Q Fi Le.
  constructor; auto.
  - intros t p E. destruct (Ta t p E) as [E0 N]. pose proof (m_tasks _ _ S t p E0) as G. destruct p; cbn in *; auto.
    + now elim (N g).
    + now elim (N g).
    + now rewrite Cl.
  - intros t t' p p' g g' E _ F. destruct (Ta t p E) as [_ N]. now elim (N g).
  - intros i h' E F. destruct (Fi i h' E) as (h & E0 & F0). rewrite Cl. eapply m_claimed; eauto.
  - intros i. rewrite Cl. intros Ci. apply (m_claims _ _ S) in Ci. apply nth_error_Some. apply nth_error_Some in Ci. lia.
Qed.

Lemma draw_fixed m first b s block key : match draw H c m first b s block key with
  | Fails _ b' => fixed b b' /\ b_registered b' = b_registered b
  | Draws b' _ _ => fixed b b' /\ b_registered b' = b_registered b /\ (first = false -> b_mac b' = b_mac b)
  end.
Proof.
  unfold draw. destruct first.
  - unfold draw_first. destruct (x <- match m with Encryption => _ | Decryption => _ end ;; _) as [made|e]; [|split; [apply fixed_refl|reflexivity]].
    destruct (s_finalized s); [split; [apply fixed_refl|reflexivity]|].
    unfold keystream_send, set_mac, set_hashes. cbn.
    destruct (z_to_bytes (first_content_bytes c) BigEndian _); cbn; (split; [reflexivity|split]); try reflexivity; discriminate.
  - unfold draw_later, keystream_send, set_hashes. destruct m; cbn; [destruct (z_to_bytes (c_blocksize c) BigEndian _); cbn|];
      try (split; [reflexivity|split; reflexivity]); split; reflexivity.
Qed.
Lemma update_fixed b s data : fixed b (fst (update_mac H (b, s) data)) /\
  b_registered (fst (update_mac H (b, s) data)) = b_registered b /\
  s_finalized (snd (update_mac H (b, s) data)) = s_finalized s.
Proof. cbn. repeat split. Qed.

Lemma close_gens w g x : nth_error (w_gens w) g = Some x -> one_gen w ->
  w_gens (close g w) = [{| g_shmac := g_shmac x; g_mode := g_mode x; g_first := false; g_live := false |}] /\
  w_bundle (close g w) = w_bundle w /\ w_shmacs (close g w) = w_shmacs w.
Proof.
  intros X O. pose proof (gen_zero w g x O X). subst g. destruct O as [O _]. unfold close. rewrite X.
  destruct (w_gens w) as [|y [|]] eqn:E; [discriminate| |cbn in O; lia]. cbn. rewrite E. auto.
Qed.
Lemma close_one w g : one_gen w -> one_gen (close g w).
Proof.
  intros O. destruct (nth_error (w_gens w) g) as [x|] eqn:X; [|unfold close; now rewrite X].
  destruct (close_gens w g x X O) as (A & B & _). split; rewrite A; [cbn; lia|]. rewrite B. intros _. apply O. intros Z. rewrite Z in X. now destruct g.
Qed.
Lemma dead_quiet w g x : nth_error (w_gens w) g = Some x -> one_gen w ->
  w_gens (close g w) = [] \/ (exists j y, nth_error (w_gens (close g w)) j = Some y /\ g_live y = true) -> False.
Proof.
  intros X O. destruct (close_gens w g x X O) as (A & _). rewrite A. intros [Z|(j & y & Y & L)]; [discriminate|].
  destruct j as [|[|]]; cbn in Y; [injection Y as <-; discriminate|discriminate|discriminate].
Qed.

Lemma feed_keeps w g block : one_gen w -> let w' := snd (step H c w (Feed g block)) in
  one_gen w' /\ length (w_shmacs w') = length (w_shmacs w) /\
  (forall i h', nth_error (w_shmacs w') i = Some h' -> exists h, nth_error (w_shmacs w) i = Some h /\ s_finalized h' = s_finalized h) /\
  (forall r, fst (step H c w (Feed g block)) = r -> turned_away (Feed g block, r) = false).
Proof.
  intros O. cbv zeta.
  destruct (nth_error (w_gens w) g) as [x|] eqn:X; [|cbn [step]; rewrite X; cbn; split; [exact O|split; [reflexivity|split; [eauto|now intros r <-]]]].
  destruct (g_live x) eqn:L; [|cbn [step]; rewrite X, L; cbn; split; [exact O|split; [reflexivity|split; [eauto|now intros r <-]]]].
  destruct (nth_error (w_shmacs w) (g_shmac x)) as [h|] eqn:Sh;
    [|cbn [step]; rewrite X, L, Sh; cbn; split; [exact O|split; [reflexivity|split; [eauto|now intros r <-]]]].
  rewrite (feed_step w g block x h X L Sh).
  destruct (pieces_err (g_mode x) (g_first x) (w_bundle w) h block) as [P1 P2].
  assert (D : forall b, match pieces (g_mode x) (g_first x) (w_bundle w) h block with Fails _ b' | Draws b' _ _ => b' end = b -> b_registered b = b_registered (w_bundle w)).
  { intros b <-. unfold pieces. destruct (negb (g_first x) && s_finalized h); [reflexivity|].
    pose proof (draw_fixed (g_mode x) (g_first x) (w_bundle w) h block (s_cur h ++ s_prev h)) as Q.
    destruct (draw _ _ _ _ _ _ _ _); apply Q. }
  destruct (pieces (g_mode x) (g_first x) (w_bundle w) h block) as [e b|b out hashed].
  - specialize (D b eq_refl). cbn [fst snd].
    assert (Ob : one_gen (set_bundle w b)) by (apply (one_gen_eq w); auto).
    destruct (close_gens (set_bundle w b) g x X Ob) as (_ & _ & ->). cbn.
    split; [now apply close_one|]. split; [reflexivity|]. split; [eauto|]. intros r <-. cbn. destruct e; auto. now elim (P1 b).
  - specialize (D b eq_refl). destruct (update_fixed b h hashed) as (U1 & U2 & U3).
    destruct (update_mac H (b, h) hashed) as [b' h']. cbn [fst snd] in U1, U2, U3. cbv zeta.
    set (w1 := set_shmac (set_bundle w b') (g_shmac x) h').
    assert (O1 : one_gen w1) by (apply (one_gen_eq w); cbn; [reflexivity|congruence|exact O]).
    assert (L1 : length (w_shmacs w1) = length (w_shmacs w)) by (cbn; apply replace_nth_length).
    assert (F1 : forall i q', nth_error (w_shmacs w1) i = Some q' -> exists q, nth_error (w_shmacs w) i = Some q /\ s_finalized q' = s_finalized q).
    { intros i q' E. cbn in E. rewrite nth_error_replace in E. destruct (Nat.eqb_spec (g_shmac x) i) as [<-|]; [|eauto].
      rewrite Sh in E. injection E as <-. exists h. auto. }
    destruct out as [o|e]; cbn [fst snd].
    + split; [|split; [exact L1|split; [exact F1|now intros r <-]]].
      split; cbn; rewrite ?replace_nth_length; [apply O|]. intros _. rewrite U2, D. apply O. intros Z. rewrite Z in X. now destruct g.
    + assert (X1 : nth_error (w_gens w1) g = Some x) by exact X.
      destruct (close_gens w1 g x X1 O1) as (_ & _ & E1). rewrite E1.
      split; [now apply close_one|]. split; [exact L1|]. split; [exact F1|]. intros r <-. cbn. destruct e; auto. now elim (P2 b hashed).
Qed.

Lemma sim_same s w s' w' : sim s w -> one_gen w' -> length (w_shmacs w') = length (w_shmacs w) ->
  (forall i h', nth_error (w_shmacs w') i = Some h' -> exists h, nth_error (w_shmacs w) i = Some h /\ s_finalized h' = s_finalized h) ->
  (forall t p, j_tasks s' t = Some p -> j_tasks s t = Some p /\ forall g, ~ feeds p g) ->
  (forall i, j_claimed s' i = j_claimed s i) -> j_world s' = w' -> sim s' w'.
Proof. intros S O L F Ta Cl E. eapply sim_still; eauto; rewrite E; auto. apply fixed_refl. Qed.

(** A Feed of a synchronous generator. *)
Lemma at_once_feed_sim s w g block n : sim s w -> b_mode (w_bundle (j_world s)) <> Some Async ->
  matched w n (j_at_once H c (Feed g block) s).
Proof.
  intros S Md. assert (Ef : b_mode (w_bundle (j_world s)) = b_mode (w_bundle w)).
  { pose proof (m_fixed _ _ S) as F. unfold fixed in F. now rewrite F. }
  assert (NF : ~ flying s). { intros (t & p & g' & E & F). destruct (flying_gens s w t p g' S E F) as (_ & M & _). congruence. }
  assert (NF' : forall t p, j_tasks s t = Some p -> j_tasks s t = Some p /\ forall g, ~ feeds p g).
  { intros t p E. split; [exact E|]. intros g' F. apply NF. now exists t, p, g'. }
  pose proof (feed_keeps w g block (m_one _ _ S)) as (O & L & Fi & Aw).
  unfold j_at_once. destruct (w_gens w) as [|y l] eqn:G.
  - assert (K : forall v, w_gens v = [] -> step H c v (Feed g block) = (NoSuchObject, v)).
    { intros v V. cbn [step]. rewrite V. now destruct g. }
    rewrite (K (j_world s)) by (rewrite (m_gens _ _ S); exact G).
    apply (matched_call w n _ _ _ w); [now apply K|reflexivity|]. destruct s. exact S.
  - destruct (nth_error (w_gens w) g) as [x|] eqn:X.
    + destruct (g_live x) eqn:Li.
      * assert (Ew : j_world s = w).
        { apply world_eq; [|apply S|apply S]. apply (m_quiet _ _ S); [|right; eauto]. intros Hh. now apply NF, flying_hashing. }
        rewrite Ew. destruct (step H c w (Feed g block)) as [r w'] eqn:K. cbn [fst snd] in *.
        apply (matched_call w n _ _ _ w'); [exact K|auto|]. apply (sim_same s w); auto.
      * assert (K : forall v, nth_error (w_gens v) g = Some x -> step H c v (Feed g block) = (Raised StopIter, v)).
        { intros v V. cbn [step]. now rewrite V, Li. }
        rewrite (K (j_world s)) by (rewrite (m_gens _ _ S); exact X).
        apply (matched_call w n _ _ _ w); [now apply K|reflexivity|]. destruct s. exact S.
    + assert (K : forall v, nth_error (w_gens v) g = None -> step H c v (Feed g block) = (NoSuchObject, v)).
      { intros v V. cbn [step]. now rewrite V. }
      rewrite (K (j_world s)) by (rewrite (m_gens _ _ S); exact X).
      apply (matched_call w n _ _ _ w); [now apply K|reflexivity|]. destruct s. exact S.
Qed.

(** A Feed of an asynchronous generator begins. *)
Lemma begin_feed_sim s w t g block n : sim s w -> j_tasks s t = None -> b_mode (w_bundle (j_world s)) = Some Async ->
  matched w n (j_begin_feed t g block s).
Proof.
  intros S Et Md. assert (Ef : b_mode (w_bundle (j_world s)) = b_mode (w_bundle w)).
  { pose proof (m_fixed _ _ S) as F. unfold fixed in F. now rewrite F. }
  unfold j_begin_feed. rewrite (m_gens _ _ S), (m_shmacs _ _ S).
  destruct (nth_error (w_gens w) g) as [x|] eqn:X.
  2:{ apply (matched_call w n _ _ _ w); [cbn [step]; now rewrite X|reflexivity|exact S]. }
  destruct (j_running s g) eqn:R; [now apply matched_away|].
  assert (NF : ~ flying s) by (eapply still; eauto).
  destruct (g_live x) eqn:Li; cbn [negb].
  2:{ apply (matched_call w n _ _ _ w); [cbn [step]; now rewrite X, Li|reflexivity|exact S]. }
  destruct (nth_error (w_shmacs w) (g_shmac x)) as [h|] eqn:Sh.
  2:{ apply (matched_call w n _ _ _ w); [cbn [step]; now rewrite X, Li, Sh|reflexivity|exact S]. }
  assert (Ew : j_world s = w).
  { apply world_eq; [|apply S|apply S]. apply (m_quiet _ _ S); [|right; eauto]. intros Hh. now apply NF, flying_hashing. }
  destruct (negb (g_first x) && s_finalized h) eqn:B.
  - apply (matched_call w n _ _ _ (close g w)).
    + rewrite (feed_step w g block x h X Li Sh). unfold pieces. rewrite B. f_equal. now destruct w.
    + reflexivity.
    + destruct (close_gens w g x X (m_one _ _ S)) as (_ & _ & C3).
      apply (sim_same s w); cbn [j_set_world j_tasks j_claimed j_world]; rewrite ?C3, ?Ew; eauto.
      * apply close_one, S.
      * intros u p E. split; [exact E|]. intros g' F. apply NF. now exists u, p, g'.
  - apply matched_none.
    assert (N0 : forall u p g', j_tasks s u = Some p -> feeds p g' -> False) by (intros u p g' E F; apply NF; now exists u, p, g').
    constructor; cbn [j_set_task j_set_running j_world j_tasks j_claimed j_running]; try apply S.
    + intros u p. destruct (Nat.eqb u t).
      * intros [= <-]. cbn. rewrite Nat.eqb_refl. split; [reflexivity|]. split; [congruence|]. exists x, h.
        split; [exact X|]. split; [exact Li|]. split; [exact Sh|]. split; [reflexivity|]. intros Fx Fh. rewrite Fx, Fh in B. discriminate.
      * intros E. pose proof (m_tasks _ _ S u p E) as G. destruct p; cbn in *; auto; exfalso; eapply N0; [exact E|reflexivity|exact E|reflexivity].
    + intros u u' p p' g1 g2. destruct (Nat.eqb_spec u t) as [E1|]; destruct (Nat.eqb_spec u' t) as [E2|]; intros A B' F1 F2.
      * congruence.
      * now elim (N0 u' p' g2).
      * now elim (N0 u p g1).
      * now elim (N0 u p g1).
    + intros _. now rewrite Ew.
    + intros _ _. now rewrite Ew.
Qed.

(** The only block under way is that of the task. *)
Lemma others s w t p g : sim s w -> j_tasks s t = Some p -> feeds p g ->
  forall u q, (if Nat.eqb u t then None else j_tasks s u) = Some q -> j_tasks s u = Some q /\ forall g', ~ feeds q g'.
Proof.
  intros S E F u q. destruct (Nat.eqb_spec u t) as [|N]; [discriminate|]. intros Eu. split; [exact Eu|].
  intros g' F'. apply N. eapply (m_unique _ _ S); eauto.
Qed.

(** The block's key is drawn. *)
Lemma draw_sim s w t g block key n : sim s w -> j_tasks s t = Some (Waiting g block key) ->
  matched w n (j_draw H c t g block key (j_set_task s t None)).
Proof.
  intros S E.   pose proof (m_tasks _ _ S t _ E) as (R & Md & x & h & X & Li & Sh & -> & Nf).
  pose proof (others s w t _ g S E eq_refl) as Ot.
  assert (NH : ~ hashing s).
  { intros (u & g' & bl & out & hs & Eu). assert (u = t) by (eapply (m_unique _ _ S); [exact Eu|exact E|reflexivity|reflexivity]). congruence. }
  assert (Ew : j_world s = w) by (apply world_eq; [apply (m_quiet _ _ S NH); right; eauto|apply S|apply S]).
  unfold j_draw. cbn [j_set_task j_world]. rewrite Ew, X, Sh.
  pose proof (draw_fixed (g_mode x) (g_first x) (w_bundle w) h block (s_cur h ++ s_prev h)) as Df.
  pose proof (feed_keeps w g block (m_one _ _ S)) as (O & L & Fi & Aw).
  assert (C : forall e b, draw H c (g_mode x) (g_first x) (w_bundle w) h block (s_cur h ++ s_prev h) = Fails e b ->
      pieces (g_mode x) (g_first x) (w_bundle w) h block = Fails e b).
  { intros e b Dr. unfold pieces. destruct (negb (g_first x) && s_finalized h) eqn:B; [|exact Dr].
    apply andb_prop in B. destruct B as [B1 B2]. apply Bool.negb_true_iff in B1. rewrite B1 in Dr. now elim (Nf B1 B2 e b). }
  destruct (draw H c (g_mode x) (g_first x) (w_bundle w) h block (s_cur h ++ s_prev h)) as [e b|b out hs] eqn:Dr.
  - specialize (C e b eq_refl). pose proof (feed_step w g block x h X Li Sh) as K. rewrite C in K. rewrite K in *. cbn [fst snd] in *.
    apply (matched_call w n _ _ _ (close g (set_bundle w b))); [exact K|auto|].
    apply (sim_same s w); auto; cbn [j_set_running j_set_world j_set_task j_tasks j_claimed j_world]; auto.
  - apply matched_none. destruct Df as (Df1 & Df2 & Df3).
    constructor; cbn [j_set_running j_set_world j_set_task j_tasks j_claimed j_world j_running set_bundle w_bundle w_shmacs w_gens]; auto; try apply S.
    + intros u p. destruct (Nat.eqb_spec u t) as [->|Nu].
      * intros [= <-]. cbn. split; [exact R|]. split; [exact Md|]. eauto 8.
      * intros Eu. pose proof (m_tasks _ _ S u p Eu) as G.
        assert (NF : forall g', ~ feeds p g') by (intros g' F; apply Nu; eapply (m_unique _ _ S); eauto; reflexivity).
        destruct p as [g0 bl0 k0|g0 bl0 o0 h0|q|i]; cbn in *; auto; now elim (NF g0).
    + intros u u' p p' g1 g2. destruct (Nat.eqb_spec u t) as [->|Nu]; destruct (Nat.eqb_spec u' t) as [->|Nu']; intros A B F1 F2; auto.
      * elim Nu'. eapply (m_unique _ _ S); [exact B|exact E|exact F2|reflexivity].
      * elim Nu. eapply (m_unique _ _ S); [exact A|exact E|exact F1|reflexivity].
      * eapply (m_unique _ _ S); eauto.
    + intros Q. destruct (g_first x) eqn:Fx; [|now apply Df3]. elim (Q t g). split; cbn; [rewrite Nat.eqb_refl; eauto|].
      eauto.
    + intros Q. elim Q. exists t, g, block, out, hs. cbn. now rewrite Nat.eqb_refl.
Qed.

(** The block is hashed. *)
Lemma hash_sim s w t g block out hashed n : sim s w -> j_tasks s t = Some (Hashing g block out hashed) ->
  matched w n (j_hash H g block out hashed (j_set_task s t None)).
Proof.
  intros S E. pose proof (m_tasks _ _ S t _ E) as (R & Md & x & h & X & Li & Sh & Dr).
  pose proof (others s w t _ g S E eq_refl) as Ot.
  unfold j_hash. cbn [j_set_task j_set_running j_world]. rewrite (m_gens _ _ S), (m_shmacs _ _ S), X, Sh.
  pose proof (feed_step w g block x h X Li Sh) as K.
  pose proof (feed_keeps w g block (m_one _ _ S)) as (O & L & Fi & Aw).
  pose proof (draw_fixed (g_mode x) (g_first x) (w_bundle w) h block (s_cur h ++ s_prev h)) as Df. rewrite Dr in Df.
  unfold pieces in K. destruct (s_finalized h) eqn:Fh.
  - assert (Fx : g_first x = false).
    { destruct (g_first x) eqn:Fx; [|reflexivity]. exfalso. unfold draw, draw_first in Dr. rewrite Fh in Dr.
      destruct (x0 <- match g_mode x with Encryption => _ | Decryption => _ end ;; _); discriminate. }
    rewrite Fx in K. cbn [negb andb] in K.
    apply (matched_call w n _ _ _ (close g w)); [rewrite K; f_equal; now destruct w|reflexivity|].
    destruct (close_gens w g x X (m_one _ _ S)) as (C1 & C2 & C3).
    assert (One : one_gen (j_world s)).
    { apply (one_gen_eq w); [apply S| |apply S]. now destruct Df as (_ & -> & _). }
    assert (Xs : nth_error (w_gens (j_world s)) g = Some x) by (now rewrite (m_gens _ _ S)).
    destruct (close_gens (j_world s) g x Xs One) as (D1 & D2 & D3).
    apply (sim_still s w); cbn [j_set_running j_set_world j_set_task j_tasks j_claimed j_world]; auto.
    + rewrite C3, D3. apply S.
    + congruence.
    + rewrite C2, D2. apply S.
    + apply close_one, S.
    + rewrite C2, D2. now apply Df.
    + intros Z. now apply (dead_quiet w g x X (m_one _ _ S)) in Z.
    + rewrite C3. eauto.
    + now rewrite C3.
  - rewrite Bool.andb_false_r, Dr in K. 
    assert (Es : forall b' h', set_shmac (set_bundle (j_world s) b') (g_shmac x) h' = set_shmac (set_bundle w b') (g_shmac x) h').
    { intros b' h'. unfold set_shmac, set_bundle. cbn. now rewrite (m_shmacs _ _ S), (m_gens _ _ S). }
    destruct (update_mac H (w_bundle (j_world s), h) hashed) as [b' h']. cbv zeta in K. rewrite Es.
    destruct out as [o|e]; rewrite K in *; cbn [fst snd] in *; (eapply matched_call; [exact K|now apply Aw|]);
      (apply (sim_same s w); auto; cbn [j_set_running j_set_world j_set_task j_tasks j_claimed j_world]; auto).
Qed.

(** The task is cancelled. *)
Lemma cancel_sim s w t : sim s w -> (forall g, ~ half_hashed s t g) -> matched w 1 ([], j_cancel t s).
Proof.
  intros S Hh. unfold j_cancel. destruct (j_tasks s t) as [p|] eqn:E; [|now apply matched_none].
  assert (C : forall g, feeds p g -> b_mac (w_bundle (j_world s)) = b_mac (w_bundle w) ->
    matched w 1 ([], j_set_running (j_set_world (j_set_task s t None) (close g (j_world (j_set_task s t None)))) g false)).
  { intros g F Mc. pose proof (others s w t _ g S E F) as Ot.
    destruct (flying_gens s w t p g S E F) as (R & Md & Z & x & h & X & Li & Sh).
    exists [Close g], (close g w). split; [cbn; lia|]. split; [reflexivity|]. cbn [snd j_set_task j_world].
    destruct (close_gens w g x X (m_one _ _ S)) as (C1 & C2 & C3).
    assert (One : one_gen (j_world s)).
    { apply (one_gen_eq w); [apply S| |apply S]. pose proof (m_fixed _ _ S) as Fx. unfold fixed in Fx. now rewrite Fx. }
    assert (Xs : nth_error (w_gens (j_world s)) g = Some x) by (now rewrite (m_gens _ _ S)).
    destruct (close_gens (j_world s) g x Xs One) as (D1 & D2 & D3).
    apply (sim_still s w); cbn [j_set_running j_set_world j_set_task j_tasks j_claimed j_world]; auto.
    + rewrite C3, D3. apply S.
    + congruence.
    + rewrite C2, D2. apply S.
    + apply close_one, S.
    + now rewrite C2, D2.
    + intros Q. now apply (dead_quiet w g x X (m_one _ _ S)) in Q.
    + rewrite C3. eauto.
    + now rewrite C3. }
  assert (NH : forall g, feeds p g -> b_mac (w_bundle (j_world s)) = b_mac (w_bundle w)).
  { intros g F. apply (m_mac _ _ S). intros u g' Hu. destruct Hu as [(bl & out & hs & Eu) Fu].
    assert (u = t) by (eapply (m_unique _ _ S); [exact Eu|exact E|reflexivity|exact F]). subst u.
    apply (Hh g'). split; eauto. }
  destruct p as [g bl k|g bl o h|q|i].
  - apply C; [reflexivity|]. now apply (NH g).
  - apply C; [reflexivity|]. now apply (NH g).
  - apply matched_none. now apply (sim_free s w t _ S E).
  - apply matched_none. now apply (sim_free s w t _ S E).
Qed.

(** ** Every action corresponds to turns *)
Lemma half_free s t p u g : j_tasks s t = Some p -> (forall g, ~ feeds p g) -> half_hashed (j_set_task s t None) u g -> half_hashed s u g.
Proof.
  intros E N [(bl & out & hs & Eu) F]. split; [|exact F]. cbn in Eu. destruct (Nat.eqb u t); [discriminate|]. eauto.
Qed.
Lemma doomed_free s t u : doomed H c (j_set_task s t None) u -> doomed H c s u.
Proof.
  intros (g & bl & k & e & E & F). exists g, bl, k, e. split; [|exact F]. cbn in E. now destruct (Nat.eqb u t).
Qed.

Lemma act_sim s w a : sim s w -> ~ disturbs H c s a -> matched w (cancellations [a]) (j_act H c a s).
Proof.
  intros S D. destruct a as [t k asynchronous|t|t]; cbn [j_act].
  - unfold j_make. destruct (j_tasks s t) as [p|] eqn:E; [now apply matched_none|].
    assert (A : (forall g block, k <> Feed g block) -> (forall i, k <> Finalize i) -> matched w (cancellations [Make t k asynchronous]) (j_at_once H c k s)).
    { intros N1 N2. apply at_once_sim; auto; try (intros; now elim (N2 i)). intros u g Hh. split; [|exact N2]. intros ->. apply D. left. exists u, g. eauto 8. }
    assert (Q : match k with BlockId _ _ _ _ | TestBlockId _ _ _ _ => True | _ => False end ->
      matched w (cancellations [Make t k asynchronous]) (if asynchronous then ([], j_set_task s t (Some (Asks k))) else j_at_once H c k s)).
    { intros Qk. destruct asynchronous; [|apply A; intros; intros ->; contradiction]. apply matched_none. apply sim_add; auto. }
    destruct k; try (apply A; discriminate); try (apply Q; exact I).
    + destruct (b_mode (w_bundle (j_world s))) as [[|]|] eqn:Md; try (now apply begin_feed_sim); apply at_once_feed_sim; auto; congruence.
    + unfold j_begin_finalize. rewrite (m_shmacs _ _ S). destruct (nth_error (w_shmacs w) i) as [h|] eqn:Sh.
      2:{ apply (matched_call w _ _ _ _ w); [cbn [step]; now rewrite Sh|reflexivity|exact S]. }
      destruct (j_claimed s i) eqn:Ci; [now apply matched_away|].
      assert (S' : sim (j_claim s i) w) by (apply sim_claim; auto; congruence).
      destruct asynchronous.
      * apply matched_none. apply sim_add; auto. cbn. now rewrite Nat.eqb_refl.
      * apply at_once_sim; auto; try discriminate.
        -- intros u g Hh. exfalso. apply D. left. exists u, g. split; [exact Hh|]. left. reflexivity.
        -- intros j [= <-]. cbn. now rewrite Nat.eqb_refl.
        -- intros j u _ Do. apply D. right. exists u. split; [exact Do|reflexivity].
  - unfold j_resume. destruct (j_tasks s t) as [p|] eqn:E; [|now apply matched_none].
    destruct p as [g bl key|g bl out hs|k|i].
    + now apply draw_sim.
    + now apply hash_sim.
    + pose proof (m_tasks _ _ S t _ E) as G. cbn in G.
      assert (S' : sim (j_set_task s t None) w) by (apply (sim_free s w t _ S E); auto).
      apply at_once_sim; auto; try (intros; intros ->; contradiction).
      * intros u g _. split; intros; intros ->; contradiction.
      * intros i ->. contradiction.
      * intros i u ->. contradiction.
    + pose proof (m_tasks _ _ S t _ E) as G. cbn in G.
      assert (S' : sim (j_set_task s t None) w) by (apply (sim_free s w t _ S E); auto).
      apply at_once_sim; auto; try discriminate.
      * intros u g Hh. exfalso. apply D. left. exists u, g. split; [apply (half_free s t _ u g E); auto|]. left. cbn. eauto.
      * intros j [= <-]. exact G.
      * intros j u _ Do. apply D. right. exists u. split; [now apply (doomed_free s t)|]. cbn. eauto.
  - apply cancel_sim; auto. intros g Hh. apply D. left. exists t, g. auto.
Qed.

Lemma closes_app l l' : closes (l ++ l') = (closes l + closes l')%nat.
Proof. unfold closes. now rewrite filter_app, app_length. Qed.
Lemma one_app w l l' : one_at_a_time H c w (l ++ l') =
  (fst (one_at_a_time H c w l) ++ fst (one_at_a_time H c (snd (one_at_a_time H c w l)) l'),
   snd (one_at_a_time H c (snd (one_at_a_time H c w l)) l')).
Proof.
  revert w. induction l as [|[k|g] l IH]; intros w; cbn.
  - now destruct (one_at_a_time H c w l').
  - destruct (step H c w k) as [r w']. rewrite IH. destruct (one_at_a_time H c w' l) as [rs w'']. reflexivity.
  - apply IH.
Qed.

Lemma run_sim b l : undisturbed H c b l -> exists turns w, (closes turns <= cancellations l)%nat /\
  one_at_a_time H c (unused b) turns = (filter (fun x => negb (turned_away x)) (j_ended H c b l), w) /\ sim (j_after H c b l) w.
Proof.
  unfold j_ended, j_after. induction l as [|a l IH] using rev_ind; intros U.
  - exists [], (unused b). split; [cbn; lia|]. split; [reflexivity|apply sim_fresh].
  - destruct IH as (turns & w & C & R & S). { intros l1 x l2 ->. apply (U l1 x (l2 ++ [a])). now rewrite <- app_assoc. }
    assert (D : ~ disturbs H c (snd (j_run H c l (j_fresh b))) a) by (exact (U l a [] eq_refl)).
    destruct (act_sim _ w a S D) as (turns' & w' & C' & R' & S').
    exists (turns ++ turns'), w'. rewrite j_run_snoc. cbn [fst snd]. split; [|split; [|exact S']].
    + unfold cancellations in *. rewrite closes_app, filter_app, app_length. lia.
    + rewrite one_app, R. cbn [fst snd]. rewrite R'. cbn [fst snd]. now rewrite filter_app.
Qed.
End Dual.

(** ** Calls other than Feed do not see the generators *)
Definition alike (w w' : world) : Prop :=
  w_bundle w' = w_bundle w /\ w_shmacs w' = w_shmacs w /\ length (w_gens w') = length (w_gens w).
Lemma alike_step H c w w' k : (forall g block, k <> Feed g block) -> alike w w' ->
  fst (step H c w' k) = fst (step H c w k) /\ alike (snd (step H c w k)) (snd (step H c w' k)).
Proof.
  destruct w as [b sh ge], w' as [b' sh' ge']. unfold alike. cbn [w_bundle w_shmacs w_gens]. intros N (-> & -> & E).
  destruct k; cbn [step w_bundle w_shmacs w_gens]; try (now elim (N g block)).
  - destruct (set_run_mode r b); cbn; auto.
  - destruct (make_shmac H c b); cbn; auto.
  - destruct (nth_error sh i) as [s|]; [|cbn; auto].
    destruct (match m with Encryption => for_encryption b s | Decryption => for_decryption b s end); cbn; auto.
  - destruct (nth_error sh i) as [s|]; [|cbn; auto]. destruct (register_shmac b) as [b1|]; [|cbn; auto].
    destruct (check_modes m r (b1, s)); cbn; auto. rewrite !app_length, E. auto.
  - destruct (nth_error sh i); cbn; auto.
  - destruct (nth_error sh i); cbn; auto.
  - destruct (nth_error sh i) as [s|]; [|cbn; auto]. destruct (finalize H c b s) as [[]|]; cbn; auto.
  - destruct (nth_error sh i); cbn; auto.
  - destruct (nth_error sh i); cbn; auto.
Qed.
Lemma alike_close w g : alike w (close g w).
Proof.
  unfold close. destruct (nth_error (w_gens w) g); [|repeat split]. repeat split. cbn. apply replace_nth_length.
Qed.
Lemma alike_trans a b d : alike a b -> alike b d -> alike a d.
Proof. unfold alike. intros (A1 & A2 & A3) (B1 & B2 & B3). repeat split; congruence. Qed.

(** The replies fix the calls; without Feed they do not depend on the closings in between. *)
Lemma replies_calls H c turns w : closes turns = 0%nat ->
  turns = map Call (map fst (fst (one_at_a_time H c w turns))).
Proof.
  revert w. induction turns as [|[k|g] l IH]; intros w E; [reflexivity| |discriminate E]. cbn [one_at_a_time].
  destruct (step H c w k) as [r w']. specialize (IH w' E). destruct (one_at_a_time H c w' l) as [rs w'']. cbn in *. now rewrite <- IH.
Qed.
Lemma replies_alike H c turns w w' : alike w w' ->
  (forall g block, ~ In (Call (Feed g block)) turns) ->
  fst (one_at_a_time H c w' turns) =
  fst (one_at_a_time H c w (map Call (map fst (fst (one_at_a_time H c w' turns))))).
Proof.
  revert w w'. induction turns as [|[k|g] l IH]; intros w w' A N; [reflexivity| |].
  - cbn [one_at_a_time]. destruct (alike_step H c w w' k) as [E1 E2]; [intros g block ->; apply (N g block); now left|exact A|].
    destruct (step H c w' k) as [r w1'] eqn:K'. cbn [fst snd] in E1, E2.
    assert (N' : forall g block, ~ In (Call (Feed g block)) l) by (intros g block I; apply (N g block); now right).
    specialize (IH (snd (step H c w k)) w1' E2 N'). destruct (one_at_a_time H c w1' l) as [rs w2']. cbn [fst map one_at_a_time].
    destruct (step H c w k) as [r1 w1]. cbn [fst snd] in *. subst r1. destruct (one_at_a_time H c w1 (map Call (map fst rs))) as [rs1 w2].
    cbn [fst] in *. now rewrite IH.
  - cbn [one_at_a_time]. apply IH; [|intros g' block I; apply (N g' block); now right]. eapply alike_trans; [exact A|apply alike_close].
Qed.
Lemma asked H c turns w k : In (Call k) turns -> In k (map fst (fst (one_at_a_time H c w turns))).
Proof.
  revert w. induction turns as [|[k'|g] l IH]; intros w I; [destruct I| |].
  - cbn [one_at_a_time]. destruct (step H c w k') as [r w']. specialize (IH w').
    destruct (one_at_a_time H c w' l) as [rs w'']. cbn in *. destruct I as [[= ->]|I]; auto.
  - destruct I as [I|I]; [discriminate I|]. apply IH, I.
Qed.

(** ** Tags *)
Definition dull (w w' : world) : Prop := length (w_shmacs w') = length (w_shmacs w) /\
  forall j h', nth_error (w_shmacs w') j = Some h' -> exists h, nth_error (w_shmacs w) j = Some h /\
    s_result h' = s_result h /\ s_finalized h' = s_finalized h.
Lemma dull_eq w w' : w_shmacs w' = w_shmacs w -> dull w w'.
Proof. intros E. split; rewrite E; eauto. Qed.
Lemma dull_tagged i t w w' : dull w w' -> tagged i t w -> tagged i t w'.
Proof.
  intros [L D] (h & E & R & F). destruct (nth_error (w_shmacs w') i) as [h'|] eqn:E'.
  - destruct (D i h' E') as (h0 & E0 & A & B). exists h'. split; [exact E'|]. split; congruence.
  - exfalso. assert (i < length (w_shmacs w))%nat by (apply nth_error_Some; congruence). apply nth_error_None in E'. lia.
Qed.
Lemma dull_sound w w' : dull w w' -> sound_results w -> sound_results w'.
Proof. intros [_ D] S i h' E R. destruct (D i h' E) as (h & E0 & A & B). rewrite B. apply (S i h E0). congruence. Qed.
Lemma close_shmacs g w : w_shmacs (close g w) = w_shmacs w.
Proof. unfold close. now destruct (nth_error (w_gens w) g). Qed.

Definition tagless (l : list (call * reply)) : Prop := forall x, In x l -> forall i t, ~ shows i t x.
Lemma tagless_nil : tagless [].
Proof. intros x []. Qed.
Lemma tagless_feed g block r : tagless [(Feed g block, r)].
Proof. intros x [<-|[]] i t [X|[X|X]]; discriminate. Qed.
Lemma tagless_other k r : (forall t, r <> Got t) -> r <> Done -> tagless [(k, r)].
Proof. intros N D x [<-|[]] i t [X|[X|X]]; [injection X as _ ->; now apply (N t)|injection X as _ ->; now apply (N t)|injection X as _ ->; now apply D]. Qed.

Lemma prefix_shown f i t l1 : forall e l2, tagless f -> e ++ f = l1 ++ (Finalize i, Got t) :: l2 ->
  exists m, e = l1 ++ (Finalize i, Got t) :: m.
Proof.
  induction l1 as [|y l1 IH]; intros e l2 R E.
  - destruct e as [|z e]; cbn in E; [|injection E as -> _; now exists e]. exfalso. subst f.
    apply (R (Finalize i, Got t) (or_introl eq_refl) i t). now left.
  - destruct e as [|z e]; cbn in E.
    + exfalso. subst f. apply (R (Finalize i, Got t)) with (i := i) (t := t); [|now left]. right. apply in_or_app. right. now left.
    + injection E as -> E. destruct (IH e l2 R E) as [m ->]. now exists m.
Qed.

Lemma j_cases H c s a :
  (exists k r, step H c (j_world s) k = (r, j_world (snd (j_act H c a s))) /\ fst (j_act H c a s) = [(k, r)]) \/
  (tagless (fst (j_act H c a s)) /\ dull (j_world s) (j_world (snd (j_act H c a s)))).
Proof.
  assert (A : forall k s', j_world s' = j_world s ->
    exists k' r, step H c (j_world s) k' = (r, j_world (snd (j_at_once H c k s'))) /\ fst (j_at_once H c k s') = [(k', r)]).
  { intros k s' E. unfold j_at_once. rewrite E. destruct (step H c (j_world s) k) as [r w] eqn:K. exists k, r. auto. }
  assert (Z : forall w, w_shmacs w = w_shmacs (j_world s) -> dull (j_world s) w) by (intros w; apply dull_eq).
  destruct a as [t k asynchronous|t|t]; cbn [j_act].
  - unfold j_make. destruct (j_tasks s t); [right; split; [apply tagless_nil|apply Z; reflexivity]|].
    destruct k; try (left; now apply A);
      try (destruct asynchronous; [right; split; [apply tagless_nil|apply Z; reflexivity]|left; now apply A]).
    + assert (B : tagless (fst (j_begin_feed t g block s)) /\ dull (j_world s) (j_world (snd (j_begin_feed t g block s)))).
      { unfold j_begin_feed. destruct (nth_error (w_gens (j_world s)) g) as [x|]; [|split; [apply tagless_feed|now apply Z]].
        destruct (j_running s g); [split; [apply tagless_feed|now apply Z]|].
        destruct (negb (g_live x)); [split; [apply tagless_feed|now apply Z]|].
        destruct (nth_error (w_shmacs (j_world s)) (g_shmac x)) as [h|]; [|split; [apply tagless_feed|now apply Z]].
        destruct (negb (g_first x) && s_finalized h); (split; [|apply Z; cbn; try apply close_shmacs; reflexivity]);
          [apply tagless_feed|apply tagless_nil]. }
      destruct (b_mode (w_bundle (j_world s))) as [[|]|]; auto.
    + unfold j_begin_finalize. destruct (nth_error (w_shmacs (j_world s)) i) as [h|]; [|right; split; [apply tagless_other; discriminate|now apply Z]].
      destruct (j_claimed s i); [right; split; [apply tagless_other; discriminate|now apply Z]|].
      destruct asynchronous; [right; split; [apply tagless_nil|apply Z; reflexivity]|left; now apply A].
  - unfold j_resume. destruct (j_tasks s t) as [p|]; [|right; split; [apply tagless_nil|apply Z; reflexivity]].
    destruct p as [g bl key|g bl out hs|k|i]; [right|right|left; now apply A|left; now apply A].
    + unfold j_draw. cbn [j_set_task j_world]. destruct (nth_error (w_gens (j_world s)) g) as [x|]; [|split; [apply tagless_feed|now apply Z]].
      destruct (nth_error (w_shmacs (j_world s)) (g_shmac x)) as [h|]; [|split; [apply tagless_feed|now apply Z]].
      destruct (draw H c _ _ _ _ _ _); cbn; (split; [|apply Z; rewrite ?close_shmacs; reflexivity]); [apply tagless_feed|apply tagless_nil].
    + unfold j_hash. cbn [j_set_task j_set_running j_world]. destruct (nth_error (w_gens (j_world s)) g) as [x|]; [|split; [apply tagless_feed|now apply Z]].
      destruct (nth_error (w_shmacs (j_world s)) (g_shmac x)) as [h|] eqn:Sh; [|split; [apply tagless_feed|now apply Z]].
      destruct (s_finalized h) eqn:F; [split; [apply tagless_feed|apply Z; cbn; apply close_shmacs]|].
      assert (D : forall b' h', update_mac H (w_bundle (j_world s), h) hs = (b', h') ->
        dull (j_world s) (set_shmac (set_bundle (j_world s) b') (g_shmac x) h')).
      { intros b' h' E. split; cbn; [apply replace_nth_length|]. intros j q. rewrite nth_error_replace.
        destruct (Nat.eqb_spec (g_shmac x) j) as [<-|]; [|eauto]. rewrite Sh. intros [= <-]. exists h.
        cbn in E. injection E as _ <-. auto. }
      destruct (update_mac H (w_bundle (j_world s), h) hs) as [b' h'] eqn:E. specialize (D b' h' eq_refl).
      destruct out as [o|e]; (split; [apply tagless_feed|]); cbn [snd j_set_world j_world]; [exact D|].
      destruct D as [D1 D2]. split; rewrite close_shmacs; auto.
  - right. split; [apply tagless_nil|]. cbn [snd]. unfold j_cancel. destruct (j_tasks s t) as [p|]; [|now apply Z].
    destruct p; cbn; apply Z; rewrite ?close_shmacs; reflexivity.
Qed.

Lemma j_tags H c b l :
  sound_results (j_world (j_after H c b l)) /\
  (forall i t x, In x (j_ended H c b l) -> shows i t x -> tagged i t (j_world (j_after H c b l))) /\
  (forall i t l1 l2, j_ended H c b l = l1 ++ (Finalize i, Got t) :: l2 -> forall t', ~ In (Finalize i, Got t') l1).
Proof.
  unfold j_ended, j_after. induction l as [|a l IH] using rev_ind.
  - split; [apply sound_unused|]. split; [intros i t x []|]. intros i t l1 l2 E. destruct l1; discriminate.
  - destruct IH as (I1 & I2 & I3). rewrite j_run_snoc. cbn [fst snd]. set (s := snd (j_run H c l (j_fresh b))) in *.
    set (e := fst (j_run H c l (j_fresh b))) in *.
    destruct (j_cases H c s a) as [(k & r & K & R)|[R D]].
    + rewrite R. pose proof (f_equal snd K) as K2. pose proof (f_equal fst K) as K1. cbn [fst snd] in K1, K2. rewrite <- K2.
      split; [now apply sound_step|]. split.
      * intros i t x I S. apply in_app_or in I. destruct I as [I|[<-|[]]].
        -- apply tagged_step. eapply I2; eauto.
        -- exact (proj1 (shown_tag H c i t (j_world s) k r I1 K1 S)).
      * intros i t l1 l2 E t'.
        destruct l2 as [|y l2] using rev_ind.
        -- apply app_inj_tail in E. destruct E as [E1 E2]. injection E2 as -> ->. intros I. rewrite <- E1 in I.
           assert (Sh : shows i t (Finalize i, Got t)) by now left.
           apply (proj2 (shown_tag H c i t (j_world s) (Finalize i) (Got t) I1 K1 Sh) eq_refl t').
           apply (I2 i t' _ I). now left.
        -- change (l1 ++ (Finalize i, Got t) :: l2 ++ [y]) with (l1 ++ ((Finalize i, Got t) :: l2) ++ [y]) in E.
           rewrite app_assoc in E. apply app_inj_tail in E. destruct E as [E1 _]. now apply (I3 i t l1 l2).
    + split; [now apply (dull_sound (j_world s))|]. split.
      * intros i t x I S. apply in_app_or in I. destruct I as [I|I]; [|now elim (R x I i t)].
        apply (dull_tagged i t (j_world s)); [exact D|]. eapply I2; eauto.
      * intros i t l1 l2 E t' I.
        assert (X : exists m, e = l1 ++ (Finalize i, Got t) :: m).
        { eapply prefix_shown; eauto. }
        destruct X as [m X]. now apply (I3 i t l1 m X t').
Qed.

(** ** Undisturbed schedules *)
Definition gentle (a : action) : Prop :=
  match a with
  | Make _ NewShmac _ => False
  | Make _ (Finalize _) asynchronous => asynchronous = true
  | Cancel _ => False
  | _ => True
  end.
Lemma idle_undisturbed H c s a : (forall t, j_tasks s t = None) -> ~ disturbs H c s a.
Proof.
  intros N [(t & g & [(bl & out & hs & E) _] & _)|(t & (g & bl & k & e & E & _) & _)]; rewrite N in E; discriminate.
Qed.
Lemma undisturbed_snoc H c b l a : undisturbed H c b l -> ~ disturbs H c (j_after H c b l) a -> undisturbed H c b (l ++ [a]).
Proof.
  intros U D l1 x l2 E. destruct l2 as [|y l2 _] using rev_ind.
  - apply app_inj_tail in E. now destruct E as [<- <-].
  - change (l1 ++ x :: l2 ++ [y]) with (l1 ++ (x :: l2) ++ [y]) in E. rewrite app_assoc in E. apply app_inj_tail in E.
    destruct E as [E _]. now apply (U l1 x l2).
Qed.
Lemma undisturbed_gentle H c b l a : undisturbed H c b l -> gentle a -> (forall t i, j_tasks (j_after H c b l) t <> Some (Finalizes i)) ->
  undisturbed H c b (l ++ [a]).
Proof.
  intros U G N. apply undisturbed_snoc; [exact U|].
  assert (M : ~ makes_tag (j_after H c b l) a).
  { destruct a as [t k asy|t|t]; cbn; [destruct k; cbn in G; try (now intros []); congruence| |auto]. intros (i & E). now apply (N t i). }
  intros [(t & g & _ & [X|[(u & asy & ->)| ->]])|(t & _ & X)]; auto.
Qed.

(** ** Busy generators *)

(** A generator is busy only with the block of a task. *)
Definition j_held (s : joint) : Prop := forall g, j_running s g = true -> exists u p, j_tasks s u = Some p /\ feeds p g.
Lemma j_held_act H c s a : j_held s -> j_held (snd (j_act H c a s)).
Proof.
  intros O.
  assert (A : forall k s, j_held s -> j_held (snd (j_at_once H c k s))).
  { intros k s' O'. unfold j_at_once. destruct (step H c (j_world s') k). exact O'. }
  assert (B : forall s t p, j_tasks s t = None -> j_held s -> j_held (j_set_task s t p)).
  { intros s' t p N O' g R. destruct (O' g R) as (u & q & E & F). exists u, q. split; [|exact F]. cbn.
    destruct (Nat.eqb_spec u t) as [->|]; congruence. }
  assert (D : forall s t p, j_tasks s t = Some p -> (forall g, ~ feeds p g) -> j_held s -> j_held (j_set_task s t None)).
  { intros s' t p N P O' g R. destruct (O' g R) as (u & q & E & F). exists u, q. split; [|exact F]. cbn.
    destruct (Nat.eqb_spec u t) as [->|]; [|exact E]. rewrite E in N. injection N as ->. now apply P in F. }
  assert (F : forall t g p, j_tasks s t = Some p -> feeds p g -> j_held (j_set_running (j_set_task s t None) g false)).
  { intros t g p N P g' R. cbn in R |- *. destruct (Nat.eqb_spec g' g) as [G|G]; [discriminate|].
    destruct (O g' R) as (u & q & E & X). exists u, q. split; [|exact X].
    destruct (Nat.eqb_spec u t) as [Y|]; [|exact E]. subst u. elim G. rewrite E in N. injection N as ->.
    destruct p; cbn in *; try contradiction; congruence. }
  assert (W : forall s w, j_held s -> j_held (j_set_world s w)) by (intros s' w X; exact X).
  destruct a as [t k asy|t|t]; cbn [j_act].
  - unfold j_make. destruct (j_tasks s t) eqn:E; [exact O|].
    destruct k; try (now apply A); try (destruct asy; [now apply B|now apply A]).
    + destruct (b_mode (w_bundle (j_world s))) as [[]|]; try (now apply A).
      unfold j_begin_feed. destruct (nth_error (w_gens (j_world s)) g) as [x|]; [|exact O].
      destruct (j_running s g) eqn:R; [exact O|]. destruct (negb (g_live x)); [exact O|].
      destruct (nth_error (w_shmacs (j_world s)) (g_shmac x)) as [h|]; [|exact O].
      destruct (negb (g_first x) && s_finalized h); [now apply W|].
      intros g' R'. cbn in R' |- *. destruct (Nat.eqb_spec g' g) as [Y|G].
      * subst g'. exists t. rewrite Nat.eqb_refl. eexists. split; [reflexivity|]. now cbn.
      * destruct (B s t (Some (Waiting g block (s_cur h ++ s_prev h))) E O g' R') as (u & X). exists u. exact X.
    + unfold j_begin_finalize. destruct (nth_error (w_shmacs (j_world s)) i) as [h|]; [|exact O].
      destruct (j_claimed s i); [exact O|]. destruct asy; [now apply (B (j_claim s i))|now apply A].
  - unfold j_resume. destruct (j_tasks s t) as [p|] eqn:E; [|exact O]. destruct p as [g bl key|g bl out hashed|k|j].
    + assert (X := F t g _ E eq_refl). unfold j_draw. cbn [j_world j_set_task].
      destruct (nth_error (w_gens (j_world s)) g) as [x|] eqn:G; [|exact X].
      destruct (nth_error (w_shmacs (j_world s)) (g_shmac x)) as [h|]; [|exact X].
      destruct (draw _ _ _ _ _ _ _ _) as [e b|b out hashed]; [exact X|].
      intros g' R'. cbn in R' |- *. destruct (O g' R') as (u & q & Q & Y). exists u. destruct (Nat.eqb_spec u t) as [Z|]; [|eauto].
      subst u. eexists. split; [reflexivity|]. rewrite Q in E. injection E as ->. exact Y.
    + assert (X := F t g _ E eq_refl). unfold j_hash. cbn [j_world j_set_running j_set_task].
      destruct (nth_error (w_gens (j_world s)) g) as [x|]; [|exact X].
      destruct (nth_error (w_shmacs (j_world s)) (g_shmac x)) as [h|]; [|exact X].
      destruct (s_finalized h); [exact X|]. destruct (update_mac _ _ _) as [b' h']. destruct out; exact X.
    + apply A. apply (D s t (Asks k)); auto.
    + apply A. apply (D s t (Finalizes j)); auto.
  - unfold j_cancel. cbn [snd]. destruct (j_tasks s t) as [[]|] eqn:E; [| | | |exact O].
    + exact (F t g _ E eq_refl).
    + exact (F t g _ E eq_refl).
    + eapply D; eauto.
    + eapply D; eauto.
Qed.
Lemma j_held_run H c b : forall l, j_held (j_after H c b l).
Proof.
  unfold j_after. induction l as [|a l IH] using rev_ind; [intros g R; discriminate|]. rewrite j_run_snoc. cbn [snd]. now apply j_held_act.
Qed.
