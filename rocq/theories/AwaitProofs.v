(** * One authenticator shared by asyncio tasks: proofs *)
From Coq Require Import ZArith Lia.
From Verif Require Import Base BaseFacts CanonModel TransformModel PermModel ClockModel IdModel CipherModel AuthModel AuthSpec AuthProofs AwaitModel AwaitSpec.
Local Open Scope nat_scope.

Lemma one_app H c : forall l1 l2 w, one_at_a_time H c w (l1 ++ l2) =
  (fst (one_at_a_time H c w l1) ++ fst (one_at_a_time H c (snd (one_at_a_time H c w l1)) l2),
   snd (one_at_a_time H c (snd (one_at_a_time H c w l1)) l2)).
Proof.
  induction l1 as [|[k|g] l1 IH]; intros l2 w; cbn.
  - now destruct (one_at_a_time H c w l2).
  - destruct (step H c w k) as [r w']. rewrite IH. destruct (one_at_a_time H c w' l1). reflexivity.
  - apply IH.
Qed.

Lemma run_snoc H c l a s : run H c (l ++ [a]) s =
  (fst (run H c l s) ++ fst (act H c a (snd (run H c l s))), snd (act H c a (snd (run H c l s)))).
Proof.
  revert s. induction l as [|x l IH]; intros s; cbn.
  - destruct (act H c a s). cbn. now rewrite app_nil_r.
  - destruct (act H c x s) as [e1 s1]. rewrite IH. destruct (run H c l s1). cbn. now rewrite app_assoc.
Qed.

Local Arguments check_modes : simpl never.

Section Await.
Variable H : hasher.
Variable c : cfg.
Hypothesis T : c_type c = ShakePermute.

(** A whole transformation is the first half and the update of the hash. *)
Lemma transform_half m first b s block :
  transform H c m first (b, s) block =
  match half H c m s block with
  | Err e => Err e
  | Ok (out, hashed) => Ok (out, update_mac H (b, s) hashed)
  end.
Proof.
  unfold transform, half. rewrite T. destruct m; cbn; destruct (s_finalized s); try reflexivity.
  - destruct (chain_uncapped_permute _ _); [|reflexivity]. cbn.
    destruct (z_to_bytes _ _ _); reflexivity.
  - destruct (chain_uncapped_invert _ _); [|reflexivity]. cbn.
    destruct (z_to_bytes _ _ _); reflexivity.
Qed.
Lemma shake_left m first st block : left_behind H c m first st block = st.
Proof. unfold left_behind. destruct st as [b s]. rewrite T. now destruct (s_finalized s). Qed.

Lemma set_same w i s b : w_bundle w = b -> nth_error (w_shmacs w) i = Some s -> set_shmac (set_bundle w b) i s = w.
Proof.
  intros <- E. unfold set_shmac, set_bundle. cbn. rewrite replace_nth_same by exact E. now destruct w.
Qed.

(** A Feed without overlap. *)
Lemma step_feed w g block :
  step H c w (Feed g block) =
  match nth_error (w_gens w) g with
  | None => (NoSuchObject, w)
  | Some x =>
    if negb (g_live x) then (Raised StopIter, w)
    else match nth_error (w_shmacs w) (g_shmac x) with
    | None => (NoSuchObject, w)
    | Some s =>
      match half H c (g_mode x) s block with
      | Err e => (Raised e, close g w)
      | Ok (out, hashed) =>
        (Got out, set_gen (set_shmac (set_bundle w (fst (update_mac H (w_bundle w, s) hashed))) (g_shmac x)
                             (snd (update_mac H (w_bundle w, s) hashed))) g
                    {| g_shmac := g_shmac x; g_mode := g_mode x; g_first := false; g_live := true |})
      end
    end
  end.
Proof.
  cbn [step]. unfold close. destruct (nth_error (w_gens w) g) as [x|] eqn:G; [|reflexivity].
  destruct (g_live x); [|reflexivity]. cbn [negb].
  destruct (nth_error (w_shmacs w) (g_shmac x)) as [s|] eqn:S; [|reflexivity].
  rewrite transform_half. destruct (half H c (g_mode x) s block) as [[out hashed]|e].
  - now destruct (update_mac H (w_bundle w, s) hashed).
  - rewrite shake_left, set_same by auto. reflexivity.
Qed.

(** ** What no call changes *)
Record calm (w w' : world) : Prop := {
  c_mode : forall r, b_mode (w_bundle w) = Some r -> b_mode (w_bundle w') = Some r;
  c_gens : forall g x, nth_error (w_gens w) g = Some x -> nth_error (w_gens w') g = Some x;
  c_shmac : forall i s, nth_error (w_shmacs w) i = Some s ->
    exists s', nth_error (w_shmacs w') i = Some s' /\
      (s_finalized s' = true \/ s_finalized s' = s_finalized s /\ s_cur s' = s_cur s /\ s_perm s' = s_perm s);
}.
Lemma calm_refl w : calm w w.
Proof. constructor; eauto 6. Qed.

Definition one_gen (w : world) : Prop :=
  length (w_gens w) <= 1 /\ (w_gens w <> [] -> b_registered (w_bundle w) = true).

Lemma half_calm m s s' block : s_finalized s' = s_finalized s -> s_cur s' = s_cur s -> s_perm s' = s_perm s ->
  half H c m s' block = half H c m s block.
Proof. intros A B C. unfold half. now rewrite A, B, C. Qed.

Lemma one_gen_eq w w' : w_gens w' = w_gens w -> b_registered (w_bundle w') = b_registered (w_bundle w) -> one_gen w -> one_gen w'.
Proof. intros A B [O1 O2]. split; rewrite A; [exact O1|]. now rewrite B. Qed.

(** Every call but Feed leaves generators, digests and permutations as they are. *)
Lemma step_calm w k : one_gen w -> (forall g block, k <> Feed g block) ->
  calm w (snd (step H c w k)) /\ one_gen (snd (step H c w k)).
Proof.
  intros O N.
  assert (Sh : forall i s s' b, b = w_bundle w -> nth_error (w_shmacs w) i = Some s ->
    (s_finalized s' = true \/ s_finalized s' = s_finalized s /\ s_cur s' = s_cur s /\ s_perm s' = s_perm s) ->
    calm w (set_shmac (set_bundle w b) i s')).
  { intros i s s' b -> E C. constructor; cbn; [auto|auto|]. intros j t Et. rewrite nth_error_replace.
    destruct (Nat.eqb_spec i j) as [<-|Ne]; [|eauto 6]. rewrite E. exists s'. split; [reflexivity|].
    replace t with s by congruence. exact C. }
  destruct k; cbn [step].
  - destruct (set_run_mode r (w_bundle w)) as [b|] eqn:E; [|split; [apply calm_refl|exact O]].
    unfold set_run_mode in E. destruct (b_mode (w_bundle w)) eqn:Mw; [discriminate|]. apply Ok_inj in E. subst b. cbn.
    split; [constructor; cbn; eauto 6; congruence|]. now apply (one_gen_eq w).
  - destruct (make_shmac H c (w_bundle w)) as [s|]; [|split; [apply calm_refl|exact O]].
    cbn. split; [|now apply (one_gen_eq w)].
    constructor; cbn; [auto|auto|]. intros i s0 E. exists s0. split; [|auto].
    rewrite nth_error_app1; [exact E|]. apply nth_error_Some. congruence.
  - destruct (nth_error (w_shmacs w) i) as [s|] eqn:E; [|split; [apply calm_refl|exact O]].
    destruct (match m with Encryption => for_encryption (w_bundle w) s | Decryption => for_decryption (w_bundle w) s end) as [s'|] eqn:F;
      [|split; [apply calm_refl|exact O]]. cbn [snd]. split; [|now apply (one_gen_eq w)].
    replace (set_shmac w i s') with (set_shmac (set_bundle w (w_bundle w)) i s') by (now destruct w).
    apply (Sh i s s' _ eq_refl E). right. unfold for_encryption, for_decryption in F.
    destruct m, (s_mode s), (b_iv_is_fresh (w_bundle w)); cbn in F; try discriminate; apply Ok_inj in F; subst s'; auto.
  - destruct (nth_error (w_shmacs w) i) as [s|] eqn:E; [|split; [apply calm_refl|exact O]].
    unfold register_shmac. destruct (b_registered (w_bundle w)) eqn:R; [split; [apply calm_refl|exact O]|].
    destruct O as [O1 O2].
    assert (Gn : w_gens w = []).
    { destruct (w_gens w) as [|x l] eqn:G; [reflexivity|]. exfalso. assert (X : x :: l <> []) by discriminate. apply O2 in X. congruence. }
    destruct (check_modes m r _) as [u|e]; cbn [snd].
    + split; [|split; [cbn; rewrite Gn; cbn; lia|reflexivity]]. constructor; cbn; [auto| |eauto 6].
      rewrite Gn. intros g x X. now destruct g.
    + split; [|split; [cbn; rewrite Gn; cbn; lia|reflexivity]]. constructor; cbn; eauto 6.
  - exfalso. now apply (N g block).
  - destruct (nth_error (w_shmacs w) i); (split; [apply calm_refl|exact O]).
  - destruct (nth_error (w_shmacs w) i); (split; [apply calm_refl|exact O]).
  - destruct (nth_error (w_shmacs w) i) as [s|] eqn:E; [|split; [apply calm_refl|exact O]].
    unfold finalize. destruct (s_finalized s) eqn:F; [split; [apply calm_refl|exact O]|]. cbn [snd].
    split; [|now apply (one_gen_eq w)].
    replace (set_shmac w i _) with (set_shmac (set_bundle w (w_bundle w)) i
      {| s_mode := s_mode s; s_finalized := true; s_result := Some (shmac_result H c (b_mac (w_bundle w)));
         s_prev := s_prev s; s_cur := s_cur s; s_perm := s_perm s |}) by (now destruct w).
    apply (Sh i s _ _ eq_refl E). left. reflexivity.
  - destruct (nth_error (w_shmacs w) i); (split; [apply calm_refl|exact O]).
  - destruct (nth_error (w_shmacs w) i); (split; [apply calm_refl|exact O]).
Qed.

(** ** The invariant *)
Definition underway (s : shared) (p : pending) : Prop :=
  match p with
  | Feeding g block out hashed =>
    s_running s g = true /\ b_mode (w_bundle (s_world s)) = Some Async /\
    exists x h, nth_error (w_gens (s_world s)) g = Some x /\ g_live x = true /\
      nth_error (w_shmacs (s_world s)) (g_shmac x) = Some h /\
      (s_finalized h = true \/ half H c (g_mode x) h block = Ok (out, hashed))
  | Asking k => match k with BlockId _ _ _ _ | TestBlockId _ _ _ _ => True | _ => False end
  | Finalizing i => s_claimed s i = true
  end.
Record ok (s : shared) : Prop := {
  o_gen : one_gen (s_world s);
  o_tasks : forall t p, s_tasks s t = Some p -> underway s p;
  o_unique : forall t t' g bl o hs bl' o' hs', s_tasks s t = Some (Feeding g bl o hs) ->
    s_tasks s t' = Some (Feeding g bl' o' hs') -> t = t';
  o_claimed : forall i h, nth_error (w_shmacs (s_world s)) i = Some h -> s_finalized h = true -> s_claimed s i = true;
  o_claims : forall i, s_claimed s i = true -> nth_error (w_shmacs (s_world s)) i <> None;
  o_one : forall t t' i, s_tasks s t = Some (Finalizing i) -> s_tasks s t' = Some (Finalizing i) -> t = t';
  o_not_yet : forall t i h, s_tasks s t = Some (Finalizing i) -> nth_error (w_shmacs (s_world s)) i = Some h ->
    s_finalized h = false;
}.

Lemma ok_fresh b : ok (fresh b).
Proof.
  constructor; cbn; try discriminate.
  - split; [cbn; lia|now intros []].
  - intros i h E. now destruct i.
Qed.

(** What each action does, and which turns it corresponds to. *)
Definition matches (s : shared) (out : list (call * reply) * shared) : Prop :=
  exists turns, closes turns = 0 /\ one_at_a_time H c (s_world s) turns =
    (filter (fun x => negb (turned_away x)) (fst out), s_world (snd out)).

Lemma matches_none s s' : s_world s' = s_world s -> matches s ([], s').
Proof. intros E. exists []. split; [reflexivity|]. cbn. now rewrite E. Qed.
Lemma matches_same s s' k r : s_world s' = s_world s -> step H c (s_world s) k = (r, s_world s) -> matches s ([(k, r)], s').
Proof.
  intros E K. destruct (turned_away (k, r)) eqn:A.
  - exists []. split; [reflexivity|]. cbn [fst snd one_at_a_time filter]. rewrite A, E. reflexivity.
  - exists [Call k]. split; [reflexivity|]. cbn [fst snd one_at_a_time filter]. rewrite K, A, E. reflexivity.
Qed.
Lemma matches_away s s' k r : s_world s' = s_world s -> turned_away (k, r) = true -> matches s ([(k, r)], s').
Proof. intros E A. exists []. split; [reflexivity|]. cbn [fst snd one_at_a_time filter]. rewrite A, E. reflexivity. Qed.
Lemma matches_step s s' k r w : s_world s' = w -> step H c (s_world s) k = (r, w) ->
  turned_away (k, r) = false -> matches s ([(k, r)], s').
Proof. intros E K A. exists [Call k]. split; [reflexivity|]. cbn [fst snd one_at_a_time filter]. rewrite K, A, E. reflexivity. Qed.

Lemma finalize_refused w i r w' : step H c w (Finalize i) = (r, w') -> turned_away (Finalize i, r) = true -> w' = w.
Proof.
  cbn [step]. destruct (nth_error (w_shmacs w) i) as [h|]; [|now intros [= <- <-]].
  unfold finalize. destruct (s_finalized h); intros [= <- <-]; [reflexivity|discriminate].
Qed.

Lemma at_once_matches s k : (forall g block, k <> Feed g block) -> matches s (at_once H c k s).
Proof.
  intros N. unfold at_once. destruct (step H c (s_world s) k) as [r w] eqn:K.
  destruct (turned_away (k, r)) eqn:A.
  - assert (w = s_world s) as ->.
    { destruct k; try discriminate A; [now elim (N g block)|]. eapply finalize_refused; eauto. }
    now apply matches_away.
  - now apply matches_step with (w := w).
Qed.

(** A block that cannot be transformed is not refused as if another one was under way. *)
Lemma walk_err f m : forall n v e, walk n f m v = Err e -> e = Diverges.
Proof. induction n as [|n IH]; cbn; intros v e; destruct (v >? m)%Z; solve [now intros [= <-]|apply IH|discriminate]. Qed.
Lemma half_err m h block : half H c m h block <> Err RuntimeErr.
Proof.
  assert (P : forall a v, aff_permute a v <> Err RuntimeErr) by (intros a v E; apply walk_err in E; discriminate).
  assert (I : forall a v, aff_invert a v <> Err RuntimeErr) by (intros a v E; apply walk_err in E; discriminate).
  assert (Z : forall n o v, z_to_bytes n o v <> Err RuntimeErr).
  { intros n o v. unfold z_to_bytes, to_bytes_be, to_bytes_le. destruct (v <? 0)%Z, o; try discriminate;
      destruct (Z.to_N v <? 256 ^ n)%N; discriminate. }
  unfold half. destruct (s_finalized h); [discriminate|]. cbv zeta. destruct m.
  - unfold chain_uncapped_permute. destruct (aff_permute (ch_aff_in _) _) as [x|e] eqn:E1; cbn [bind]; [|intros [= ->]; now apply P in E1].
    destruct (aff_permute (ch_aff_mid _) _) as [y|e] eqn:E2; cbn [bind]; [|intros [= ->]; now apply P in E2].
    destruct (aff_permute (ch_aff_out _) _) as [z|e] eqn:E3; cbn [bind]; [|intros [= ->]; now apply P in E3].
    destruct (z_to_bytes _ _ _) as [q|e] eqn:E4; cbn [bind]; [discriminate|intros [= ->]; now apply Z in E4].
  - unfold chain_uncapped_invert. destruct (aff_invert (ch_aff_out _) _) as [x|e] eqn:E1; cbn [bind]; [|intros [= ->]; now apply I in E1].
    destruct (aff_invert (ch_aff_mid _) _) as [y|e] eqn:E2; cbn [bind]; [|intros [= ->]; now apply I in E2].
    destruct (aff_invert (ch_aff_in _) _) as [z|e] eqn:E3; cbn [bind]; [|intros [= ->]; now apply I in E3].
    destruct (z_to_bytes _ _ _) as [q|e] eqn:E4; cbn [bind]; [discriminate|intros [= ->]; now apply Z in E4].
Qed.

(** A Feed that fails only ends its generator. *)
Lemma feed_fails_matches s s' g block e : e <> RuntimeErr -> step H c (s_world s) (Feed g block) = (Raised e, close g (s_world s)) ->
  s_world s' = close g (s_world s) -> matches s ([(Feed g block, Raised e)], s').
Proof.
  intros N K E. apply matches_step with (w := close g (s_world s)); auto. destruct e; auto. now elim N.
Qed.

Lemma at_once_feed_matches s g block : matches s (at_once H c (Feed g block) s).
Proof.
  unfold at_once. destruct (step H c (s_world s) (Feed g block)) as [r w] eqn:K. pose proof K as K'.
  rewrite step_feed in K'.
  destruct (turned_away (Feed g block, r)) eqn:A; [|now apply matches_step with (w := w)].
  destruct r; try discriminate A.
  destruct (nth_error (w_gens (s_world s)) g) as [x|]; [|discriminate K'].
  destruct (negb (g_live x)); [injection K' as <- <-; discriminate A|].
  destruct (nth_error (w_shmacs (s_world s)) (g_shmac x)) as [h|]; [|discriminate K'].
  destruct (half H c (g_mode x) h block) as [[out hashed]|e'] eqn:Hf; [discriminate K'|].
  injection K' as <- <-. apply feed_fails_matches; auto. intros ->. now apply half_err in Hf.
Qed.

Lemma finalized_half m h block : s_finalized h = true -> half H c m h block = Err AttributeErr.
Proof. intros F. unfold half. now rewrite F. Qed.

(** ** Every action corresponds to turns *)
Lemma act_matches s a : ok s -> exists turns, closes turns <= cancellations [a] /\
  one_at_a_time H c (s_world s) turns =
  (filter (fun x => negb (turned_away x)) (fst (act H c a s)), s_world (snd (act H c a s))).
Proof.
  intros O. destruct a as [t k asy|t|t]; cbn [act];
    [assert (X : matches s (make H c t k asy s))|assert (X : matches s (resume H c t s))|];
    try (destruct X as (turns & C & X); exists turns; split; [rewrite C; cbn; lia|exact X]).
  - unfold make. destruct (s_tasks s t); [now apply matches_none|].
    destruct k; try (apply at_once_matches; discriminate);
      try (destruct asy; [now apply matches_none|apply at_once_matches; discriminate]).
    + assert (D : matches s (begin_feed H c t g block s)).
      { unfold begin_feed. pose proof (step_feed (s_world s) g block) as K.
        destruct (nth_error (w_gens (s_world s)) g) as [x|]; [|now apply matches_same].
        destruct (s_running s g); [now apply matches_away|].
        destruct (negb (g_live x)); [now apply matches_same|].
        destruct (nth_error (w_shmacs (s_world s)) (g_shmac x)) as [h|]; [|now apply matches_same].
        destruct (half H c (g_mode x) h block) as [[out hashed]|e] eqn:Hf; [now apply matches_none|].
        apply feed_fails_matches; auto. intros ->. now apply half_err in Hf. }
      destruct (b_mode (w_bundle (s_world s))) as [[]|]; try apply at_once_feed_matches; exact D.
    + unfold begin_finalize. destruct (nth_error (w_shmacs (s_world s)) i) eqn:E.
      * destruct (s_claimed s i); [now apply matches_away|]. destruct asy; [now apply matches_none|].
        apply (at_once_matches (claim s i)). discriminate.
      * apply matches_same; [reflexivity|]. cbn [step]. now rewrite E.
  - unfold resume. destruct (s_tasks s t) as [p|] eqn:E; [|now apply matches_none].
    pose proof (o_tasks s O t p E) as U. destruct p as [g block out hashed|k|i].
    + unfold end_feed. destruct U as (R & _ & x & h & G & L & S & F). cbn [s_world set_running set_task].
      rewrite G, S. pose proof (step_feed (s_world s) g block) as K. rewrite G, L, S in K. cbn [negb] in K.
      destruct (s_finalized h) eqn:Fh.
      * rewrite finalized_half in K by exact Fh. apply feed_fails_matches; [discriminate|exact K|reflexivity].
      * destruct F as [F|F]; [congruence|]. rewrite F in K.
        destruct (update_mac H (w_bundle (s_world s), h) hashed) as [b' h'] eqn:Um.
        cbn [fst snd] in K. eapply matches_step; [|exact K|reflexivity]. reflexivity.
    + apply (at_once_matches (set_task s t None)). destruct k; try contradiction; discriminate.
    + apply (at_once_matches (set_task s t None)). discriminate.
  - unfold cancel. destruct (s_tasks s t) as [p|]; [|exists []; split; [cbn; lia|reflexivity]].
    destruct p as [g block out hashed|k|i]; [|exists []; split; [cbn; lia|reflexivity]..].
    exists [Close g]. split; [cbn; lia|reflexivity].
Qed.

(** ** The invariant is kept *)
Lemma ok_calm s s' : ok s -> calm (s_world s) (s_world s') -> one_gen (s_world s') ->
  (forall i, s_claimed s' i = true -> s_claimed s i = true \/ nth_error (w_shmacs (s_world s')) i <> None) ->
  (forall i, s_claimed s i = true -> s_claimed s' i = true) ->
  s_running s' = s_running s ->
  (forall t p, s_tasks s' t = Some p -> s_tasks s t = Some p) ->
  (forall i h, nth_error (w_shmacs (s_world s')) i = Some h -> s_finalized h = true ->
     (s_claimed s' i = true /\ forall t, s_tasks s' t <> Some (Finalizing i)) \/
     exists h0, nth_error (w_shmacs (s_world s)) i = Some h0 /\ s_finalized h0 = true) ->
  ok s'.
Proof.
  intros O C G Cl Cl2 R Tk F. constructor.
  - exact G.
  - intros t p E. apply Tk in E. pose proof (o_tasks s O t p E) as U. destruct p as [g block out hashed|k|i]; cbn in *.
    + destruct U as (Rn & Mo & x & h & Gx & L & S & V). rewrite R. split; [exact Rn|].
      split; [now apply (c_mode _ _ C)|].
      destruct (c_shmac _ _ C _ _ S) as (h' & S' & D). exists x, h'.
      split; [now apply (c_gens _ _ C)|]. split; [exact L|]. split; [exact S'|].
      destruct D as [D|(D1 & D2 & D3)]; [auto|]. destruct V as [V|V]; [left; congruence|right].
      now rewrite (half_calm _ h h').
    + exact U.
    + now apply Cl2.
  - intros t t' g bl o hs bl' o' hs' E E'. apply Tk in E, E'. eapply (o_unique s O); eauto.
  - intros i h E Fh. destruct (F i h E Fh) as [[X _]|(h0 & E0 & F0)]; [exact X|]. apply Cl2. eapply (o_claimed s O); eauto.
  - intros i Ci. destruct (Cl i Ci) as [X|X]; [|exact X]. apply (o_claims s O) in X.
    destruct (nth_error (w_shmacs (s_world s)) i) as [h|] eqn:E; [|now elim X].
    destruct (c_shmac _ _ C _ _ E) as (h' & -> & _). discriminate.
  - intros t t' i E E'. apply Tk in E, E'. eapply (o_one s O); eauto.
  - intros t i h E S. destruct (s_finalized h) eqn:Fh; [exfalso|reflexivity].
    destruct (F i h S Fh) as [[_ X]|(h0 & E0 & F0)]; [now apply (X t)|].
    apply Tk in E. pose proof (o_not_yet s O t i h0 E E0). congruence.
Qed.

(** What a Feed changes. *)
Record frame (w w' : world) : Prop := {
  f_len : length (w_gens w') = length (w_gens w);
  f_reg : b_registered (w_bundle w') = b_registered (w_bundle w);
  f_old : forall i h, nth_error (w_shmacs w') i = Some h ->
    exists h0, nth_error (w_shmacs w) i = Some h0 /\ s_finalized h0 = s_finalized h;
  f_new : forall i, nth_error (w_shmacs w) i <> None -> nth_error (w_shmacs w') i <> None;
}.
Lemma frame_refl w : frame w w.
Proof. constructor; eauto. Qed.
Lemma frame_close w g : frame w (close g w).
Proof.
  unfold close. destruct (nth_error (w_gens w) g) as [x|]; [|apply frame_refl].
  constructor; cbn; eauto. apply replace_nth_length.
Qed.
Lemma frame_fed w g i h hashed x b' h' : nth_error (w_shmacs w) i = Some h ->
  update_mac H (w_bundle w, h) hashed = (b', h') ->
  frame w (set_gen (set_shmac (set_bundle w b') i h') g x).
Proof.
  intros S E. cbn in E. injection E as <- <-. constructor; cbn; auto.
  - apply replace_nth_length.
  - intros j k. rewrite nth_error_replace. destruct (Nat.eqb_spec i j) as [<-|]; [|eauto].
    rewrite S. intros [= <-]. eauto.
  - intros j N. rewrite nth_error_replace. destruct (Nat.eqb_spec i j) as [<-|]; [|exact N]. rewrite S. discriminate.
Qed.
Lemma frame_feed w g block : frame w (snd (step H c w (Feed g block))).
Proof.
  rewrite step_feed. destruct (nth_error (w_gens w) g) as [x|]; [|apply frame_refl].
  destruct (negb (g_live x)); [apply frame_refl|].
  destruct (nth_error (w_shmacs w) (g_shmac x)) as [h|] eqn:S; [|apply frame_refl].
  destruct (half H c (g_mode x) h block) as [[out hashed]|]; [|apply frame_close].
  cbn [snd]. eapply frame_fed; [exact S|]. apply surjective_pairing.
Qed.

Lemma ok_frame s s' : ok s -> frame (s_world s) (s_world s') -> s_claimed s' = s_claimed s ->
  (forall t p, s_tasks s' t = Some p -> s_tasks s t = Some p /\ forall g bl o hs, p <> Feeding g bl o hs) -> ok s'.
Proof.
  intros O F Cl Tk. constructor.
  - destruct (o_gen s O) as [G1 G2]. split; [rewrite (f_len _ _ F); exact G1|].
    intros N. rewrite (f_reg _ _ F). apply G2. intros E. apply N. apply length_zero_iff_nil.
    rewrite (f_len _ _ F), E. reflexivity.
  - intros t p E. apply Tk in E. destruct E as [E N]. pose proof (o_tasks s O t p E) as U.
    destruct p as [g bl o hs|k|i]; [now elim (N g bl o hs)|exact U|]. cbn in *. now rewrite Cl.
  - intros t t' g bl o hs bl' o' hs' E. apply Tk in E. destruct E as [_ N]. now elim (N g bl o hs).
  - intros i h E Fh. rewrite Cl. destruct (f_old _ _ F i h E) as (h0 & E0 & F0). apply (o_claimed s O i h0 E0). congruence.
  - intros i Ci. rewrite Cl in Ci. apply (f_new _ _ F). now apply (o_claims s O).
  - intros t t' i E E'. apply Tk in E, E'. eapply (o_one s O); [apply E|apply E'].
  - intros t i h E S. apply Tk in E. destruct (f_old _ _ F i h S) as (h0 & E0 & F0).
    pose proof (o_not_yet s O t i h0 (proj1 E) E0). congruence.
Qed.

(** There is one generator at most, so one block at most is under way. *)
Lemma feeding_zero s t g bl o hs : ok s -> s_tasks s t = Some (Feeding g bl o hs) -> g = 0 /\ s_running s 0 = true.
Proof.
  intros O E. destruct (o_tasks s O _ _ E) as (R & _ & x & h & G & _).
  assert (Z : g = 0); [|now subst].
  assert (L : g < length (w_gens (s_world s))) by (apply nth_error_Some; congruence).
  destruct (o_gen s O). lia.
Qed.
Lemma nth_gen_zero s g x : ok s -> nth_error (w_gens (s_world s)) g = Some x -> g = 0.
Proof.
  intros O G. assert (L : g < length (w_gens (s_world s))) by (apply nth_error_Some; congruence).
  destruct (o_gen s O). lia.
Qed.

Lemma step_final w k i h : (forall g block, k <> Feed g block) ->
  nth_error (w_shmacs (snd (step H c w k))) i = Some h -> s_finalized h = true ->
  k = Finalize i \/ exists h0, nth_error (w_shmacs w) i = Some h0 /\ s_finalized h0 = true.
Proof.
  intros N E F. destruct k; cbn [step] in E.
  - destruct (set_run_mode r (w_bundle w)); cbn in E; eauto.
  - destruct (make_shmac H c (w_bundle w)) as [s|] eqn:M; cbn in E; [|eauto].
    destruct (Nat.ltb_spec i (length (w_shmacs w))) as [L|L].
    + rewrite nth_error_app1 in E by exact L. eauto.
    + rewrite nth_error_app2 in E by exact L. destruct (i - length (w_shmacs w)) as [|n]; cbn in E; [|now destruct n].
      injection E as ->. apply make_shmac_new in M. destruct M as (_ & M & _). congruence.
  - rename i0 into j. destruct (nth_error (w_shmacs w) j) as [s|] eqn:S; cbn in E; [|eauto].
    destruct (match m with Encryption => for_encryption (w_bundle w) s | Decryption => for_decryption (w_bundle w) s end) as [s'|] eqn:X; cbn in E; [|eauto].
    rewrite nth_error_replace in E. destruct (Nat.eqb_spec j i) as [->|]; [|eauto]. rewrite S in E. injection E as <-.
    right. exists s. split; [exact S|]. unfold for_encryption, for_decryption in X.
    destruct m, (s_mode s), (b_iv_is_fresh (w_bundle w)); cbn in X; try discriminate; apply Ok_inj in X; subst s'; exact F.
  - rename i0 into j. destruct (nth_error (w_shmacs w) j) as [s|] eqn:S; cbn in E; [|eauto].
    destruct (register_shmac (w_bundle w)) as [b|]; cbn in E; [|eauto].
    destruct (check_modes m r (b, s)); cbn in E; eauto.
  - now elim (N g block).
  - destruct (nth_error (w_shmacs w) i0); cbn in E; eauto.
  - destruct (nth_error (w_shmacs w) i0); cbn in E; eauto.
  - rename i0 into j. destruct (nth_error (w_shmacs w) j) as [s|] eqn:S; cbn in E; [|eauto].
    unfold finalize in E. destruct (s_finalized s) eqn:Fs; cbn in E; [eauto|].
    rewrite nth_error_replace in E. destruct (Nat.eqb_spec j i) as [->|]; eauto.
  - destruct (nth_error (w_shmacs w) i0); cbn in E; eauto.
  - destruct (nth_error (w_shmacs w) i0); cbn in E; eauto.
Qed.

Lemma ok_at_once s k : ok s -> (forall g block, k <> Feed g block) ->
  (forall i, k = Finalize i -> s_claimed s i = true /\ forall t, s_tasks s t <> Some (Finalizing i)) ->
  ok (snd (at_once H c k s)).
Proof.
  intros O N C. unfold at_once. destruct (step H c (s_world s) k) as [r w] eqn:K. cbn [snd].
  destruct (step_calm (s_world s) k (o_gen s O) N) as [Cm G]. rewrite K in Cm, G. cbn [snd] in Cm, G.
  apply (ok_calm s); cbn; auto. intros i h E F.
  destruct (step_final (s_world s) k i h N) as [->|X]; [now rewrite K|exact F| |right; exact X].
  left. now apply C.
Qed.

Lemma ok_claim s i : ok s -> nth_error (w_shmacs (s_world s)) i <> None -> ok (claim s i).
Proof.
  intros O N. apply (ok_calm s); cbn; auto.
  - apply calm_refl.
  - apply (o_gen s O).
  - intros j. destruct (Nat.eqb_spec j i) as [->|]; auto.
  - intros j. destruct (Nat.eqb_spec j i) as [->|]; auto.
  - intros j h E F. right. eauto.
Qed.
Lemma ok_free s t : ok s -> ok (set_task s t None).
Proof.
  intros O. apply (ok_calm s); cbn; auto.
  - apply calm_refl.
  - apply (o_gen s O).
  - intros t' p. destruct (Nat.eqb_spec t' t); [discriminate|auto].
  - intros j h E F. right. eauto.
Qed.
Lemma ok_ask s t k : ok s -> match k with BlockId _ _ _ _ | TestBlockId _ _ _ _ => True | _ => False end ->
  ok (set_task s t (Some (Asking k))).
Proof.
  intros O K. constructor; cbn.
  - apply (o_gen s O).
  - intros t' p. destruct (Nat.eqb_spec t' t) as [->|]; [intros [= <-]; exact K|].
    intros E. apply (o_tasks s O t' p) in E. exact E.
  - intros t1 t2 g bl o hs bl' o' hs'. destruct (Nat.eqb t1 t), (Nat.eqb t2 t); try discriminate. apply (o_unique s O).
  - apply (o_claimed s O).
  - apply (o_claims s O).
  - intros t1 t2 i. destruct (Nat.eqb t1 t), (Nat.eqb t2 t); try discriminate. apply (o_one s O).
  - intros t' i h. destruct (Nat.eqb t' t); [discriminate|]. apply (o_not_yet s O).
Qed.
Lemma not_finalizing s i t : ok s -> s_claimed s i = false -> s_tasks s t <> Some (Finalizing i).
Proof. intros O C E. apply (o_tasks s O) in E. cbn in E. congruence. Qed.

Lemma act_ok s a : ok s -> ok (snd (act H c a s)).
Proof.
  intros O.
  assert (Nf : forall s', s_claimed s' = s_claimed s -> frame (s_world s) (s_world s') ->
    (forall t p, s_tasks s' t = Some p -> s_tasks s t = Some p) ->
    (forall t bl o hs, s_tasks s' t <> Some (Feeding 0 bl o hs)) -> ok s').
  { intros s' Cl F Tk Z. apply (ok_frame s); auto. intros t p E. split; [now apply Tk|].
    intros g bl o hs ->. pose proof (Tk _ _ E) as E'. apply (feeding_zero s) in E'; [|exact O].
    destruct E' as [-> _]. now apply (Z t bl o hs). }
  destruct a as [t k asy|t|t]; cbn [act snd].
  - unfold make. destruct (s_tasks s t) eqn:Et; [exact O|].
    destruct k; try (apply ok_at_once; [exact O|discriminate|discriminate]);
      try (destruct asy; [now apply ok_ask|apply ok_at_once; [exact O|discriminate|discriminate]]).
    + assert (D : b_mode (w_bundle (s_world s)) <> Some Async -> ok (snd (at_once H c (Feed g block) s))).
      { intros Na. unfold at_once. pose proof (frame_feed (s_world s) g block) as F.
        destruct (step H c (s_world s) (Feed g block)) as [r w]. apply Nf; cbn; auto.
        intros t' bl o hs E. apply (o_tasks s O) in E. destruct E as (_ & M & _). congruence. }
      destruct (b_mode (w_bundle (s_world s))) as [[]|] eqn:M; try (apply D; discriminate).
      unfold begin_feed.
      destruct (nth_error (w_gens (s_world s)) g) as [x|] eqn:G; [|exact O].
      pose proof (nth_gen_zero s g x O G) as ->.
      destruct (s_running s 0) eqn:R; [exact O|].
      destruct (negb (g_live x)) eqn:L; [exact O|]. apply Bool.negb_false_iff in L.
      destruct (nth_error (w_shmacs (s_world s)) (g_shmac x)) as [h|] eqn:S; [|exact O].
      assert (Z : forall t' bl o hs, s_tasks s t' <> Some (Feeding 0 bl o hs)).
      { intros t' bl o hs E. apply (feeding_zero s) in E; [|exact O]. destruct E. congruence. }
      destruct (half H c (g_mode x) h block) as [[out hashed]|e] eqn:Hf; cbn [snd].
      * constructor; cbn.
        -- apply (o_gen s O).
        -- intros t' p. destruct (Nat.eqb_spec t' t) as [->|].
           ++ intros [= <-]. cbn. split; [reflexivity|]. split; [exact M|]. exists x, h. auto.
           ++ intros E. pose proof (o_tasks s O t' p E) as U. destruct p as [g bl o hs|k|i]; [|exact U|exact U].
              exfalso. destruct (feeding_zero s _ _ _ _ _ O E) as [-> _]. now apply (Z t' bl o hs).
        -- intros t1 t2 g bl o hs bl' o' hs'.
           destruct (Nat.eqb_spec t1 t) as [->|], (Nat.eqb_spec t2 t) as [->|]; try reflexivity; intros E E'.
           ++ exfalso. destruct (feeding_zero s _ _ _ _ _ O E') as [-> _]. now apply (Z t2 bl' o' hs').
           ++ exfalso. destruct (feeding_zero s _ _ _ _ _ O E) as [-> _]. now apply (Z t1 bl o hs).
           ++ eapply (o_unique s O); eauto.
        -- apply (o_claimed s O).
        -- apply (o_claims s O).
        -- intros t1 t2 i. destruct (Nat.eqb t1 t), (Nat.eqb t2 t); try discriminate. apply (o_one s O).
        -- intros t' i h'. destruct (Nat.eqb t' t); [discriminate|]. apply (o_not_yet s O).
      * apply Nf; cbn; auto. apply frame_close.
    + unfold begin_finalize. destruct (nth_error (w_shmacs (s_world s)) i) as [h|] eqn:S; [|exact O].
      destruct (s_claimed s i) eqn:Ci; [exact O|].
      assert (O' : ok (claim s i)) by (apply ok_claim; [exact O|congruence]).
      destruct asy.
      * cbn [snd]. constructor; cbn.
        -- apply (o_gen s O).
        -- intros t' p. destruct (Nat.eqb_spec t' t) as [->|].
           ++ intros [= <-]. cbn. now rewrite Nat.eqb_refl.
           ++ intros E. apply (o_tasks (claim s i) O' t' p) in E. exact E.
        -- intros t1 t2 g bl o hs bl' o' hs'. destruct (Nat.eqb t1 t), (Nat.eqb t2 t); try discriminate. apply (o_unique s O).
        -- apply (o_claimed (claim s i) O').
        -- apply (o_claims (claim s i) O').
        -- intros t1 t2 j. destruct (Nat.eqb_spec t1 t) as [->|], (Nat.eqb_spec t2 t) as [->|]; try reflexivity.
           ++ intros [= ->] E. exfalso. now apply (not_finalizing s j t2 O Ci).
           ++ intros E [= ->]. exfalso. now apply (not_finalizing s j t1 O Ci).
           ++ apply (o_one s O).
        -- intros t' j h'. destruct (Nat.eqb_spec t' t) as [->|]; [|apply (o_not_yet s O)].
           intros [= ->] S'. replace h' with h by congruence. destruct (s_finalized h) eqn:F; [|reflexivity].
           pose proof (o_claimed s O j h S F). congruence.
      * apply ok_at_once; [exact O'|discriminate|]. intros j [= <-]. cbn. rewrite Nat.eqb_refl. split; [reflexivity|].
        intros t'. now apply not_finalizing.
  - unfold resume. destruct (s_tasks s t) as [p|] eqn:E; [|exact O].
    pose proof (o_tasks s O t p E) as U. destruct p as [g bl out hashed|k|i].
    + assert (Z : forall t' bl o hs, s_tasks (set_task s t None) t' <> Some (Feeding 0 bl o hs)).
      { intros t' bl' o hs. cbn. destruct (Nat.eqb_spec t' t) as [|Ne]; [discriminate|]. intros E'. apply Ne.
        destruct (feeding_zero s _ _ _ _ _ O E) as [-> _]. eapply (o_unique s O); eauto. }
      assert (Tk : forall t' p, s_tasks (set_task s t None) t' = Some p -> s_tasks s t' = Some p).
      { intros t' p. cbn. destruct (Nat.eqb_spec t' t); [discriminate|auto]. }
      unfold end_feed. destruct U as (R & M & x & h & G & L & S & V). cbn [s_world set_running set_task].
      rewrite G, S. destruct (s_finalized h).
      * apply Nf; auto. cbn [snd s_world set_world]. apply frame_close.
      * destruct (update_mac H (w_bundle (s_world s), h) hashed) as [b' h'] eqn:Um.
        apply Nf; auto. cbn [snd s_world set_world]. eapply frame_fed; eauto.
    + apply ok_at_once; [now apply ok_free|destruct k; try contradiction; discriminate|destruct k; try contradiction; discriminate].
    + apply ok_at_once; [now apply ok_free|discriminate|]. intros j [= <-]. split; [exact U|].
      intros t'. cbn. destruct (Nat.eqb_spec t' t) as [|Ne]; [discriminate|]. intros E'. apply Ne. eapply (o_one s O); eauto.
  - unfold cancel. destruct (s_tasks s t) as [p|] eqn:E; [|exact O].
    destruct p as [g bl out hashed|k|i]; [|now apply ok_free..].
    apply Nf; cbn; auto.
    + apply frame_close.
    + intros t' p. destruct (Nat.eqb_spec t' t); [discriminate|auto].
    + intros t' bl' o hs. destruct (Nat.eqb_spec t' t) as [|Ne]; [discriminate|]. intros E'. apply Ne.
      destruct (feeding_zero s _ _ _ _ _ O E) as [-> _]. eapply (o_unique s O); eauto.
Qed.

Lemma run_ok b : forall l, ok (snd (run H c l (fresh b))).
Proof.
  induction l as [|a l IH] using rev_ind; [apply ok_fresh|]. rewrite run_snoc. cbn [snd]. now apply act_ok.
Qed.
Lemma run_matches b : forall l, exists turns, closes turns <= cancellations l /\
  one_at_a_time H c (unused b) turns =
  (filter (fun x => negb (turned_away x)) (fst (run H c l (fresh b))), s_world (snd (run H c l (fresh b)))).
Proof.
  induction l as [|a l IH] using rev_ind; [exists []; split; [cbn; lia|reflexivity]|]. rewrite run_snoc. cbn [fst snd].
  destruct IH as (t1 & C1 & E1). destruct (act_matches _ a (run_ok b l)) as (t2 & C2 & E2).
  exists (t1 ++ t2). split; [unfold closes, cancellations in *; rewrite !filter_app, !app_length; lia|]. rewrite one_app, E1. cbn [fst snd]. rewrite E2. cbn [fst snd]. now rewrite filter_app.
Qed.
End Await.

(** ** Tags *)
Section Tags.
Variable H : hasher.
Variable c : cfg.

Definition tagged (i : nat) (t : bytes) (w : world) : Prop :=
  exists h, nth_error (w_shmacs w) i = Some h /\ s_result h = Some t /\ s_finalized h = true.

Lemma tagged_close i t g w : tagged i t w -> tagged i t (close g w).
Proof. unfold close. now destruct (nth_error (w_gens w) g). Qed.

Lemma tagged_step i t w k : tagged i t w -> tagged i t (snd (step H c w k)).
Proof.
  intros (h & E & R & F).
  assert (Sh : forall j s s' b, nth_error (w_shmacs w) j = Some s -> (s_finalized s = true -> s_finalized s' = true /\ s_result s' = s_result s) ->
    tagged i t (set_shmac (set_bundle w b) j s')).
  { intros j s s' b Ej P. destruct (Nat.eqb_spec j i) as [->|Ne].
    - exists s'. cbn. rewrite nth_error_replace, Nat.eqb_refl, Ej. replace s with h in P by congruence.
      destruct (P F) as [P1 P2]. split; [reflexivity|]. split; congruence.
    - exists h. cbn. rewrite nth_error_replace. apply Nat.eqb_neq in Ne. now rewrite Ne. }
  assert (W : tagged i t w) by (exists h; auto).
  destruct k; cbn [step].
  - destruct (set_run_mode r (w_bundle w)); exact W.
  - destruct (make_shmac H c (w_bundle w)); [|exact W]. exists h. cbn. split; [|auto].
    rewrite nth_error_app1; [exact E|]. apply nth_error_Some. congruence.
  - destruct (nth_error (w_shmacs w) i0) as [s|] eqn:S; [|exact W].
    destruct (match m with Encryption => for_encryption (w_bundle w) s | Decryption => for_decryption (w_bundle w) s end) as [s'|] eqn:X; [|exact W].
    cbn [snd]. replace (set_shmac w i0 s') with (set_shmac (set_bundle w (w_bundle w)) i0 s') by (now destruct w).
    apply (Sh i0 s s' _ S). intros Fs. unfold for_encryption, for_decryption in X.
    destruct m, (s_mode s), (b_iv_is_fresh (w_bundle w)); cbn in X; try discriminate; apply Ok_inj in X; subst s'; auto.
  - destruct (nth_error (w_shmacs w) i0) as [s|] eqn:S; [|exact W].
    destruct (register_shmac (w_bundle w)) as [b|]; [|exact W]. destruct (check_modes m r (b, s)); exact W.
  - destruct (nth_error (w_gens w) g) as [x|]; [|exact W]. destruct (negb (g_live x)); [exact W|].
    destruct (nth_error (w_shmacs w) (g_shmac x)) as [s|] eqn:S; [|exact W].
    destruct (transform H c (g_mode x) (g_first x) (w_bundle w, s) block) as [[out [b' s']]|] eqn:Tr.
    + apply transform_same in Tr. destruct Tr as (Fs & _ & M). cbn [snd].
      assert (X : tagged i t (set_shmac (set_bundle w b') (g_shmac x) s')).
      { apply (Sh (g_shmac x) s s' _ S). congruence. }
      exact X.
    + pose proof (left_behind_same H c (g_mode x) (g_first x) (w_bundle w) s block) as (_ & M & _).
      destruct (left_behind H c (g_mode x) (g_first x) (w_bundle w, s) block) as [b' s'] eqn:Lb. cbn [snd] in *.
      assert (X : tagged i t (set_shmac (set_bundle w b') (g_shmac x) s')).
      { apply (Sh (g_shmac x) s s' _ S). destruct M as (_ & M1 & M2). intros Fs. split; congruence. }
      exact X.
  - destruct (nth_error (w_shmacs w) i0); exact W.
  - destruct (nth_error (w_shmacs w) i0); exact W.
  - destruct (nth_error (w_shmacs w) i0) as [s|] eqn:S; [|exact W].
    unfold finalize. destruct (s_finalized s) eqn:Fs; [exact W|]. cbn [snd].
    replace (set_shmac w i0 _) with (set_shmac (set_bundle w (w_bundle w)) i0
      {| s_mode := s_mode s; s_finalized := true; s_result := Some (shmac_result H c (b_mac (w_bundle w)));
         s_prev := s_prev s; s_cur := s_cur s; s_perm := s_perm s |}) by (now destruct w).
    apply (Sh i0 s _ _ S). congruence.
  - destruct (nth_error (w_shmacs w) i0); exact W.
  - destruct (nth_error (w_shmacs w) i0); exact W.
Qed.
Lemma tagged_turns i t : forall l w, tagged i t w -> tagged i t (snd (one_at_a_time H c w l)).
Proof.
  induction l as [|[k|g] l IH]; intros w W; cbn; [exact W| |apply IH; now apply tagged_close].
  apply (tagged_step i t w k) in W. destruct (step H c w k) as [r w']. cbn [snd] in W. apply IH in W.
  destruct (one_at_a_time H c w' l). exact W.
Qed.

Definition sound_results (w : world) : Prop :=
  forall i h, nth_error (w_shmacs w) i = Some h -> s_result h <> None -> s_finalized h = true.

Lemma sound_step w k : sound_results w -> sound_results (snd (step H c w k)).
Proof.
  intros W.
  assert (Sh : forall j s s' b, nth_error (w_shmacs w) j = Some s ->
    (s_result s' <> None -> s_finalized s' = true) -> sound_results (set_shmac (set_bundle w b) j s')).
  { intros j s s' b Ej P i h. cbn. rewrite nth_error_replace. destruct (Nat.eqb_spec j i) as [->|Ne]; [|apply W].
    rewrite Ej. intros [= <-]. exact P. }
  destruct k; cbn [step].
  - destruct (set_run_mode r (w_bundle w)); exact W.
  - destruct (make_shmac H c (w_bundle w)) as [s|] eqn:M; [|exact W]. intros i h E. cbn in E.
    destruct (Nat.ltb_spec i (length (w_shmacs w))) as [L|L].
    + rewrite nth_error_app1 in E by exact L. now apply W with i.
    + rewrite nth_error_app2 in E by exact L. destruct (i - length (w_shmacs w)) as [|n]; cbn in E; [|now destruct n].
      injection E as <-. apply make_shmac_new in M. destruct M as (_ & _ & M). congruence.
  - destruct (nth_error (w_shmacs w) i) as [s|] eqn:S; [|exact W].
    destruct (match m with Encryption => for_encryption (w_bundle w) s | Decryption => for_decryption (w_bundle w) s end) as [s'|] eqn:X; [|exact W].
    cbn [snd]. replace (set_shmac w i s') with (set_shmac (set_bundle w (w_bundle w)) i s') by (now destruct w).
    apply (Sh i s s' _ S). specialize (W i s S). unfold for_encryption, for_decryption in X.
    destruct m, (s_mode s), (b_iv_is_fresh (w_bundle w)); cbn in X; try discriminate; apply Ok_inj in X; subst s'; auto.
  - destruct (nth_error (w_shmacs w) i) as [s|] eqn:S; [|exact W].
    destruct (register_shmac (w_bundle w)) as [b|]; [|exact W]. destruct (check_modes m r (b, s)); exact W.
  - destruct (nth_error (w_gens w) g) as [x|]; [|exact W]. destruct (negb (g_live x)); [exact W|].
    destruct (nth_error (w_shmacs w) (g_shmac x)) as [s|] eqn:S; [|exact W]. specialize (Sh (g_shmac x) s).
    destruct (transform H c (g_mode x) (g_first x) (w_bundle w, s) block) as [[out [b' s']]|] eqn:Tr.
    + apply transform_same in Tr. destruct Tr as (Fs & _ & _ & M1 & M2). cbn [snd].
      assert (X : sound_results (set_shmac (set_bundle w b') (g_shmac x) s')).
      { apply Sh; [exact S|]. specialize (W _ s S). rewrite M1, M2. exact W. }
      exact X.
    + pose proof (left_behind_same H c (g_mode x) (g_first x) (w_bundle w) s block) as (_ & M & _).
      destruct (left_behind H c (g_mode x) (g_first x) (w_bundle w, s) block) as [b' s'] eqn:Lb. cbn [snd] in *.
      assert (X : sound_results (set_shmac (set_bundle w b') (g_shmac x) s')).
      { apply Sh; [exact S|]. destruct M as (_ & M1 & M2). specialize (W _ s S). rewrite M1, M2. exact W. }
      exact X.
  - destruct (nth_error (w_shmacs w) i); exact W.
  - destruct (nth_error (w_shmacs w) i); exact W.
  - destruct (nth_error (w_shmacs w) i) as [s|] eqn:S; [|exact W].
    unfold finalize. destruct (s_finalized s) eqn:Fs; [exact W|]. cbn [snd].
    replace (set_shmac w i _) with (set_shmac (set_bundle w (w_bundle w)) i
      {| s_mode := s_mode s; s_finalized := true; s_result := Some (shmac_result H c (b_mac (w_bundle w)));
         s_prev := s_prev s; s_cur := s_cur s; s_perm := s_perm s |}) by (now destruct w).
    now apply (Sh i s _ _ S).
  - destruct (nth_error (w_shmacs w) i); exact W.
  - destruct (nth_error (w_shmacs w) i); exact W.
Qed.

(** A reply that shows a tag: the object has it from then on. *)
Lemma shown_tag i t w k r : sound_results w -> fst (step H c w k) = r -> shows i t (k, r) ->
  tagged i t (snd (step H c w k)) /\ (k = Finalize i -> forall t', ~ tagged i t' w).
Proof.
  intros W E S. destruct S as [[= -> ->]|[[= -> ->]|[= -> ->]]]; cbn [step] in *.
  - destruct (nth_error (w_shmacs w) i) as [s|] eqn:N; [|discriminate]. unfold finalize in *.
    destruct (s_finalized s) eqn:F; cbn in E |- *; [discriminate|]. injection E as E. split.
    + eexists. cbn. rewrite nth_error_replace, Nat.eqb_refl, N. split; [reflexivity|]. cbn. now rewrite E.
    + intros _ t' (h & Nh & _ & Fh). congruence.
  - destruct (nth_error (w_shmacs w) i) as [s|] eqn:N; [|discriminate]. cbn in E |- *.
    unfold result_of in E. destruct (s_result s) as [t'|] eqn:R; [|discriminate]. injection E as ->.
    split; [|discriminate]. exists s. split; [exact N|]. split; [exact R|]. apply (W i s N). congruence.
  - destruct (nth_error (w_shmacs w) i) as [s|] eqn:N; [|discriminate]. cbn in E |- *.
    unfold test_shmac, result_of in E. destruct (s_result s) as [t'|] eqn:R; [|discriminate]. cbn in E.
    destruct (bytes_eqb t t') eqn:Q; [|discriminate]. apply bytes_eqb_eq in Q. subst t'.
    split; [|discriminate]. exists s. split; [exact N|]. split; [exact R|]. apply (W i s N). congruence.
Qed.

Lemma tagged_same i t t' w : tagged i t w -> tagged i t' w -> t = t'.
Proof. intros (h & E & R & _) (h' & E' & R' & _). congruence. Qed.

Lemma shown_turns i t : forall l w, sound_results w -> forall x, In x (fst (one_at_a_time H c w l)) -> shows i t x ->
  tagged i t (snd (one_at_a_time H c w l)).
Proof.
  induction l as [|[k|g] l IH]; intros w W x I S; cbn in I |- *; [destruct I| |].
  - destruct (step H c w k) as [r w'] eqn:K. pose proof (sound_step w k W) as W'. rewrite K in W'. cbn in W'.
    specialize (IH w' W' x). pose proof (tagged_turns i t l w') as P.
    destruct (one_at_a_time H c w' l) as [rs w'']. cbn in I, IH, P |- *. destruct I as [<-|I]; [|now apply IH].
    apply P. destruct (shown_tag i t w k r W) as [Q _]; [now rewrite K|exact S|]. now rewrite K in Q.
  - assert (W' : sound_results (close g w)) by (unfold close; now destruct (nth_error (w_gens w) g)).
    now apply (IH (close g w) W' x).
Qed.

Lemma one_tag i t : forall l w l1 l2, sound_results w ->
  fst (one_at_a_time H c w l) = l1 ++ (Finalize i, Got t) :: l2 -> forall t', ~ In (Finalize i, Got t') l1.
Proof.
  intros l. induction l as [|[k|g] l IH]; intros w l1 l2 W E t' I; cbn in E.
  - now destruct l1.
  - destruct (step H c w k) as [r w'] eqn:K. pose proof (sound_step w k W) as W'. rewrite K in W'. cbn in W'.
    destruct (one_at_a_time H c w' l) as [rs w''] eqn:O. cbn in E. destruct l1 as [|y l1]; [destruct I|].
    injection E as <- E. destruct I as [J|I].
    + injection J as -> ->.
      destruct (shown_tag i t' w (Finalize i) (Got t') W) as [Q _]; [now rewrite K|now left|]. rewrite K in Q. cbn in Q.
      clear IH.
      assert (X : forall l w, sound_results w -> tagged i t' w -> ~ In (Finalize i, Got t) (fst (one_at_a_time H c w l))).
      { clear. induction l as [|[k|g] l IH]; intros w W Tg I; cbn in I; [destruct I| |].
        - destruct (step H c w k) as [r w'] eqn:K. pose proof (sound_step w k W) as W'. pose proof (tagged_step i t' w k Tg) as T'.
          rewrite K in W', T'. cbn in W', T'. specialize (IH w' W' T').
          destruct (one_at_a_time H c w' l) as [rs w'']. destruct I as [J|I]; [|now apply IH]. injection J as -> ->.
          destruct (shown_tag i t w (Finalize i) (Got t) W) as [_ Q]; [now rewrite K|now left|]. now apply (Q eq_refl t').
        - apply (IH (close g w)); [unfold close; now destruct (nth_error (w_gens w) g)|now apply tagged_close|exact I]. }
      apply (X l w' W' Q). rewrite O. cbn. rewrite E. apply in_or_app. cbn. auto.
    + eapply (IH w' l1 l2 W'); [rewrite O; exact E|exact I].
  - eapply (IH (close g w)); [unfold close; now destruct (nth_error (w_gens w) g)|exact E|exact I].
Qed.
End Tags.

(** ** Claims *)
Section Claims.
Variable H : hasher.
Variable c : cfg.
Hypothesis T : c_type c = ShakePermute.

Definition final (i : nat) (w : world) : Prop := exists h, nth_error (w_shmacs w) i = Some h /\ s_finalized h = true.

Lemma final_step i w k : final i (snd (step H c w k)) -> final i w \/ exists t, k = Finalize i /\ fst (step H c w k) = Got t.
Proof.
  intros (h & E & F).
  assert (D : (exists g block, k = Feed g block) \/ forall g block, k <> Feed g block).
  { destruct k; try (right; discriminate). left. eauto. }
  destruct D as [(g & block & ->)|N].
  - left. destruct (f_old _ _ (frame_feed H c T w g block) i h E) as (h0 & E0 & F0). exists h0. split; [exact E0|congruence].
  - destruct (step_final H c w k i h N E F) as [->|X]; [|left; exact X].
    cbn [step] in *. destruct (nth_error (w_shmacs w) i) as [s|] eqn:S; [|left; exists h; auto].
    unfold finalize in *. destruct (s_finalized s) eqn:Fs; [left; exists s; auto|right]. eexists. split; reflexivity.
Qed.
Lemma final_turns i : forall l w, final i (snd (one_at_a_time H c w l)) ->
  final i w \/ exists t, In (Finalize i, Got t) (fst (one_at_a_time H c w l)).
Proof.
  induction l as [|[k|g] l IH]; intros w F; cbn in F |- *; [auto| |].
  - destruct (step H c w k) as [r w'] eqn:K. specialize (IH w').
    destruct (one_at_a_time H c w' l) as [rs w'']. cbn [fst snd] in *.
    destruct (IH F) as [F'|(t & I)]; [|right; exists t; now right].
    pose proof (final_step i w k) as X. rewrite K in X. destruct (X F') as [X'|(t & -> & X')]; [auto|].
    right. exists t. left. cbn in X'. congruence.
  - destruct (IH _ F) as [F'|I]; [|auto]. left. unfold close in F'. now destruct (nth_error (w_gens w) g).
Qed.

Lemma sound_turns : forall l w, sound_results w -> sound_results (snd (one_at_a_time H c w l)).
Proof.
  induction l as [|[k|g] l IH]; intros w W; cbn; [exact W| |].
  - apply (sound_step H c w k) in W. destruct (step H c w k) as [r w']. cbn [snd] in W. apply IH in W.
    destruct (one_at_a_time H c w' l). exact W.
  - apply IH. unfold close. now destruct (nth_error (w_gens w) g).
Qed.
Lemma sound_unused b : sound_results (unused b).
Proof. intros i h E. now destruct i. Qed.

(** Which shmac an action claims, and where the pending finalizations come from. *)
Lemma act_claims s a i : ok H c s -> s_claimed (snd (act H c a s)) i = true ->
  s_claimed s i = true \/ final i (s_world (snd (act H c a s))) \/ exists u, s_tasks (snd (act H c a s)) u = Some (Finalizing i).
Proof.
  intros O. destruct a as [t k asy|t|t]; cbn [act].
  - unfold make. destruct (s_tasks s t) eqn:E; [auto|].
    assert (A : forall k s, s_claimed (snd (at_once H c k s)) i = true -> s_claimed s i = true).
    { intros k' s'. unfold at_once. destruct (step H c (s_world s') k'). auto. }
    destruct k; try (intros X; left; now apply A in X); try (destruct asy; intros X; left; [exact X|now apply A in X]).
    + assert (B : s_claimed (snd (begin_feed H c t g block s)) i = true -> s_claimed s i = true).
      { unfold begin_feed. destruct (nth_error (w_gens (s_world s)) g) as [x|]; [|auto].
        destruct (s_running s g); [auto|]. destruct (negb (g_live x)); [auto|].
        destruct (nth_error (w_shmacs (s_world s)) (g_shmac x)); [|auto].
        destruct (half H c (g_mode x) s0 block) as [[]|]; auto. }
      intros X. left. destruct (b_mode (w_bundle (s_world s))) as [[]|]; eauto.
    + unfold begin_finalize. destruct (nth_error (w_shmacs (s_world s)) i0) as [h|] eqn:S; [|auto].
      destruct (s_claimed s i0) eqn:C; [auto|]. destruct asy.
      * cbn. destruct (Nat.eqb_spec i i0) as [->|]; [|auto]. intros _. right. right. exists t. now rewrite Nat.eqb_refl.
      * unfold at_once. cbn [step claim s_world]. rewrite S. unfold finalize.
        assert (F : s_finalized h = false).
        { destruct (s_finalized h) eqn:F; [|reflexivity]. pose proof (o_claimed _ _ _ O _ _ S F). congruence. }
        rewrite F. cbn. destruct (Nat.eqb_spec i i0) as [->|]; [|auto]. intros _. right. left.
        eexists. cbn. rewrite nth_error_replace, Nat.eqb_refl, S. split; reflexivity.
  - unfold resume. destruct (s_tasks s t) as [p|]; [|auto].
    destruct p as [g bl out hashed|k|j].
    + intros X. left. revert X. unfold end_feed. cbn [s_world set_running set_task].
      destruct (nth_error (w_gens (s_world s)) g) as [x|]; [|auto].
      destruct (nth_error (w_shmacs (s_world s)) (g_shmac x)) as [h|]; [|auto].
      destruct (s_finalized h); auto.
    + unfold at_once. destruct (step H c (s_world (set_task s t None)) k). auto.
    + unfold at_once. destruct (step H c (s_world (set_task s t None)) (Finalize j)). auto.
  - unfold cancel. destruct (s_tasks s t) as [[]|]; auto.
Qed.

Lemma final_at_once i k s : final i (s_world s) -> final i (s_world (snd (at_once H c k s))).
Proof.
  intros (h & E & F). unfold at_once. destruct (step H c (s_world s) k) as [r w] eqn:K. cbn [snd set_world s_world].
  assert (D : (exists g block, k = Feed g block) \/ forall g block, k <> Feed g block).
  { destruct k; try (right; discriminate). left. eauto. }
  pose proof (f_equal snd K) as Kw. cbn [snd] in Kw. subst w. destruct D as [(g & block & ->)|N].
  - pose proof (frame_feed H c T (s_world s) g block) as Fr.
    assert (X : nth_error (w_shmacs (s_world s)) i <> None) by congruence. apply (f_new _ _ Fr) in X.
    destruct (nth_error (w_shmacs (snd (step H c (s_world s) (Feed g block)))) i) as [h'|] eqn:E'; [|now elim X].
    destruct (f_old _ _ Fr i h' E') as (h0 & E0 & F0). exists h'. split; [exact E'|congruence].
  - destruct k; cbn [step]; try (now exists h).
    + destruct (set_run_mode r0 (w_bundle (s_world s))); now exists h.
    + destruct (make_shmac H c (w_bundle (s_world s))); [|now exists h]. exists h. cbn. split; [|exact F].
      rewrite nth_error_app1; [exact E|]. apply nth_error_Some. congruence.
    + destruct (nth_error (w_shmacs (s_world s)) i0) as [q|] eqn:S; [|now exists h].
      destruct (match m with Encryption => for_encryption (w_bundle (s_world s)) q | Decryption => for_decryption (w_bundle (s_world s)) q end) as [q'|] eqn:X; [|now exists h].
      unfold final. cbn. rewrite nth_error_replace. destruct (Nat.eqb_spec i0 i) as [->|]; [|now exists h].
      rewrite S. exists q'. split; [reflexivity|]. replace q with h in X by congruence. unfold for_encryption, for_decryption in X.
      destruct m, (s_mode h), (b_iv_is_fresh (w_bundle (s_world s))); cbn in X; try discriminate; apply Ok_inj in X; subst q'; exact F.
    + destruct (nth_error (w_shmacs (s_world s)) i0) as [q|] eqn:S; [|now exists h].
      destruct (register_shmac (w_bundle (s_world s))) as [b|]; [|now exists h]. destruct (check_modes m r0 (b, q)); now exists h.
    + now elim (N g block).
    + destruct (nth_error (w_shmacs (s_world s)) i0); now exists h.
    + destruct (nth_error (w_shmacs (s_world s)) i0); now exists h.
    + destruct (nth_error (w_shmacs (s_world s)) i0) as [q|] eqn:S; [|now exists h].
      unfold finalize. destruct (s_finalized q) eqn:Fq; [now exists h|]. unfold final. cbn. rewrite nth_error_replace.
      destruct (Nat.eqb_spec i0 i) as [->|]; [congruence|now exists h].
    + destruct (nth_error (w_shmacs (s_world s)) i0); now exists h.
    + destruct (nth_error (w_shmacs (s_world s)) i0); now exists h.
Qed.

Lemma final_close i g w : final i w -> final i (close g w).
Proof. unfold close. now destruct (nth_error (w_gens w) g). Qed.
Lemma final_stays i : forall l w, final i w -> final i (snd (one_at_a_time H c w l)).
Proof.
  induction l as [|[k|g] l IH]; intros w W; cbn; [exact W| |apply IH; now apply final_close].
  pose proof (final_at_once i k {| s_world := w; s_claimed := fun _ => false; s_running := fun _ => false; s_tasks := fun _ => None |} W) as X.
  unfold at_once in X. cbn in X. destruct (step H c w k) as [r w']. cbn in X. apply IH in X.
  destruct (one_at_a_time H c w' l). exact X.
Qed.
Lemma final_act i a s : ok H c s -> final i (s_world s) -> final i (s_world (snd (act H c a s))).
Proof.
  intros O F. destruct (act_matches H c T s a O) as (turns & _ & E). pose proof (final_stays i turns _ F) as X. now rewrite E in X.
Qed.

(** A task that was finalizing goes on, is finished or was cancelled. *)
Lemma finalizing_act i a s u : ok H c s -> s_tasks s u = Some (Finalizing i) ->
  final i (s_world (snd (act H c a s))) \/ a = Cancel u \/ s_tasks (snd (act H c a s)) u = Some (Finalizing i).
Proof.
  intros O E. destruct a as [t k asy|t|t]; cbn [act].
  - unfold make. destruct (s_tasks s t) eqn:Et; [auto|].
    assert (N : Nat.eqb u t = false) by (apply Nat.eqb_neq; congruence).
    assert (A : forall k s, s_tasks s u = Some (Finalizing i) -> s_tasks (snd (at_once H c k s)) u = Some (Finalizing i)).
    { intros k' s'. unfold at_once. destruct (step H c (s_world s') k'). auto. }
    assert (B : forall p s, s_tasks s u = Some (Finalizing i) -> s_tasks (set_task s t p) u = Some (Finalizing i)).
    { intros p s'. cbn. now rewrite N. }
    right. right. destruct k; try (now apply A); try (destruct asy; [now apply B|now apply A]).
    + destruct (b_mode (w_bundle (s_world s))) as [[]|]; try (now apply A).
      unfold begin_feed. destruct (nth_error (w_gens (s_world s)) g) as [x|]; [|auto].
      destruct (s_running s g); [auto|]. destruct (negb (g_live x)); [auto|].
      destruct (nth_error (w_shmacs (s_world s)) (g_shmac x)); [|auto].
      destruct (half H c (g_mode x) s0 block) as [[]|]; [|auto]. cbn [snd]. now apply B.
    + unfold begin_finalize. destruct (nth_error (w_shmacs (s_world s)) i0); [|auto].
      destruct (s_claimed s i0); [auto|]. destruct asy; [apply B; exact E|now apply A].
  - destruct (Nat.eqb_spec u t) as [->|N].
    + left. unfold resume. rewrite E. unfold at_once. cbn [step set_task s_world].
      pose proof (o_tasks _ _ _ O _ _ E) as U.
      destruct (nth_error (w_shmacs (s_world s)) i) as [h|] eqn:S.
      * unfold finalize. rewrite (o_not_yet _ _ _ O _ _ _ E S). eexists. cbn. rewrite nth_error_replace, Nat.eqb_refl, S.
        split; reflexivity.
      * elim (o_claims _ _ _ O i); [|exact S]. exact U.
    + right. right. unfold resume. destruct (s_tasks s t) as [p|]; [|auto].
      assert (B : s_tasks (set_task s t None) u = Some (Finalizing i)).
      { cbn. apply Nat.eqb_neq in N. now rewrite N. }
      destruct p as [g bl out hashed|k|j].
      * unfold end_feed. cbn [s_world set_running set_task].
        destruct (nth_error (w_gens (s_world s)) g) as [x|]; [|exact B].
        destruct (nth_error (w_shmacs (s_world s)) (g_shmac x)) as [h|]; [|exact B].
        destruct (s_finalized h); exact B.
      * unfold at_once. destruct (step H c (s_world (set_task s t None)) k). exact B.
      * unfold at_once. destruct (step H c (s_world (set_task s t None)) (Finalize j)). exact B.
  - destruct (Nat.eqb_spec u t) as [->|N]; [auto|]. right. right. unfold cancel. cbn [snd].
    apply Nat.eqb_neq in N. destruct (s_tasks s t) as [[]|]; cbn; try rewrite N; auto.
Qed.

Lemma claimed_why b i : forall l, s_claimed (snd (run H c l (fresh b))) i = true ->
  final i (s_world (snd (run H c l (fresh b)))) \/
  (exists u, s_tasks (snd (run H c l (fresh b))) u = Some (Finalizing i)) \/
  (exists l1 u l2, l = l1 ++ Cancel u :: l2 /\ s_tasks (snd (run H c l1 (fresh b))) u = Some (Finalizing i)).
Proof.
  induction l as [|a l IH] using rev_ind; [discriminate|]. rewrite run_snoc. cbn [snd]. intros C.
  pose proof (run_ok H c T b l) as O. destruct (act_claims _ a i O C) as [C'|[F|U]]; [|auto|auto].
  destruct (IH C') as [F|[(u & E)|(l1 & u & l2 & -> & E)]].
  - left. now apply final_act.
  - destruct (finalizing_act i a _ u O E) as [F|[->|E']]; [auto| |eauto].
    right. right. exists l, u, []. auto.
  - right. right. exists l1, u, (l2 ++ [a]). rewrite <- app_assoc. auto.
Qed.

(** Only a claimed object is turned away. *)
Lemma refused_claimed b i : forall l, In (Finalize i, Raised PermissionErr) (fst (run H c l (fresh b))) ->
  exists l1 l2, l = l1 ++ l2 /\ s_claimed (snd (run H c l1 (fresh b))) i = true.
Proof.
  induction l as [|a l IH] using rev_ind; [intros []|]. rewrite run_snoc. cbn [fst]. intros I.
  apply in_app_or in I. destruct I as [I|I].
  - destruct (IH I) as (l1 & l2 & -> & C). exists l1, (l2 ++ [a]). rewrite <- app_assoc. auto.
  - exists l, [a]. split; [reflexivity|]. pose proof (run_ok H c T b l) as O. revert I. set (s := snd (run H c l (fresh b))) in *.
    assert (A : forall k s, In (Finalize i, Raised PermissionErr) (fst (at_once H c k s)) -> k = Finalize i).
    { intros k s'. unfold at_once. destruct (step H c (s_world s') k). cbn. intros [J|[]]. congruence. }
    destruct a as [t k asy|t|t]; cbn [act].
    + unfold make. destruct (s_tasks s t) eqn:E; [intros []|].
      destruct k; try (intros X; now apply A in X); try (destruct asy; intros X; [destruct X|now apply A in X]).
      * destruct (b_mode (w_bundle (s_world s))) as [[]|]; try (intros X; now apply A in X).
        unfold begin_feed. destruct (nth_error (w_gens (s_world s)) g) as [x|]; [|intros [J|[]]; discriminate].
        destruct (s_running s g); [intros [J|[]]; discriminate|]. destruct (negb (g_live x)); [intros [J|[]]; discriminate|].
        destruct (nth_error (w_shmacs (s_world s)) (g_shmac x)); [|intros [J|[]]; discriminate].
        destruct (half H c (g_mode x) s0 block) as [[]|]; [intros []|intros [J|[]]; discriminate].
      * unfold begin_finalize. destruct (nth_error (w_shmacs (s_world s)) i0) as [h|] eqn:S; [|intros [J|[]]; discriminate].
        destruct (s_claimed s i0) eqn:C; [intros [J|[]]; congruence|]. destruct asy; [intros []|].
        unfold at_once. cbn [step claim s_world]. rewrite S. unfold finalize.
        assert (F : s_finalized h = false).
        { destruct (s_finalized h) eqn:F; [|reflexivity]. pose proof (o_claimed _ _ _ O _ _ S F). congruence. }
        rewrite F. cbn. intros [J|[]]. discriminate.
    + unfold resume. destruct (s_tasks s t) as [p|] eqn:E; [|intros []]. destruct p as [g bl out hashed|k|j].
      * unfold end_feed. cbn [s_world set_running set_task].
        destruct (nth_error (w_gens (s_world s)) g) as [x|]; [|intros [J|[]]; discriminate].
        destruct (nth_error (w_shmacs (s_world s)) (g_shmac x)) as [h|]; [|intros [J|[]]; discriminate].
        destruct (s_finalized h); intros [J|[]]; discriminate.
      * intros X. apply A in X. subst k. pose proof (o_tasks _ _ _ O _ _ E) as U. destruct U.
      * intros X. apply A in X. injection X as ->. pose proof (o_tasks _ _ _ O _ _ E) as U. exact U.
    + intros [].
Qed.

(** After the cancellation of the task which was finalizing. *)
Definition stuck (i : nat) (s : shared) : Prop :=
  s_claimed s i = true /\ ~ final i (s_world s) /\ forall t, s_tasks s t <> Some (Finalizing i).

Lemma stuck_act i a s : ok H c s -> stuck i s -> stuck i (snd (act H c a s)).
Proof.
  intros O (C & F & N).
  assert (A : forall k s, k <> Finalize i -> stuck i s -> stuck i (snd (at_once H c k s))).
  { intros k s' K (C' & F' & N'). unfold at_once. pose proof (final_step i (s_world s') k) as X.
    destruct (step H c (s_world s') k) as [r w]. split; [exact C'|]. split; [|exact N'].
    cbn in X |- *. intros Y. destruct (X Y) as [Z|(t & Z & _)]; tauto. }
  assert (B : forall s t p, p <> Some (Finalizing i) -> stuck i s -> stuck i (set_task s t p)).
  { intros s' t p P (C' & F' & N'). split; [exact C'|]. split; [exact F'|]. intros u. cbn.
    destruct (Nat.eqb u t); [apply P|apply N']. }
  assert (D : forall s g, stuck i s -> stuck i (set_world s (close g (s_world s)))).
  { intros s' g (C' & F' & N'). split; [exact C'|]. split; [|exact N']. cbn. unfold close.
    now destruct (nth_error (w_gens (s_world s')) g). }
  assert (R : forall s g v, stuck i s -> stuck i (set_running s g v)) by (intros s' g v X; exact X).
  assert (S0 : stuck i s) by (split; auto).
  destruct a as [t k asy|t|t]; cbn [act].
  - unfold make. destruct (s_tasks s t) eqn:E; [exact S0|].
    destruct k; try (now apply A); try (destruct asy; [now apply B|now apply A]).
    + destruct (b_mode (w_bundle (s_world s))) as [[]|]; try (now apply A).
      unfold begin_feed. destruct (nth_error (w_gens (s_world s)) g) as [x|]; [|exact S0].
      destruct (s_running s g); [exact S0|]. destruct (negb (g_live x)); [exact S0|].
      destruct (nth_error (w_shmacs (s_world s)) (g_shmac x)); [|exact S0].
      destruct (half H c (g_mode x) s0 block) as [[]|]; cbn [snd]; [now apply R, B|now apply D].
    + unfold begin_finalize. destruct (nth_error (w_shmacs (s_world s)) i0) as [h|] eqn:S; [|exact S0].
      destruct (s_claimed s i0) eqn:C0; [exact S0|]. assert (Ni : i0 <> i) by congruence.
      assert (S1 : stuck i (claim s i0)). { split; [|split; auto]. cbn. now destruct (Nat.eqb i i0). }
      destruct asy; [apply B; [congruence|exact S1]|apply A; [congruence|exact S1]].
  - unfold resume. destruct (s_tasks s t) as [p|] eqn:E; [|exact S0].
    assert (S1 : stuck i (set_task s t None)) by (now apply B).
    destruct p as [g bl out hashed|k|j].
    + unfold end_feed. cbn [s_world set_running set_task].
      destruct (nth_error (w_gens (s_world s)) g) as [x|]; [|exact S1].
      destruct (nth_error (w_shmacs (s_world s)) (g_shmac x)) as [h|] eqn:S; [|exact S1].
      destruct (s_finalized h) eqn:Fh; [cbn [snd]; apply (D (set_running (set_task s t None) g false)); exact S1|].
      destruct S1 as (C1 & F1 & N1). cbn. split; [exact C1|]. split; [|exact N1].
      intros (q & Q & Fq). cbn in Q. rewrite nth_error_replace in Q. destruct (Nat.eqb_spec (g_shmac x) i) as [<-|].
      * rewrite S in Q. injection Q as <-. cbn in Fq. congruence.
      * apply F. now exists q.
    + apply A; [|exact S1]. pose proof (o_tasks _ _ _ O _ _ E) as U. intros ->. destruct U.
    + apply A; [|exact S1]. intros [= ->]. now elim (N t).
  - unfold cancel. destruct (s_tasks s t) as [[]|]; cbn [snd]; [|now apply B|now apply B|exact S0].
    apply R. apply (D (set_task s t None)). now apply B.
Qed.

Lemma stuck_run b i l1 u l2 : s_tasks (snd (run H c l1 (fresh b))) u = Some (Finalizing i) ->
  stuck i (snd (run H c (l1 ++ Cancel u :: l2) (fresh b))).
Proof.
  intros E. induction l2 as [|a l2 IH] using rev_ind.
  - rewrite run_snoc. cbn [snd act]. pose proof (run_ok H c T b l1) as O. set (s := snd (run H c l1 (fresh b))) in *.
    unfold cancel. rewrite E. split; [pose proof (o_tasks _ _ _ O _ _ E); exact H0|]. split.
    + intros (h & S & F). cbn in S. rewrite (o_not_yet _ _ _ O _ _ _ E S) in F. discriminate.
    + intros t. cbn. destruct (Nat.eqb_spec t u) as [->|N]; [discriminate|]. intros E'. elim N. exact (o_one _ _ _ O _ _ _ E' E).
  - change (l1 ++ Cancel u :: l2 ++ [a]) with (l1 ++ (Cancel u :: l2) ++ [a]). rewrite app_assoc, run_snoc. cbn [snd].
    apply stuck_act; [apply run_ok; exact T|exact IH].
Qed.

(** The turns of a run show the same tags. *)
Lemma shown_run b i t l x : In x (fst (run H c l (fresh b))) -> shows i t x -> tagged i t (s_world (snd (run H c l (fresh b)))).
Proof.
  intros I S. destruct (run_matches H c T b l) as (turns & _ & E).
  pose proof (shown_turns H c i t turns (unused b) (sound_unused b) x) as X. rewrite E in X. cbn [fst snd] in X.
  apply X; [|exact S]. apply filter_In. split; [exact I|]. destruct S as [->|[->| ->]]; reflexivity.
Qed.

(** A generator runs only inside a task. *)
Definition held (s : shared) : Prop := forall g, s_running s g = true ->
  exists t block out hashed, s_tasks s t = Some (Feeding g block out hashed).

Lemma at_once_same k s : s_running (snd (at_once H c k s)) = s_running s /\ s_tasks (snd (at_once H c k s)) = s_tasks s.
Proof. unfold at_once. now destruct (step H c (s_world s) k). Qed.

Lemma held_act s a : held s -> held (snd (act H c a s)).
Proof.
  intros O.
  assert (A : forall k s, held s -> held (snd (at_once H c k s))).
  { intros k s' O'. unfold held. destruct (at_once_same k s') as [-> ->]. exact O'. }
  assert (B : forall s t p, s_tasks s t = None -> held s -> held (set_task s t p)).
  { intros s' t p N O' g R. destruct (O' g R) as (u & bl & out & hs & E). exists u, bl, out, hs. cbn.
    destruct (Nat.eqb_spec u t) as [->|]; congruence. }
  assert (D : forall s t p, s_tasks s t = Some p -> match p with Feeding _ _ _ _ => False | _ => True end -> held s -> held (set_task s t None)).
  { intros s' t p N P O' g R. destruct (O' g R) as (u & bl & out & hs & E). exists u, bl, out, hs. cbn.
    destruct (Nat.eqb_spec u t) as [->|]; [|exact E]. rewrite E in N. injection N as <-. destruct P. }
  assert (F : forall t g bl out hs, s_tasks s t = Some (Feeding g bl out hs) -> held (set_running (set_task s t None) g false)).
  { intros t g bl out hs N g' R. cbn in R |- *. destruct (Nat.eqb_spec g' g) as [G|G]; [discriminate|].
    destruct (O g' R) as (u & bl' & out' & hs' & E). exists u, bl', out', hs'.
    destruct (Nat.eqb_spec u t) as [X|]; [|exact E]. subst u. elim G. congruence. }
  assert (W : forall s w, held s -> held (set_world s w)) by (intros s' w X; exact X).
  destruct a as [t k asy|t|t]; cbn [act].
  - unfold make. destruct (s_tasks s t) eqn:E; [exact O|].
    destruct k; try (now apply A); try (destruct asy; [now apply B|now apply A]).
    + destruct (b_mode (w_bundle (s_world s))) as [[]|]; try (now apply A).
      unfold begin_feed. destruct (nth_error (w_gens (s_world s)) g) as [x|]; [|exact O].
      destruct (s_running s g) eqn:R; [exact O|]. destruct (negb (g_live x)); [exact O|].
      destruct (nth_error (w_shmacs (s_world s)) (g_shmac x)) as [h|]; [|exact O].
      destruct (half H c (g_mode x) h block) as [[out hashed]|]; cbn [snd]; [|now apply W].
      intros g' R'. cbn in R' |- *. destruct (Nat.eqb_spec g' g) as [Y|G].
      * subst g'. exists t, block, out, hashed. now rewrite Nat.eqb_refl.
      * destruct (B s t (Some (Feeding g block out hashed)) E O g' R') as (u & X). exists u. exact X.
    + unfold begin_finalize. destruct (nth_error (w_shmacs (s_world s)) i) as [h|]; [|exact O].
      destruct (s_claimed s i); [exact O|]. destruct asy; [now apply (B (claim s i))|now apply A].
  - unfold resume. destruct (s_tasks s t) as [p|] eqn:E; [|exact O]. destruct p as [g bl out hashed|k|j].
    + apply F in E. unfold end_feed. cbn [s_world set_running set_task].
      destruct (nth_error (w_gens (s_world s)) g) as [x|]; [|exact E].
      destruct (nth_error (w_shmacs (s_world s)) (g_shmac x)) as [h|]; [|exact E].
      destruct (s_finalized h); apply W; exact E.
    + apply A. now apply (D s t (Asking k)).
    + apply A. now apply (D s t (Finalizing j)).
  - unfold cancel. cbn [snd]. destruct (s_tasks s t) as [[]|] eqn:E; [|now eapply D; eauto; exact I|now eapply D; eauto; exact I|exact O].
    apply F in E. exact E.
Qed.
Lemma held_run b : forall l, held (snd (run H c l (fresh b))).
Proof.
  induction l as [|a l IH] using rev_ind; [intros g R; discriminate|]. rewrite run_snoc. cbn [snd]. now apply held_act.
Qed.

(** Only such a generator turns a caller away. *)
Lemma busy_act s a g block : ok H c s -> In (Feed g block, Raised RuntimeErr) (fst (act H c a s)) -> s_running s g = true.
Proof.
  intros O.
  assert (A : forall k s, In (Feed g block, Raised RuntimeErr) (fst (at_once H c k s)) -> k = Feed g block).
  { intros k s'. unfold at_once. destruct (step H c (s_world s') k). cbn. intros [J|[]]. congruence. }
  assert (A' : forall k s, ~ In (Feed g block, Raised RuntimeErr) (fst (at_once H c k s))).
  { intros k s' J. pose proof (A _ _ J) as ->. revert J. unfold at_once. rewrite (step_feed H c T).
    destruct (nth_error (w_gens (s_world s')) g) as [x|]; [|intros [J|[]]; discriminate].
    destruct (negb (g_live x)); [intros [J|[]]; discriminate|].
    destruct (nth_error (w_shmacs (s_world s')) (g_shmac x)) as [h|]; [|intros [J|[]]; discriminate].
    destruct (half H c (g_mode x) h block) as [[out hashed]|e] eqn:Hf; [intros [J|[]]; discriminate|].
    intros [J|[]]. injection J as ->. now apply half_err in Hf. }
  destruct a as [t k asy|t|t]; cbn [act].
  - unfold make. destruct (s_tasks s t) eqn:E; [intros []|].
    destruct k; try (intros X; now apply A' in X); try (destruct asy; intros X; [destruct X|now apply A' in X]).
    + destruct (b_mode (w_bundle (s_world s))) as [[]|]; try (intros X; now apply A' in X).
      unfold begin_feed. destruct (nth_error (w_gens (s_world s)) g0) as [x|]; [|intros [J|[]]; discriminate].
      destruct (s_running s g0) eqn:R; [intros [J|[]]; congruence|]. destruct (negb (g_live x)); [intros [J|[]]; discriminate|].
      destruct (nth_error (w_shmacs (s_world s)) (g_shmac x)) as [h|]; [|intros [J|[]]; discriminate].
      destruct (half H c (g_mode x) h block0) as [[]|] eqn:Hf; [intros []|]. intros [J|[]]. injection J as -> -> ->. now apply half_err in Hf.
    + unfold begin_finalize. destruct (nth_error (w_shmacs (s_world s)) i) as [h|]; [|intros [J|[]]; discriminate].
      destruct (s_claimed s i); [intros [J|[]]; discriminate|]. destruct asy; [intros []|]. intros X. now apply A' in X.
  - unfold resume. destruct (s_tasks s t) as [p|] eqn:E; [|intros []]. destruct p as [g' bl out hashed|k|j].
    + unfold end_feed. cbn [s_world set_running set_task].
      destruct (nth_error (w_gens (s_world s)) g') as [x|]; [|intros [J|[]]; discriminate].
      destruct (nth_error (w_shmacs (s_world s)) (g_shmac x)) as [h|]; [|intros [J|[]]; discriminate].
      destruct (s_finalized h); intros [J|[]]; discriminate.
    + intros X. now apply A' in X.
    + intros X. now apply A' in X.
  - intros [].
Qed.
Lemma busy_run b g block : forall l, In (Feed g block, Raised RuntimeErr) (fst (run H c l (fresh b))) ->
  exists l1 l2, l = l1 ++ l2 /\ s_running (snd (run H c l1 (fresh b))) g = true.
Proof.
  induction l as [|a l IH] using rev_ind; [intros []|]. rewrite run_snoc. cbn [fst]. intros I.
  apply in_app_or in I. destruct I as [I|I].
  - destruct (IH I) as (l1 & l2 & -> & C). exists l1, (l2 ++ [a]). rewrite <- app_assoc. auto.
  - exists l, [a]. split; [reflexivity|]. eapply busy_act; [|exact I]. now apply run_ok.
Qed.
End Claims.
