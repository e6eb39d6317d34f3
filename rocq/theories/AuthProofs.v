(** * Proofs about the life cycle of authenticators *)
From Coq Require Import ZArith Lia ZifyBool ZifyNat ZifyN.
From Verif Require Import Base BaseFacts CanonModel PermModel ClockModel CipherModel AuthModel AuthSpec.
Local Open Scope N_scope.

Lemma nth_error_replace {A} : forall i (x : A) l j,
  nth_error (replace_nth i x l) j =
  if Nat.eqb i j then match nth_error l i with Some _ => Some x | None => None end else nth_error l j.
Proof.
  induction i as [|i IH]; intros x [|y l] [|j]; cbn; try reflexivity.
  - now destruct (Nat.eqb i j).
  - apply IH.
Qed.
Lemma replace_nth_length {A} : forall i (x : A) l, length (replace_nth i x l) = length l.
Proof. induction i; intros x [|y l]; cbn; auto. Qed.
Lemma replace_nth_same {A} : forall i (x : A) l, nth_error l i = Some x -> replace_nth i x l = l.
Proof.
  induction i; intros x [|y l] E; cbn in *; try discriminate.
  - now injection E as ->.
  - now rewrite IHi.
Qed.

Local Arguments check_modes : simpl never.
Local Arguments register_shmac : simpl never.
Local Arguments set_run_mode : simpl never.
Local Arguments make_shmac : simpl never.
Local Arguments for_encryption : simpl never.
Local Arguments for_decryption : simpl never.
Local Arguments finalize : simpl never.
Local Arguments left_behind : simpl never.
Local Arguments transform : simpl never.
Local Arguments next_block_id : simpl never.
Local Arguments test_next_block_id : simpl never.
Local Arguments test_shmac : simpl never.

Section Facts.
Variable H : hasher.
Variable c : cfg.

(** The parts of a bundle and of an authenticator which processing data leaves alone. *)
Definition same_bundle (b b' : bundle) : Prop :=
  b_salt b' = b_salt b /\ b_aad b' = b_aad b /\ b_iv b' = b_iv b /\
  b_iv_is_fresh b' = b_iv_is_fresh b /\ b_mode b' = b_mode b /\ b_registered b' = b_registered b.
Definition same_shmac (s s' : shmac) : Prop :=
  s_mode s' = s_mode s /\ s_finalized s' = s_finalized s /\ s_result s' = s_result s.

Ltac same := unfold same_bundle, same_shmac; cbn; auto 12.

Lemma transform_same m first b s block out b' s' :
  transform H c m first (b, s) block = Ok (out, (b', s')) ->
  s_finalized s = false /\ same_bundle b b' /\ same_shmac s s'.
Proof.
  unfold transform. intros E.
  assert (F : s_finalized s = false).
  { destruct (s_finalized s) eqn:F; [exfalso|reflexivity].
    destruct (c_type c), m, first;
      cbn in E; rewrite ?F in E; cbn in E; try discriminate;
      repeat (apply bind_ok in E as (? & _ & E); cbn in E; rewrite ?F in E; try discriminate). }
  split; [exact F|].
  destruct (c_type c), m, first; cbn in E; rewrite F in E || idtac;
    repeat (apply bind_ok in E as (? & _ & E); cbn in E; rewrite ?F in E);
    cbn in E; injection E as <- <- <-; same.
Qed.

Lemma left_behind_same m first b s block :
  same_bundle b (fst (left_behind H c m first (b, s) block)) /\
  same_shmac s (snd (left_behind H c m first (b, s) block)) /\
  (s_finalized s = true -> left_behind H c m first (b, s) block = (b, s)).
Proof.
  unfold left_behind. destruct (s_finalized s); [same|].
  destruct (c_type c); [same|]. destruct first.
  - destruct m; match goal with |- context [bind ?x ?y] => destruct (bind x y) end; same;
      (split; [same|split; [same|discriminate]]).
  - destruct m; cbn; (split; [same|split; [same|discriminate]]).
Qed.

Lemma make_shmac_new b s : make_shmac H c b = Ok s ->
  s_mode s = None /\ s_finalized s = false /\ s_result s = None.
Proof.
  unfold make_shmac. destruct (b_mode b); [|discriminate]. intros E.
  apply bind_ok in E as (p & _ & E). injection E as <-. auto.
Qed.

(** A property of authenticators which only the call [k0] with the reply [r0]
    can bring about. *)
Definition somewhere (P : shmac -> Prop) (i : nat) (w : world) : Prop :=
  exists s, nth_error (w_shmacs w) i = Some s /\ P s.

Lemma nth_error_snoc {A} (l : list A) x i y : nth_error (l ++ [x]) i = Some y <->
  nth_error l i = Some y \/ (i = length l /\ y = x).
Proof.
  destruct (Nat.lt_trichotomy i (length l)) as [L|[L|L]].
  - rewrite nth_error_app1 by lia. split; [tauto|]. intros [E|[E _]]; [exact E|lia].
  - subst i. rewrite nth_error_app2 by lia. rewrite Nat.sub_diag. cbn.
    rewrite (proj2 (nth_error_None l (length l))) by lia.
    split; [intros E; injection E as ->; right; auto|intros [E|[_ ->]]; [discriminate|reflexivity]].
  - rewrite (proj2 (nth_error_None (l ++ [x]) i)) by (rewrite app_length; cbn; lia).
    rewrite (proj2 (nth_error_None l i)) by lia.
    split; [discriminate|]. intros [E|[E _]]; [discriminate|lia].
Qed.

Lemma somewhere_set P i w j s s' : nth_error (w_shmacs w) j = Some s ->
  (i <> j -> (somewhere P i (set_shmac w j s') <-> somewhere P i w)) /\
  (somewhere P j (set_shmac w j s') <-> P s') /\
  (somewhere P j w <-> P s).
Proof.
  intros E. unfold somewhere, set_shmac. cbn. split; [|split].
  - intros N. rewrite nth_error_replace. rewrite (proj2 (Nat.eqb_neq j i)) by lia. reflexivity.
  - rewrite nth_error_replace, Nat.eqb_refl, E.
    split; [intros (x & A & B); injection A as <-; exact B|eauto].
  - rewrite E. split; [intros (x & A & B); injection A as <-; exact B|eauto].
Qed.

Lemma step_shmacs w k i P :
  (forall b s, make_shmac H c b = Ok s -> ~ P s) ->
  (forall s s', same_shmac s s' -> (P s <-> P s')) ->
  somewhere P i (snd (step H c w k)) ->
  somewhere P i w \/
  (exists m s s', k = DeclareMode i m /\ fst (step H c w k) = Done /\ nth_error (w_shmacs w) i = Some s /\
     (match m with Encryption => for_encryption (w_bundle w) s
                 | Decryption => for_decryption (w_bundle w) s end) = Ok s' /\ P s') \/
  (exists t s s', k = Finalize i /\ fst (step H c w k) = Got t /\ nth_error (w_shmacs w) i = Some s /\
     finalize H c (w_bundle w) s = Ok (t, s') /\ P s').
Proof.
  intros New Same. destruct k; cbn [step].
  - destruct (set_run_mode r (w_bundle w)); cbn; intros X; left; exact X.
  - destruct (make_shmac H c (w_bundle w)) as [s|] eqn:E; cbn; auto.
    intros (s0 & A & B). cbn in A. apply nth_error_snoc in A as [A|[_ ->]].
    + left. exists s0; auto.
    + now apply New in E.
  - destruct (nth_error (w_shmacs w) i0) as [s|] eqn:E; cbn; auto.
    destruct (match m with Encryption => for_encryption (w_bundle w) s
              | Decryption => for_decryption (w_bundle w) s end) as [s'|] eqn:F; cbn; auto.
    destruct (somewhere_set P i w i0 s s' E) as (A & B & _).
    destruct (Nat.eq_dec i i0) as [->|N]; [|intros X; left; now apply A].
    intros X. apply B in X. right. left. exists m, s, s'. auto.
  - destruct (nth_error (w_shmacs w) i0); cbn; auto.
    destruct (register_shmac (w_bundle w)) as [b|]; cbn; auto.
    destruct (check_modes m r (b, s)); cbn; intros X; left; exact X.
  - destruct (nth_error (w_gens w) g) as [x|]; cbn; auto.
    destruct (g_live x); cbn; auto.
    destruct (nth_error (w_shmacs w) (g_shmac x)) as [s|] eqn:E; cbn; auto.
    intros X. left. revert X.
    assert (K : forall b' s' y, same_shmac s s' ->
      somewhere P i (set_gen (set_shmac (set_bundle w b') (g_shmac x) s') g y) -> somewhere P i w).
    { intros b' s' y Sm (z & Z1 & Z2). cbn in Z1. rewrite nth_error_replace, E in Z1.
      destruct (Nat.eqb_spec (g_shmac x) i) as [<-|N].
      - injection Z1 as <-. exists s. split; [exact E|]. now apply (Same s s').
      - exists z. auto. }
    destruct (transform H c (g_mode x) (g_first x) (w_bundle w, s) block) as [[out [b' s']]|e] eqn:F; cbn.
    + apply K. now apply transform_same in F.
    + destruct (left_behind_same (g_mode x) (g_first x) (w_bundle w) s block) as (_ & L & _).
      destruct (left_behind H c (g_mode x) (g_first x) (w_bundle w, s) block) as [b' s']. cbn in *. now apply K.
  - destruct (nth_error (w_shmacs w) i0); cbn; auto.
  - destruct (nth_error (w_shmacs w) i0); cbn; auto.
  - destruct (nth_error (w_shmacs w) i0) as [s|] eqn:E; cbn; auto.
    destruct (finalize H c (w_bundle w) s) as [[t s']|] eqn:F; cbn; auto.
    destruct (somewhere_set P i w i0 s s' E) as (A & B & _).
    destruct (Nat.eq_dec i i0) as [->|N]; [|intros X; left; now apply A].
    intros X. apply B in X. right. right. exists t, s, s'. auto.
  - destruct (nth_error (w_shmacs w) i0); cbn; auto.
  - destruct (nth_error (w_shmacs w) i0); cbn; auto.
Qed.

(** Conversely a property which the setters keep stays. *)
Lemma step_shmacs_keep w k i P :
  (forall s s', same_shmac s s' -> (P s <-> P s')) ->
  (forall b s s', for_encryption b s = Ok s' -> P s -> P s') ->
  (forall b s s', for_decryption b s = Ok s' -> P s -> P s') ->
  (forall b s s' t, finalize H c b s = Ok (t, s') -> P s -> P s') ->
  somewhere P i w -> somewhere P i (snd (step H c w k)).
Proof.
  intros Same Kenc Kdec Kfin W. destruct k; cbn [step].
  - destruct (set_run_mode r (w_bundle w)); cbn; exact W.
  - destruct (make_shmac H c (w_bundle w)) as [s|] eqn:E; cbn; auto.
    destruct W as (s0 & A & B). exists s0. cbn. split; [apply nth_error_snoc; auto|exact B].
  - destruct (nth_error (w_shmacs w) i0) as [s|] eqn:E; cbn; auto.
    destruct (match m with Encryption => for_encryption (w_bundle w) s
              | Decryption => for_decryption (w_bundle w) s end) as [s'|] eqn:F; cbn; auto.
    destruct (somewhere_set P i w i0 s s' E) as (A & B & C).
    destruct (Nat.eq_dec i i0) as [->|N]; [|now apply A].
    apply B. apply C in W. destruct m; eauto.
  - destruct (nth_error (w_shmacs w) i0); cbn; auto.
    destruct (register_shmac (w_bundle w)) as [b|]; cbn; auto.
    destruct (check_modes m r (b, s)); cbn; exact W.
  - destruct (nth_error (w_gens w) g) as [x|]; cbn; auto.
    destruct (g_live x); cbn; auto.
    destruct (nth_error (w_shmacs w) (g_shmac x)) as [s|] eqn:E; cbn; auto.
    assert (K : forall b' s' y, same_shmac s s' ->
      somewhere P i (set_gen (set_shmac (set_bundle w b') (g_shmac x) s') g y)).
    { intros b' s' y Sm. destruct W as (z & Z1 & Z2). unfold somewhere. cbn. rewrite nth_error_replace, E.
      destruct (Nat.eqb_spec (g_shmac x) i) as [<-|N].
      - rewrite E in Z1. injection Z1 as ->. exists s'. split; [reflexivity|]. now apply (Same z s').
      - exists z. auto. }
    destruct (transform H c (g_mode x) (g_first x) (w_bundle w, s) block) as [[out [b' s']]|e] eqn:F; cbn.
    + apply K. now apply transform_same in F.
    + destruct (left_behind_same (g_mode x) (g_first x) (w_bundle w) s block) as (_ & L & _).
      destruct (left_behind H c (g_mode x) (g_first x) (w_bundle w, s) block) as [b' s']. cbn in *. now apply K.
  - destruct (nth_error (w_shmacs w) i0); cbn; auto.
  - destruct (nth_error (w_shmacs w) i0); cbn; auto.
  - destruct (nth_error (w_shmacs w) i0) as [s|] eqn:E; cbn; auto.
    destruct (finalize H c (w_bundle w) s) as [[t s']|] eqn:F; cbn; auto.
    destruct (somewhere_set P i w i0 s s' E) as (A & B & C).
    destruct (Nat.eq_dec i i0) as [->|N]; [|now apply A].
    apply B. apply C in W. eauto.
  - destruct (nth_error (w_shmacs w) i0); cbn; auto.
  - destruct (nth_error (w_shmacs w) i0); cbn; auto.
Qed.

(** ** The bundle *)
Lemma step_bundle w k :
  let b := w_bundle w in let b' := w_bundle (snd (step H c w k)) in
  (b_salt b' = b_salt b /\ b_aad b' = b_aad b /\ b_iv b' = b_iv b /\ b_iv_is_fresh b' = b_iv_is_fresh b) /\
  (b_mode b' = b_mode b \/
   exists r, k = DeclareRun r /\ fst (step H c w k) = Done /\ b_mode b = None /\ b_mode b' = Some r) /\
  (b_registered b' = b_registered b \/
   exists i m r, k = Start i m r /\ fst (step H c w k) <> NoSuchObject /\ b_registered b = false /\
     b_registered b' = true).
Proof.
  cbv zeta. destruct k; cbn [step].
  - unfold set_run_mode. destruct (b_mode (w_bundle w)) eqn:E; cbn; [auto 10|].
    split; [auto 10|]. split; [|auto]. right. exists r. auto.
  - destruct (make_shmac H c (w_bundle w)); cbn; auto 10.
  - destruct (nth_error (w_shmacs w) i); cbn; [|auto 10].
    destruct (match m with Encryption => for_encryption (w_bundle w) s
              | Decryption => for_decryption (w_bundle w) s end); cbn; auto 10.
  - destruct (nth_error (w_shmacs w) i); cbn; [|auto 10].
    unfold register_shmac. destruct (b_registered (w_bundle w)) eqn:E; cbn; [rewrite E; auto 10|].
    match goal with |- context [check_modes m r ?x] => destruct (check_modes m r x) end; cbn;
      (split; [auto 10|]; split; [auto|]; right; exists i, m, r; repeat split; auto; discriminate).
  - destruct (nth_error (w_gens w) g) as [x|]; cbn; [|auto 10].
    destruct (g_live x); cbn; [|auto 10].
    destruct (nth_error (w_shmacs w) (g_shmac x)) as [s|] eqn:E; cbn; [|auto 10].
    destruct (transform H c (g_mode x) (g_first x) (w_bundle w, s) block) as [[out [b' s']]|e] eqn:F; cbn.
    + apply transform_same in F as (_ & (A1 & A2 & A3 & A4 & A5 & A6) & _). auto 10.
    + destruct (left_behind_same (g_mode x) (g_first x) (w_bundle w) s block)
        as ((A1 & A2 & A3 & A4 & A5 & A6) & _ & _).
      destruct (left_behind H c (g_mode x) (g_first x) (w_bundle w, s) block) as [b' s']. cbn in *. auto 10.
  - destruct (nth_error (w_shmacs w) i); cbn; auto 10.
  - destruct (nth_error (w_shmacs w) i); cbn; auto 10.
  - destruct (nth_error (w_shmacs w) i); cbn; [|auto 10].
    destruct (finalize H c (w_bundle w) s) as [[t s']|]; cbn; auto 10.
  - destruct (nth_error (w_shmacs w) i); cbn; auto 10.
  - destruct (nth_error (w_shmacs w) i); cbn; auto 10.
Qed.

(** ** The generators *)
Definition gen_is (i : nat) (m : cipher_mode) (g : nat) (w : world) : Prop :=
  exists x, nth_error (w_gens w) g = Some x /\ g_shmac x = i /\ g_mode x = m.

Lemma step_gens w k i m g :
  gen_is i m g (snd (step H c w k)) <->
  gen_is i m g w \/ (exists r, k = Start i m r /\ fst (step H c w k) = Made g).
Proof.
  assert (Id : forall w' rep, w_gens w' = w_gens w ->
    (forall i m r, k = Start i m r -> rep <> Made g) ->
    gen_is i m g w' <-> gen_is i m g w \/ (exists r, k = Start i m r /\ rep = Made g)).
  { intros w' rep E N. unfold gen_is. rewrite E. split; [auto|].
    intros [A|(r & A & B)]; [exact A|]. exfalso. eapply N; eauto. }
  destruct k; cbn [step].
  - destruct (set_run_mode r (w_bundle w)); cbn [fst snd]; apply Id; cbn; (reflexivity || discriminate).
  - destruct (make_shmac H c (w_bundle w)); cbn [fst snd]; apply Id; cbn; (reflexivity || discriminate).
  - destruct (nth_error (w_shmacs w) i0); [|cbn [fst snd]; apply Id; cbn; (reflexivity || discriminate)].
    destruct (match m0 with Encryption => for_encryption (w_bundle w) s
              | Decryption => for_decryption (w_bundle w) s end);
      cbn [fst snd]; apply Id; cbn; (reflexivity || discriminate).
  - destruct (nth_error (w_shmacs w) i0); [|cbn [fst snd]; apply Id; cbn; (reflexivity || discriminate)].
    destruct (register_shmac (w_bundle w)) as [b|]; [|cbn [fst snd]; apply Id; cbn; (reflexivity || discriminate)].
    destruct (check_modes m0 r (b, s)); [|cbn [fst snd]; apply Id; cbn; (reflexivity || discriminate)].
    cbn [fst snd]. unfold gen_is. cbn [w_gens]. split.
    + intros (x & A & B & C). apply nth_error_snoc in A as [A|[A ->]]; [left; eauto|].
      cbn in B, C. subst. right. exists r. auto.
    + intros [(x & A & B & C)|(r' & A & B)].
      * exists x. split; [apply nth_error_snoc; auto|auto].
      * injection A as -> -> ->. injection B as <-.
        eexists. split; [apply nth_error_snoc; right; split; reflexivity|auto].
  - destruct (nth_error (w_gens w) g0) as [x|] eqn:G; [|cbn [fst snd]; apply Id; cbn; (reflexivity || discriminate)].
    destruct (g_live x); cbn [negb]; [|cbn [fst snd]; apply Id; cbn; (reflexivity || discriminate)].
    destruct (nth_error (w_shmacs w) (g_shmac x)) as [s|] eqn:E; [|cbn [fst snd]; apply Id; cbn; (reflexivity || discriminate)].
    assert (K : forall w' y rep, w_gens w' = w_gens w -> g_shmac y = g_shmac x -> g_mode y = g_mode x ->
      gen_is i m g (set_gen w' g0 y) <->
      gen_is i m g w \/ (exists r, Feed g0 block = Start i m r /\ rep = Made g)).
    { intros w' y rep E1 E2 E3. unfold gen_is. cbn. rewrite E1, nth_error_replace, G.
      destruct (Nat.eqb_spec g0 g) as [<-|N].
      - split.
        + intros (z & A & B & C). injection A as <-. left. exists x. split; [exact G|]. now rewrite <- E2, <- E3.
        + intros [(z & A & B & C)|(r & A & _)]; [|discriminate].
          rewrite G in A. injection A as <-. exists y. now rewrite E2, E3.
      - split; [auto|]. intros [A|(r & A & _)]; [exact A|discriminate]. }
    destruct (transform H c (g_mode x) (g_first x) (w_bundle w, s) block) as [[out [b' s']]|e] eqn:F.
    + cbn [fst snd]. apply K; reflexivity.
    + destruct (left_behind H c (g_mode x) (g_first x) (w_bundle w, s) block) as [b' s'].
      cbn [fst snd]. apply K; reflexivity.
  - destruct (nth_error (w_shmacs w) i0); cbn [fst snd]; apply Id; cbn; (reflexivity || discriminate).
  - destruct (nth_error (w_shmacs w) i0); cbn [fst snd]; apply Id; cbn; (reflexivity || discriminate).
  - destruct (nth_error (w_shmacs w) i0); [|cbn [fst snd]; apply Id; cbn; (reflexivity || discriminate)].
    destruct (finalize H c (w_bundle w) s) as [[t s']|]; cbn [fst snd]; apply Id; cbn; (reflexivity || discriminate).
  - destruct (nth_error (w_shmacs w) i0); cbn [fst snd]; apply Id; cbn; (reflexivity || discriminate).
  - destruct (nth_error (w_shmacs w) i0); cbn [fst snd]; apply Id; cbn; (reflexivity || discriminate).
Qed.

(** ** Histories *)
Lemma after_app : forall l1 l2 w, after H c w (l1 ++ l2) = after H c (after H c w l1) l2.
Proof. induction l1; intros; cbn; auto. Qed.
Lemma after_snoc l k w : after H c w (l ++ [k]) = snd (step H c (after H c w l) k).
Proof. now rewrite after_app. Qed.

Lemma happened_nil w k r : ~ happened H c w [] k r.
Proof. intros (h & t & E & _). destruct h; discriminate. Qed.
Lemma happened_snoc w l k k' r : happened H c w (l ++ [k]) k' r <->
  happened H c w l k' r \/ (k' = k /\ reply_to H c w l k = r).
Proof.
  split.
  - intros (b & t & E & R). destruct t as [|y t _] using rev_ind.
    + apply app_inj_tail in E as [-> ->]. right. auto.
    + rewrite app_comm_cons, app_assoc in E. apply app_inj_tail in E as [-> <-].
      left. exists b, t. auto.
  - intros [(b & t & -> & R)|[-> R]].
    + exists b, (t ++ [k]). split; [now rewrite <- app_assoc|exact R].
    + exists l, []. auto.
Qed.
Lemma happened_app w l1 l2 k r : happened H c w l1 k r -> happened H c w (l1 ++ l2) k r.
Proof. intros (b & t & -> & R). exists b, (t ++ l2). split; [now rewrite <- app_assoc|exact R]. Qed.

Section From.
Variable b0 : bundle.
Hypothesis Nomode : b_mode b0 = None.
Hypothesis Noreg : b_registered b0 = false.
Notation W := (unused b0).

Lemma modes_hist l i m :
  somewhere (fun s => s_mode s = Some m) i (after H c W l) <-> happened H c W l (DeclareMode i m) Done.
Proof.
  induction l as [|k l IH] using rev_ind.
  - cbn. split; [intros (s & A & _); cbn in A; now destruct i|intros X; now apply happened_nil in X].
  - rewrite happened_snoc, after_snoc. unfold reply_to. split.
    + intros X. apply step_shmacs in X.
      * destruct X as [X|[X|X]]; [left; now apply IH| |].
        -- destruct X as (m' & s & s' & -> & D & E & F & G). right. rewrite D. split; [|reflexivity].
           destruct m'; unfold for_encryption, for_decryption in F; destruct (s_mode s); try discriminate;
             destruct (b_iv_is_fresh _); try discriminate; injection F as <-; cbn in G; congruence.
        -- destruct X as (t & s & s' & -> & D & E & F & G). left. apply IH.
           exists s. split; [exact E|]. unfold finalize in F. destruct (s_finalized s); [discriminate|].
           injection F as _ <-. exact G.
      * intros b s E. apply make_shmac_new in E as (E & _). congruence.
      * intros s s' (E & _). rewrite E. tauto.
    + intros [X|[<- X]].
      * apply IH in X. revert X. apply step_shmacs_keep.
        -- intros s s' (E & _). rewrite E. tauto.
        -- intros b s s' F G. unfold for_encryption in F. now rewrite G in F.
        -- intros b s s' F G. unfold for_decryption in F. now rewrite G in F.
        -- intros b s s' t F G. unfold finalize in F. destruct (s_finalized s); [discriminate|]. now injection F as _ <-.
      * cbn [step] in *. destruct (nth_error (w_shmacs (after H c W l)) i) as [s|] eqn:E; [|discriminate].
        destruct (match m with Encryption => for_encryption (w_bundle (after H c W l)) s
                  | Decryption => for_decryption (w_bundle (after H c W l)) s end) as [s'|] eqn:F; [|discriminate].
        cbn [snd]. apply (proj1 (proj2 (somewhere_set (fun s => s_mode s = Some m) i _ i s s' E))).
        destruct m; unfold for_encryption, for_decryption in F; destruct (s_mode s); try discriminate;
             destruct (b_iv_is_fresh _); try discriminate; injection F as <-; cbn; reflexivity.
Qed.

Lemma finalized_result l i s : nth_error (w_shmacs (after H c W l)) i = Some s ->
  (s_finalized s = true <-> s_result s <> None).
Proof.
  revert i s. induction l as [|k l IH] using rev_ind; intros i s E.
  - cbn in E. now destruct i.
  - rewrite after_snoc in E.
    assert (Sw : somewhere (fun s => ~ (s_finalized s = true <-> s_result s <> None)) i
            (snd (step H c (after H c W l) k)) -> False).
    { intros X. apply step_shmacs in X.
      - destruct X as [(x & A & B)|[X|X]]; [apply B; eapply IH; exact A| |].
        + destruct X as (m' & x & x' & -> & D & E' & F & G). apply G. specialize (IH _ _ E').
          destruct m'; unfold for_encryption, for_decryption in F; destruct (s_mode x); try discriminate;
            destruct (b_iv_is_fresh _); try discriminate; injection F as <-; exact IH.
        + destruct X as (t' & x & x' & -> & D & E' & F & G). apply G.
          unfold finalize in F. destruct (s_finalized x); [discriminate|]. injection F as _ <-. cbn.
          split; [discriminate|reflexivity].
      - intros b x A. apply make_shmac_new in A as (_ & A1 & A2). rewrite A1, A2.
        intros B. apply B. split; [discriminate|congruence].
      - intros x x' (_ & A1 & A2). rewrite A1, A2. tauto. }
    destruct (s_finalized s) eqn:F1, (s_result s) eqn:F2; try (split; (discriminate || reflexivity || congruence)).
    all: exfalso; apply Sw; exists s; split; [exact E|rewrite F1, F2]; intros [Y1 Y2].
    + now apply Y1.
    + discriminate (Y2 ltac:(discriminate)).
Qed.

Lemma results_hist l i t :
  somewhere (fun s => s_result s = Some t) i (after H c W l) <-> happened H c W l (Finalize i) (Got t).
Proof.
  induction l as [|k l IH] using rev_ind.
  - cbn. split; [intros (s & A & _); cbn in A; now destruct i|intros X; now apply happened_nil in X].
  - rewrite happened_snoc, after_snoc. unfold reply_to. split.
    + intros X. apply step_shmacs in X.
      * destruct X as [X|[X|X]]; [left; now apply IH| |].
        -- destruct X as (m' & s & s' & -> & D & E & F & G). left. apply IH. exists s. split; [exact E|].
           destruct m'; unfold for_encryption, for_decryption in F; destruct (s_mode s); try discriminate;
             destruct (b_iv_is_fresh _); try discriminate; injection F as <-; exact G.
        -- destruct X as (t' & s & s' & -> & D & E & F & G). right. rewrite D. split; [reflexivity|].
           unfold finalize in F. destruct (s_finalized s); [discriminate|].
           injection F as F1 <-. cbn in G. congruence.
      * intros b s E. apply make_shmac_new in E as (_ & _ & E). congruence.
      * intros s s' (_ & _ & E). rewrite E. tauto.
    + intros [X|[<- X]].
      * apply IH in X. destruct X as (s & A & B).
        set (Q := fun s => s_finalized s = true /\ s_result s = Some t).
        assert (Y : somewhere Q i (after H c W l)).
        { exists s. split; [exact A|]. split; [apply (finalized_result l i s A); congruence|exact B]. }
        apply (step_shmacs_keep _ k) in Y.
        -- destruct Y as (y & Y1 & _ & Y2). exists y. auto.
        -- intros x x' (_ & E1 & E2). unfold Q. rewrite E1, E2. tauto.
        -- intros b x x' F G. unfold for_encryption in F. destruct (s_mode x); try discriminate;
             destruct (b_iv_is_fresh _); try discriminate; injection F as <-; exact G.
        -- intros b x x' F G. unfold for_decryption in F. destruct (s_mode x); try discriminate;
             destruct (b_iv_is_fresh _); try discriminate; injection F as <-; exact G.
        -- intros b x x' t' F [G _]. unfold finalize in F. now rewrite G in F.
      * cbn [step] in *. destruct (nth_error (w_shmacs (after H c W l)) i) as [s|] eqn:E; [|discriminate].
        destruct (finalize H c (w_bundle (after H c W l)) s) as [[t' s']|] eqn:F; [|discriminate].
        cbn [snd fst] in *. apply (proj1 (proj2 (somewhere_set (fun s => s_result s = Some t) i _ i s s' E))).
        unfold finalize in F. destruct (s_finalized s); [discriminate|]. injection F as F1 <-. cbn. congruence.
Qed.

Lemma static_hist l : b_iv_is_fresh (w_bundle (after H c W l)) = b_iv_is_fresh b0 /\
  b_iv (w_bundle (after H c W l)) = b_iv b0 /\ b_salt (w_bundle (after H c W l)) = b_salt b0 /\
  b_aad (w_bundle (after H c W l)) = b_aad b0.
Proof.
  induction l as [|k l IH] using rev_ind; [auto|]. rewrite after_snoc.
  destruct (step_bundle (after H c W l) k) as ((A1 & A2 & A3 & A4) & _). rewrite A1, A2, A3, A4. tauto.
Qed.

Lemma run_hist l r : b_mode (w_bundle (after H c W l)) = Some r <-> happened H c W l (DeclareRun r) Done.
Proof.
  induction l as [|k l IH] using rev_ind.
  - cbn. rewrite Nomode. split; [discriminate|intros X; now apply happened_nil in X].
  - rewrite happened_snoc, after_snoc. unfold reply_to.
    destruct (step_bundle (after H c W l) k) as (_ & M & _). split.
    + intros X. destruct M as [M|(r' & -> & A & B & C)].
      * left. apply IH. congruence.
      * right. split; [congruence|exact A].
    + intros [X|[<- X]].
      * apply IH in X. destruct M as [M|(r' & -> & A & B & C)]; congruence.
      * cbn [step] in *. unfold set_run_mode in *.
        destruct (b_mode (w_bundle (after H c W l))); [discriminate|]. reflexivity.
Qed.

Lemma reg_hist l : b_registered (w_bundle (after H c W l)) = true <->
  exists i m r rep, happened H c W l (Start i m r) rep /\ rep <> NoSuchObject.
Proof.
  induction l as [|k l IH] using rev_ind.
  - cbn. rewrite Noreg. split; [discriminate|intros (i & m & r & rep & X & _); now apply happened_nil in X].
  - rewrite after_snoc. destruct (step_bundle (after H c W l) k) as (_ & _ & R). split.
    + intros X. destruct R as [R|(i & m & r & -> & A & B & C)].
      * rewrite R in X. apply IH in X as (i & m & r & rep & X & N).
        exists i, m, r, rep. split; [apply happened_snoc; auto|exact N].
      * exists i, m, r. eexists. split; [apply happened_snoc; right; split; reflexivity|exact A].
    + intros (i & m & r & rep & X & N). apply happened_snoc in X as [X|[<- X]].
      * assert (Y : b_registered (w_bundle (after H c W l)) = true) by (apply IH; eauto 10).
        destruct R as [R|(i' & m' & r' & _ & A & B & C)]; congruence.
      * unfold reply_to in X. cbn [step] in *.
        destruct (nth_error (w_shmacs (after H c W l)) i) as [s|] eqn:E; [|cbn in X; congruence].
        unfold register_shmac in *. destruct (b_registered (w_bundle (after H c W l))) eqn:G; [exact G|].
        match goal with |- context [check_modes m r ?x] => destruct (check_modes m r x) end; reflexivity.
Qed.

Lemma gens_hist l i m g : gen_is i m g (after H c W l) <->
  exists r, happened H c W l (Start i m r) (Made g).
Proof.
  induction l as [|k l IH] using rev_ind.
  - cbn. split; [intros (x & A & _); cbn in A; now destruct g|intros (r & X); now apply happened_nil in X].
  - rewrite after_snoc. rewrite step_gens, IH. unfold reply_to. split.
    + intros [(r & X)|(r & -> & X)]; exists r; apply happened_snoc; auto.
    + intros (r & X). apply happened_snoc in X as [X|[<- X]]; [left; eauto|right; eauto].
Qed.

(** What a mode says about the IV, and what a started generator needs. *)
Lemma mode_iv l i m : happened H c W l (DeclareMode i m) Done ->
  b_iv_is_fresh b0 = match m with Encryption => true | Decryption => false end.
Proof.
  intros (h & t & -> & R). unfold reply_to in R. cbn [step] in R.
  destruct (nth_error (w_shmacs (after H c W h)) i) as [s|] eqn:E; [|discriminate].
  destruct (static_hist h) as (F & _). rewrite <- F.
  destruct m; unfold for_encryption, for_decryption in R; destruct (s_mode s); try discriminate;
    destruct (b_iv_is_fresh (w_bundle (after H c W h))); try discriminate; reflexivity.
Qed.

Lemma start_needs l i m r g : happened H c W l (Start i m r) (Made g) ->
  exists h t, l = h ++ Start i m r :: t /\
    happened H c W h (DeclareMode i m) Done /\ happened H c W h (DeclareRun r) Done /\
    (forall i' m' r' rep, happened H c W h (Start i' m' r') rep -> rep = NoSuchObject).
Proof.
  intros (h & t & -> & R). exists h, t. split; [reflexivity|].
  unfold reply_to in R. cbn [step] in R.
  destruct (nth_error (w_shmacs (after H c W h)) i) as [s|] eqn:E; [|discriminate].
  unfold register_shmac in R. destruct (b_registered (w_bundle (after H c W h))) eqn:G; [discriminate|].
  unfold check_modes in R. destruct (s_mode s) as [m'|] eqn:M; [|discriminate].
  destruct (mode_eqb m' m) eqn:Mm; [|discriminate]. cbn in R.
  destruct (b_mode (w_bundle (after H c W h))) as [r'|] eqn:B; [|discriminate].
  destruct (run_mode_eqb r' r) eqn:Rr; [|discriminate].
  assert (m' = m) as -> by (destruct m', m; (reflexivity || discriminate)).
  assert (r' = r) as -> by (destruct r', r; (reflexivity || discriminate)).
  split; [apply modes_hist; exists s; auto|]. split; [now apply run_hist|].
  intros i' m' r' rep X. destruct rep; auto; exfalso;
    (assert (Y : b_registered (w_bundle (after H c W h)) = true)
       by (apply reg_hist; exists i', m', r'; eexists; split; [exact X|discriminate]); congruence).
Qed.

End From.
End Facts.

Lemma made_hist H c b0 l i : nth_error (w_shmacs (after H c (unused b0) l)) i <> None <->
  happened H c (unused b0) l NewShmac (Made i).
Proof.
  induction l as [|k l IH] using rev_ind.
  - cbn. split; [now destruct i|intros X; now apply happened_nil in X].
  - rewrite happened_snoc, after_snoc, <- IH. unfold reply_to.
    set (w := after H c (unused b0) l). clearbody w. clear IH.
    assert (L : forall w', length (w_shmacs w') = length (w_shmacs w) ->
      (nth_error (w_shmacs w') i <> None <-> nth_error (w_shmacs w) i <> None)).
    { intros w' E. rewrite !nth_error_Some, E. reflexivity. }
    assert (Id : forall w' rep, length (w_shmacs w') = length (w_shmacs w) -> (k = NewShmac -> rep <> Made i) ->
      (nth_error (w_shmacs w') i <> None <-> nth_error (w_shmacs w) i <> None \/ (NewShmac = k /\ rep = Made i))).
    { intros w' rep E N. rewrite (L w' E). split; [auto|]. intros [X|[X Y]]; [exact X|]. now destruct (N (eq_sym X)). }
    destruct k; cbn [step].
    + destruct (set_run_mode r (w_bundle w)); cbn [fst snd]; apply Id; cbn; (reflexivity || discriminate).
    + destruct (make_shmac H c (w_bundle w)); cbn [fst snd]; [|apply Id; cbn; (reflexivity || discriminate)].
      cbn [w_shmacs]. rewrite !nth_error_Some, app_length. cbn [length]. split.
      * intros X. destruct (Nat.eq_dec i (length (w_shmacs w))) as [->|N]; [right; auto|left; lia].
      * intros [X|[_ X]]; [lia|injection X as <-; lia].
    + destruct (nth_error (w_shmacs w) i0); [|cbn [fst snd]; apply Id; cbn; (reflexivity || discriminate)].
      destruct (match m with Encryption => for_encryption (w_bundle w) s
                | Decryption => for_decryption (w_bundle w) s end);
        cbn [fst snd]; apply Id; cbn; try discriminate; rewrite ?replace_nth_length; reflexivity.
    + destruct (nth_error (w_shmacs w) i0); [|cbn [fst snd]; apply Id; cbn; (reflexivity || discriminate)].
      destruct (register_shmac (w_bundle w)) as [b|]; [|cbn [fst snd]; apply Id; cbn; (reflexivity || discriminate)].
      destruct (check_modes m r (b, s)); cbn [fst snd]; apply Id; cbn; (reflexivity || discriminate).
    + destruct (nth_error (w_gens w) g) as [x|] eqn:G; [|cbn [fst snd]; apply Id; cbn; (reflexivity || discriminate)].
      destruct (g_live x); cbn [negb]; [|cbn [fst snd]; apply Id; cbn; (reflexivity || discriminate)].
      destruct (nth_error (w_shmacs w) (g_shmac x)) as [s|] eqn:E; [|cbn [fst snd]; apply Id; cbn; (reflexivity || discriminate)].
      destruct (transform H c (g_mode x) (g_first x) (w_bundle w, s) block) as [[out [b' s']]|e] eqn:F;
        [|destruct (left_behind H c (g_mode x) (g_first x) (w_bundle w, s) block) as [b' s']];
        cbn [fst snd]; apply Id; cbn; try discriminate; apply replace_nth_length.
    + destruct (nth_error (w_shmacs w) i0); cbn [fst snd]; apply Id; cbn; (reflexivity || discriminate).
    + destruct (nth_error (w_shmacs w) i0); cbn [fst snd]; apply Id; cbn; (reflexivity || discriminate).
    + destruct (nth_error (w_shmacs w) i0); [|cbn [fst snd]; apply Id; cbn; (reflexivity || discriminate)].
      destruct (finalize H c (w_bundle w) s) as [[t s']|]; cbn [fst snd]; apply Id; cbn; try discriminate;
        rewrite ?replace_nth_length; reflexivity.
    + destruct (nth_error (w_shmacs w) i0); cbn [fst snd]; apply Id; cbn; (reflexivity || discriminate).
    + destruct (nth_error (w_shmacs w) i0); cbn [fst snd]; apply Id; cbn; (reflexivity || discriminate).
Qed.

Lemma make_bundle_unused H c ks salt aad iv rsalt riv b :
  make_bundle H c ks salt aad iv rsalt riv = Ok b ->
  b_mode b = None /\ b_registered b = false /\
  b_iv_is_fresh b = (match iv with None => true | Some _ => false end) /\
  b_iv b = (match iv with None => riv | Some v => v end).
Proof.
  unfold make_bundle. destruct iv as [v|]; cbn [choose_iv]; intros E;
    (destruct (negb _); [discriminate|]); (destruct (negb _); [discriminate|]);
    apply bind_ok in E as (sm & _ & E); apply bind_ok in E as (mac & _ & E);
    (destruct (c_type c); [injection E as <-; auto|]);
    apply bind_ok in E as (l & _ & E); apply bind_ok in E as (r & _ & E); injection E as <-; auto.
Qed.
