(** * Proofs about tasks that share one AsyncCipherStream *)
From Coq Require Import ZArith Lia ZifyBool ZifyNat ZifyN.
From Verif Require Import Base BaseFacts CanonModel ClockModel GentoolsModel GentoolsProofs CipherModel
  CipherSpec CipherProofs SessionProofs StreamModel StreamSpec StreamProofs FeedModel FeedSpec.
Local Open Scope N_scope.

Lemma split_last_snoc' {A} (l : list A) x : split_last (l ++ [x]) = Some (l, x).
Proof. exact (split_last_snoc l x). Qed.

Section Feed.
Variable H : hasher.
Variable c : cfg.
Hypothesis XL : forall m n, blen (h_digest H m n) = n.
Hypothesis VC : valid_cfg H c.
Hypothesis VI : valid_ids c.
Local Notation bs := (c_blocksize c).

Variables (e0 d0 : session) (start : bytes) (r : coins).
Hypothesis L0 : live H c e0.
Hypothesis C0 : core e0 = core d0.
Hypothesis ME : s_mode (snd e0) = Some Encryption.
Hypothesis MD : s_mode (snd d0) = Some Decryption.
Hypothesis VR : valid_coins c r.
Hypothesis Ls : blen start = inner_header_bytes c.
Local Notation extra := (r_extra r).

(** What has gone through the cipher. *)
Record past (out : list (bytes * bytes)) (pbs : list bytes) (ss : session) (s : cstream) : Prop := {
  pa_full : full c pbs;
  pa_blocks : transform_blocks H c Encryption true e0 pbs = Ok (map snd out, ss);
  pa_live : live H c ss;
  pa_fixed : fixed ss = fixed e0;
  pa_first : cs_first s = (match pbs with [] => true | _ => false end);
  pa_accepts : exists ds, accepts H c true d0 out pbs ds /\ core ss = core ds /\ fixed ds = fixed d0;
  pa_len : length out = length pbs;
}.

Definition outside (x : consumer) : Prop :=
  match x with Idle | Pulling false | Naming false _ | Joining => True | _ => False end.

(** What is to go through it. *)
Definition stage (x : consumer) (s : cstream) (looping : bool) (rem total : bytes) (pbs : list bytes) (ss : session) : Prop :=
  match x with
  | Idle | Pulling false | Naming false _ | Joining =>
    cs_session s = ss /\ cs_count s = blen total /\ cs_phase s = (match x with Joining => Finalizing | _ => Open end) /\
    (x = Pulling false -> min_stream_queue c < blen (cs_buffer s)) /\
    exists init lst, cs_buffer s = init ++ [lst] /\ full c init /\ (looping = true -> blen lst = bs) /\
      concat pbs ++ concat (cs_buffer s) ++ rem = start ++ total
  | Padding end_ =>
    cs_session s = ss /\ cs_phase s = Finalizing /\ end_padding c (blen total) extra = Ok end_ /\
    exists init lst, cs_buffer s = init ++ [lst] /\ full c init /\ concat pbs ++ concat (cs_buffer s) = start ++ total
  | Appending l =>
    cs_session s = ss /\ cs_phase s = Finalizing /\
    exists end_, end_padding c (blen total) extra = Ok end_ /\ pbs ++ cs_buffer s ++ l = batch (start ++ total ++ end_) bs
  | Flushing | Pulling true | Naming true _ =>
    cs_session s = ss /\ cs_phase s = Finalizing /\ (x = Pulling true -> cs_buffer s <> []) /\
    exists end_, end_padding c (blen total) extra = Ok end_ /\ pbs ++ cs_buffer s = batch (start ++ total ++ end_) bs
  | Finished =>
    cs_phase s = Closed /\ cs_buffer s = [] /\
    (exists end_, end_padding c (blen total) extra = Ok end_ /\ pbs = batch (start ++ total ++ end_) bs) /\
    exists s', finalize H c (fst ss) (snd ss) = Ok (tag_of H c (b_mac (fst ss)), s') /\
      cs_session s = (fst ss, s') /\ result_of s' = Ok (tag_of H c (b_mac (fst ss)))
  | Broken _ => False
  end.
Definition shown (x : consumer) (s : cstream) (sent out : list (bytes * bytes)) : Prop :=
  match x with
  | Naming _ ct => exists i, out = sent ++ [(i, ct)] /\ next_block_id H c (snd (cs_session s)) ct None [] = Ok i
  | _ => out = sent
  end.
Definition sound (x : consumer) (s : cstream) (looping : bool) (rem total : bytes) (sent : list (bytes * bytes)) : Prop :=
  exists pbs ss out, past out pbs ss s /\ shown x s sent out /\ stage x s looping rem total pbs ss.

Lemma sound_closed s lp rem total out : sound Finished s lp rem total out ->
  enc_inv H c e0 d0 start extra total out s /\ cs_phase s = Closed.
Proof.
  intros (pbs & ss & out' & [A1 A2 A3 A4 A5 A6 A7] & Sh & P & B & En & Fi). cbn in Sh. subst out'.
  split; [|exact P]. constructor. exists pbs, ss. rewrite P. auto 10.
Qed.

(** ** Feeders *)
Lemma past_feed out pbs ss s s' : cs_first s' = cs_first s -> past out pbs ss s -> past out pbs ss s'.
Proof. intros E [A1 A2 A3 A4 A5 A6 A7]. constructor; auto. congruence. Qed.
Lemma shown_feed x s s' sent out : cs_session s' = cs_session s -> shown x s sent out -> shown x s' sent out.
Proof. intros E. destruct x; cbn; try exact (fun x => x). now rewrite E. Qed.

Definition outside_stage (x : consumer) (s : cstream) (looping : bool) (rem total : bytes) (pbs : list bytes) (ss : session) : Prop :=
    cs_session s = ss /\ cs_count s = blen total /\ cs_phase s = (match x with Joining => Finalizing | _ => Open end) /\
    (x = Pulling false -> min_stream_queue c < blen (cs_buffer s)) /\
    exists init lst, cs_buffer s = init ++ [lst] /\ full c init /\ (looping = true -> blen lst = bs) /\
      concat pbs ++ concat (cs_buffer s) ++ rem = start ++ total.
Lemma stage_outside x s lp rem total pbs ss : outside x ->
  (stage x s lp rem total pbs ss <-> outside_stage x s lp rem total pbs ss).
Proof. destruct x as [|[]|[]| | | | | |]; cbn [outside]; intros []; unfold outside_stage; cbn; reflexivity. Qed.

(** Changing only the buffer and the count. *)
Lemma refeed x s s' lp rem total lp' rem' total' sent : outside x ->
  cs_first s' = cs_first s -> cs_session s' = cs_session s -> cs_phase s' = cs_phase s ->
  (forall init lst, cs_buffer s = init ++ [lst] -> full c init -> (lp = true -> blen lst = bs) ->
    cs_count s = blen total -> concat init ++ lst ++ rem = concat (cs_buffer s) ++ rem ->
    cs_count s' = blen total' /\ exists init' lst' t, cs_buffer s' = init' ++ [lst'] /\ full c init' /\
      (lp' = true -> blen lst' = bs) /\ total' = total ++ t /\
      blen (cs_buffer s) <= blen (cs_buffer s') /\
      concat (cs_buffer s') ++ rem' = concat (cs_buffer s) ++ rem ++ t) ->
  sound x s lp rem total sent -> sound x s' lp' rem' total' sent.
Proof.
  intros O E1 E2 E3 K (pbs & ss & out & P & Sh & St). exists pbs, ss, out.
  split; [now apply (past_feed _ _ _ s)|]. split; [now apply (shown_feed _ s)|].
  apply stage_outside; [exact O|]. apply stage_outside in St; [|exact O].
  destruct St as (S1 & S2 & S3 & S4 & init & lst & Eb & Fi & Lp & Et).
  destruct (K init lst Eb Fi Lp S2) as (K1 & init' & lst' & t & K2 & K3 & K4 & K5 & K6 & K7).
  { rewrite Eb, concat_app. cbn [concat]. rewrite app_nil_r, app_assoc. reflexivity. }
  split; [congruence|]. split; [exact K1|]. split; [congruence|]. split.
  { intros X. specialize (S4 X). lia. }
  exists init', lst'. split; [exact K2|]. split; [exact K3|]. split; [exact K4|].
  rewrite K7, K5, !app_assoc. f_equal. rewrite <- !app_assoc. exact Et.
Qed.

Lemma enter_sound x s total data sent lp' : outside x ->
  lp' = match split_last (cs_buffer s) with Some (_, lst) => blen lst =? bs | None => true end ->
  sound x s false [] total sent ->
  sound x (with_count (cs_count s + blen data) s) lp' data (total ++ data) sent.
Proof.
  intros O -> S. match goal with |- sound _ ?s2 _ _ _ _ => refine (refeed x s s2 _ _ _ _ _ _ _ O eq_refl eq_refl eq_refl _ S) end.
  intros init lst Eb Fi _ Ec _. cbn [with_count cs_count cs_buffer]. split; [rewrite blen_app; lia|].
  exists init, lst, data. split; [exact Eb|]. split; [exact Fi|]. split.
  - rewrite Eb, split_last_snoc'. intros X. lia.
  - split; [reflexivity|]. split; [lia|]. reflexivity.
Qed.

Lemma loop_sound x s rem total sent : outside x -> sound x s true rem total sent ->
  let block := take bs rem in
  let s' := with_buffer (cs_buffer s ++ [block]) s in
  (blen block = bs -> sound x s' true (drop bs rem) total sent) /\
  (blen block <> bs -> sound x s' false [] total sent).
Proof.
  intros O S block s'. split; intros B.
  - match goal with |- sound _ ?s2 _ _ _ _ => refine (refeed x s s2 _ _ _ _ _ _ _ O eq_refl eq_refl eq_refl _ S) end.
    intros init lst Eb Fi Lp Ec _. cbn [s' with_buffer cs_count cs_buffer]. split; [exact Ec|].
    exists (cs_buffer s), block, []. split; [reflexivity|]. split.
    { rewrite Eb. apply full_app. split; [exact Fi|]. constructor; [now apply Lp|constructor]. }
    split; [auto|]. split; [now rewrite app_nil_r|]. split; [rewrite blen_app; lia|].
    rewrite app_nil_r, concat_app. cbn [concat]. rewrite app_nil_r, <- app_assoc. unfold block. now rewrite take_drop.
  - match goal with |- sound _ ?s2 _ _ _ _ => refine (refeed x s s2 _ _ _ _ _ _ _ O eq_refl eq_refl eq_refl _ S) end.
    intros init lst Eb Fi Lp Ec _. cbn [s' with_buffer cs_count cs_buffer]. split; [exact Ec|].
    exists (cs_buffer s), block, []. split; [reflexivity|]. split.
    { rewrite Eb. apply full_app. split; [exact Fi|]. constructor; [now apply Lp|constructor]. }
    split; [discriminate|]. split; [now rewrite app_nil_r|]. split; [rewrite blen_app; lia|].
    rewrite !app_nil_r, concat_app. cbn [concat]. rewrite app_nil_r. f_equal. unfold block in *.
    apply take_all. rewrite blen_take in B. lia.
Qed.

Lemma fill_sound x s rem total sent : outside x -> sound x s false rem total sent ->
  exists init lst, split_last (cs_buffer s) = Some (init, lst) /\
  let missing := (Z.of_N bs - Z.of_N (blen lst))%Z in
  let '(chunk, rem') := read_z missing rem in
  let s' := with_buffer (init ++ [lst ++ chunk]) s in
  (Z.of_N (blen chunk) = missing -> sound x s' true rem' total sent) /\
  (Z.of_N (blen chunk) <> missing -> sound x s' false [] total sent).
Proof.
  intros O S.
  assert (G : exists init lst, cs_buffer s = init ++ [lst]).
  { destruct S as (pbs & ss & out & P & Sh & St). apply stage_outside in St; [|exact O].
    destruct St as (_ & _ & _ & _ & init & lst & Eb & _). eauto. }
  destruct G as (init & lst & Eb). exists init, lst. rewrite Eb, split_last_snoc'. split; [reflexivity|].
  cbv zeta. destruct (read_z _ rem) as [chunk rem'] eqn:R.
  assert (Er : chunk ++ rem' = rem).
  { unfold read_z in R. destruct (_ <? 0)%Z; injection R as <- <-; [apply app_nil_r|apply take_drop]. }
  assert (E0 : Z.of_N (blen chunk) <> (Z.of_N bs - Z.of_N (blen lst))%Z -> rem' = []).
  { unfold read_z in R. destruct (Z.ltb_spec (Z.of_N bs - Z.of_N (blen lst)) 0); injection R as <- <-; [reflexivity|].
    intros X. rewrite blen_take in X. apply drop_all. lia. }
  assert (Q : forall lp' rem2, (lp' = true -> Z.of_N (blen chunk) = (Z.of_N bs - Z.of_N (blen lst))%Z) -> rem2 = rem' ->
    sound x (with_buffer (init ++ [lst ++ chunk]) s) lp' rem2 total sent).
  { intros lp' rem2 Lp' ->. match goal with |- sound _ ?s2 _ _ _ _ => refine (refeed x s s2 _ _ _ _ _ _ _ O eq_refl eq_refl eq_refl _ S) end.
    intros init' lst' Eb' Fi _ Ec _. rewrite Eb in Eb'. apply app_inj_tail in Eb' as [<- <-].
    cbn [with_buffer cs_count cs_buffer]. split; [exact Ec|]. exists init, (lst ++ chunk), [].
    split; [reflexivity|]. split; [exact Fi|]. split; [intros X; specialize (Lp' X); rewrite blen_app; lia|].
    split; [now rewrite app_nil_r|]. split; [rewrite Eb, !blen_app; unfold blen; cbn; lia|].
    rewrite Eb, app_nil_r, !concat_app. cbn [concat]. rewrite !app_nil_r, <- !app_assoc. now rewrite Er. }
  split; intros X; apply Q; auto; [discriminate|symmetry; auto].
Qed.

(** ** The consumer *)
Lemma pull_ok' pbs ss out s x rest :
  past out pbs ss s -> cs_session s = ss -> cs_buffer s = x :: rest -> blen x = bs ->
  exists i ct ss1, transform H c Encryption (cs_first s) (cs_session s) x = Ok (ct, ss1) /\
    next_block_id H c (snd ss1) ct None [] = Ok i /\
    forall n p, past (out ++ [(i, ct)]) (pbs ++ [x]) ss1
      {| cs_buffer := rest; cs_count := n; cs_session := ss1; cs_first := false; cs_phase := p |}.
Proof.
  intros [A1 A2 A3 A4 A5 A6 A7] Es Eb Lx.
  destruct (pull_ok H c XL VC VI e0 d0 start ME MD Ls pbs ss out s x rest A1 A2 A3 A4 A5 A6 A7 Es Eb Lx)
    as (i & ct & ss1 & Ep & B1 & B2 & B3 & B4 & B5 & B6).
  unfold cs_pull in Ep. rewrite Eb in Ep.
  destruct (transform H c Encryption (cs_first s) (cs_session s) x) as [[ct' ss']|] eqn:T; [|discriminate].
  destruct (next_block_id H c (snd ss') ct' None []) as [i'|] eqn:Ni; [|discriminate].
  injection Ep as -> -> ->. exists i, ct, ss1. split; [reflexivity|]. split; [exact Ni|].
  intros n p. constructor; auto. now destruct pbs.
Qed.

(** One step of the consumer when it holds the guard, or between two packets.  [front]:
    it is in front of the line. *)
Definition front_only (x : consumer) : Prop :=
  match x with Pulling true | Naming true _ | Padding _ | Appending _ | Flushing => True | _ => False end.

Lemma pull_sound x s lp rem total sent : (exists b, x = Pulling b) -> sound x s lp rem total sent ->
  exists ct s' b, x = Pulling b /\
    (forall j busy l, consumer_step H c extra j busy x s l = (Naming b ct, s', l, [])) /\
    sound (Naming b ct) s' lp rem total sent.
Proof.
  intros [b ->] (pbs & ss & out & P & Sh & St). cbn in Sh. subst out.
  assert (A : cs_session s = ss /\ exists blk rest, cs_buffer s = blk :: rest /\ blen blk = bs).
  { destruct b; cbn [stage] in St.
    - destruct St as (S1 & _ & S3 & end_ & Ee & Eb). split; [exact S1|].
      destruct (cs_buffer s) as [|blk rest]; [now destruct S3|]. exists blk, rest. split; [reflexivity|].
      destruct (total_whole H c XL VC start r VR Ls total end_ Ee) as [Mw _].
      pose proof (batch_full _ _ (blocksize_pos H c VC) Mw) as Fb. fold (full c) in Fb. rewrite <- Eb in Fb.
      apply full_app in Fb as [_ Fb]. now inversion Fb.
    - destruct St as (S1 & _ & _ & S4 & init & lst & Eb & Fi & _). split; [exact S1|]. specialize (S4 eq_refl).
      destruct init as [|blk init].
      + rewrite Eb in S4. unfold blen, min_stream_queue in S4. cbn in S4. lia.
      + exists blk, (init ++ [lst]). split; [exact Eb|]. now inversion Fi. }
  destruct A as (Es & blk & rest & Eb & Lb).
  destruct (pull_ok' pbs ss sent s blk rest P Es Eb Lb) as (i & ct & ss1 & T & Ni & P1).
  exists ct, {| cs_buffer := rest; cs_count := cs_count s; cs_session := ss1; cs_first := false; cs_phase := cs_phase s |}, b.
  split; [reflexivity|]. split.
  { intros j busy l. cbn [consumer_step]. rewrite Eb, T. reflexivity. }
  exists (pbs ++ [blk]), ss1, (sent ++ [(i, ct)]). split; [apply P1|]. split; [exists i; split; [reflexivity|exact Ni]|].
  destruct b; cbn [stage cs_session cs_phase cs_buffer cs_count] in St |- *.
  - destruct St as (_ & S2 & _ & end_ & Ee & Ebt). split; [reflexivity|]. split; [exact S2|]. split; [discriminate|].
    exists end_. split; [exact Ee|]. rewrite <- Ebt, Eb, <- app_assoc. reflexivity.
  - destruct St as (_ & S2 & S3 & S4 & init & lst & Eb' & Fi & Lp & Et). specialize (S4 eq_refl).
    split; [reflexivity|]. split; [exact S2|]. split; [exact S3|]. split; [discriminate|].
    destruct init as [|b0 init].
    { rewrite Eb' in S4. unfold blen, min_stream_queue in S4. cbn in S4. lia. }
    rewrite Eb' in Eb. cbn [app] in Eb. assert (b0 = blk) by congruence. assert (rest = init ++ [lst]) by congruence. subst b0 rest.
    exists init, lst. split; [reflexivity|]. split; [now inversion Fi|]. split; [exact Lp|].
    rewrite <- Et, Eb'. cbn [app concat]. rewrite !concat_app. cbn [concat]. rewrite !app_nil_r, <- !app_assoc. reflexivity.
Qed.

Lemma name_sound b ct s lp rem total sent : sound (Naming b ct) s lp rem total sent ->
  exists i, (forall j busy l, consumer_step H c extra j busy (Naming b ct) s l = (if b then Flushing else Idle, s, l, [(i, ct)])) /\
    sound (if b then Flushing else Idle) s lp rem total (sent ++ [(i, ct)]).
Proof.
  intros (pbs & ss & out & P & (i & Eo & Ni) & St). exists i. split.
  - intros j busy l. cbn [consumer_step]. now rewrite Ni.
  - exists pbs, ss, out. split; [exact P|]. destruct b; (split; [exact Eo|]); cbn [stage] in St |- *.
    + destruct St as (S1 & S2 & _ & S3). split; [exact S1|]. split; [exact S2|]. split; [discriminate|]. exact S3.
    + destruct St as (S1 & S2 & S3 & _ & S4). split; [exact S1|]. split; [exact S2|]. split; [exact S3|]. split; [discriminate|]. exact S4.
Qed.

Lemma look_sound s lp rem total sent : sound Idle s lp rem total sent -> sound (look_step c false s) s lp rem total sent.
Proof.
  intros S. unfold look_step. destruct (N.ltb_spec (min_stream_queue c) (blen (cs_buffer s))) as [G|G]; [|exact S].
  destruct S as (pbs & ss & out & P & Sh & (S1 & S2 & S3 & S4 & S5)). exists pbs, ss, out.
  split; [exact P|]. split; [exact Sh|]. cbn [stage]. auto 10.
Qed.

Lemma close_sound s lp rem total sent : sound Idle s lp rem total sent ->
  is_open s = true /\ sound Joining (with_phase Finalizing s) lp rem total sent.
Proof.
  intros (pbs & ss & out & P & Sh & (S1 & S2 & S3 & S4 & S5)). split; [unfold is_open; now rewrite S3|].
  exists pbs, ss, out. split; [now apply (past_feed _ _ _ s)|]. split; [exact Sh|].
  cbn [stage with_phase cs_session cs_count cs_phase cs_buffer].
  split; [exact S1|]. split; [exact S2|]. split; [reflexivity|]. split; [discriminate|]. exact S5.
Qed.

Lemma join_sound s total sent : sound Joining s false [] total sent ->
  exists end_, end_padding c (cs_count s) extra = Ok end_ /\ sound (Padding end_) s false [] total sent.
Proof.
  intros (pbs & ss & out & P & Sh & (S1 & S2 & S3 & S4 & init & lst & Eb & Fi & _ & Et)).
  destruct (pad_ok c r total (frame_pos H c VC) VR) as (p & ts & e & _ & _ & _ & Ee & _).
  exists e. split; [now rewrite S2|]. exists pbs, ss, out. split; [exact P|]. split; [exact Sh|].
  cbn [stage]. split; [exact S1|]. split; [exact S3|]. split; [exact Ee|]. exists init, lst.
  split; [exact Eb|]. split; [exact Fi|]. now rewrite app_nil_r in Et.
Qed.

Lemma padding_sound end_ s lp rem total sent : sound (Padding end_) s lp rem total sent ->
  exists init lst, split_last (cs_buffer s) = Some (init, lst) /\
    sound (Appending (batch (lst ++ end_) bs)) (with_buffer init s) lp rem total sent.
Proof.
  intros (pbs & ss & out & P & Sh & (S1 & S3 & Ee & init & lst & Eb & Fi & Et)).
  exists init, lst. split; [rewrite Eb; apply split_last_snoc'|].
  exists pbs, ss, out. split; [now apply (past_feed _ _ _ s)|]. split; [exact Sh|].
  cbn [stage with_buffer cs_session cs_phase cs_buffer]. split; [exact S1|]. split; [exact S3|].
  exists end_. split; [exact Ee|]. rewrite app_assoc.
  rewrite <- (batch_app_full H c VC (pbs ++ init)) by (apply full_app; split; [exact (pa_full _ _ _ _ P)|exact Fi]).
  f_equal. rewrite (app_assoc start), <- Et, Eb, !concat_app. cbn [concat]. rewrite app_nil_r, <- !app_assoc. reflexivity.
Qed.

Lemma appending_sound l s lp rem total sent : sound (Appending l) s lp rem total sent ->
  match l with
  | b :: l => sound (Appending l) (with_buffer (cs_buffer s ++ [b]) s) lp rem total sent
  | [] => sound Flushing s lp rem total sent
  end.
Proof.
  intros (pbs & ss & out & P & Sh & (S1 & S3 & end_ & Ee & Eb)). destruct l as [|b l].
  - exists pbs, ss, out. split; [exact P|]. split; [exact Sh|]. cbn [stage]. split; [exact S1|]. split; [exact S3|].
    split; [discriminate|]. exists end_. split; [exact Ee|]. now rewrite app_nil_r in Eb.
  - exists pbs, ss, out. split; [now apply (past_feed _ _ _ s)|]. split; [exact Sh|].
    cbn [stage with_buffer cs_session cs_phase cs_buffer]. split; [exact S1|]. split; [exact S3|].
    exists end_. split; [exact Ee|]. rewrite <- Eb, <- app_assoc. reflexivity.
Qed.

Lemma flushing_sound s lp rem total sent : sound Flushing s lp rem total sent ->
  match cs_buffer s with
  | _ :: _ => sound (Pulling true) s lp rem total sent
  | [] => exists t m, finalize H c (fst (cs_session s)) (snd (cs_session s)) = Ok (t, m) /\
      sound Finished {| cs_buffer := []; cs_count := cs_count s; cs_session := (fst (cs_session s), m);
        cs_first := cs_first s; cs_phase := Closed |} lp rem total sent
  end.
Proof.
  intros (pbs & ss & out & P & Sh & (S1 & S3 & _ & end_ & Ee & Eb)). destruct (cs_buffer s) as [|b rest] eqn:Q.
  - rewrite app_nil_r in Eb. pose proof (lv_open _ _ _ (pa_live _ _ _ _ P)) as Lo.
    unfold finalize. rewrite S1, Lo. eexists _, _. split; [reflexivity|].
    exists pbs, ss, out. split; [now apply (past_feed _ _ _ s)|]. split; [exact Sh|].
    cbn [stage cs_phase cs_buffer cs_session]. split; [reflexivity|]. split; [reflexivity|]. split; [eauto|].
    eexists. unfold finalize. rewrite Lo, (tag_of_result H c XL VC).
    split; [reflexivity|]. split; reflexivity.
  - exists pbs, ss, out. split; [exact P|]. split; [exact Sh|]. cbn [stage]. rewrite Q.
    split; [exact S1|]. split; [exact S3|]. split; [discriminate|]. eauto.
Qed.

(** ** All tasks together *)
Variable datas : list bytes.

Definition feeds (l : list who) : list nat := flat_map (fun w => match w with Feeds i => [i] | Closes _ => [] end) l.
(** Who is inside: whether it loops, what it has not read yet, and all it feeds. *)
Definition status (l : list who) (fs : list feeder) : bool * bytes * bytes :=
  match l with
  | Feeds i :: _ =>
    match nth_error fs i with
    | Some (Filling rem) => (false, rem, nth i datas [])
    | Some (Looping rem) => (true, rem, nth i datas [])
    | _ => (false, [], [])
    end
  | _ => (false, [], [])
  end.
Definition fed_by (y : system) (l : list nat) : bytes := concat (map (fun i => nth i datas []) (filter (returned y) l)).

Record inv (calls ended : list nat) (x : consumer) (y : system) : Prop := {
  i_len : length (feeders y) = length datas;
  i_cons : consumers y = [x];
  i_calls : calls = ended ++ feeds (line y);
  i_nodup : NoDup calls;
  i_bound : forall i, In i calls -> (i < length datas)%nat;
  i_feeder : forall i f, nth_error (feeders y) i = Some f ->
    match f with
    | Fresh d => ~ In i calls /\ nth i datas [] = d
    | Waiting d => In i (feeds (line y)) /\ nth i datas [] = d
    | Filling _ | Looping _ => hd_error (line y) = Some (Feeds i) /\ x <> Finished
    | Ended o => In i ended /\ (o = Done \/ o = Raised CipherStreamIsClosed)
    | Gone => False
    end;
  i_closer : match x with
    | Joining => In (Closes 0) (line y)
    | Pulling true | Naming true _ | Padding _ | Appending _ | Flushing => hd_error (line y) = Some (Closes 0)
    | _ => ~ In (Closes 0) (line y)
    end;
  i_who : forall j, In (Closes j) (line y) -> j = 0%nat;
  i_line : NoDup (line y);
  i_sound : let '(lp, rem, dh) := status (line y) (feeders y) in
    sound x (stream y) lp rem (fed_by y ended ++ dh) (sent y);
}.

Lemma nth_replace {A} i j (x : A) l : nth_error (replace i x l) j = if Nat.eqb i j then match nth_error l j with Some _ => Some x | None => None end else nth_error l j.
Proof.
  unfold replace. revert i j. induction l as [| y l IH]; intros i j.
  - rewrite firstn_nil, skipn_nil. destruct (Nat.eqb i j); destruct j; reflexivity.
  - destruct i as [| i]; destruct j as [| j]; cbn; try reflexivity. apply IH.
Qed.
Lemma nth_replaced {A} i (x y : A) l : nth_error l i = Some y -> nth_error (replace i x l) i = Some x.
Proof. intros E. rewrite nth_replace, Nat.eqb_refl, E. reflexivity. Qed.
Lemma nth_others {A} i j (x : A) l : i <> j -> nth_error (replace i x l) j = nth_error l j.
Proof. intros E. rewrite nth_replace. destruct (Nat.eqb_spec i j); congruence. Qed.
Lemma length_replace {A} i (x : A) l : length (replace i x l) = length l.
Proof.
  unfold replace. revert i. induction l as [|y l IH]; intros i; [now rewrite firstn_nil, skipn_nil|].
  destruct i; cbn; [reflexivity|]. now rewrite IH.
Qed.
Lemma in_feeds i l : In i (feeds l) <-> In (Feeds i) l.
Proof.
  unfold feeds. rewrite in_flat_map. split.
  - intros ([k|k] & I & J); cbn in J; [destruct J as [->|[]]; exact I|destruct J].
  - intros I. exists (Feeds i). split; [exact I|now left].
Qed.
Lemma feeds_app a b : feeds (a ++ b) = feeds a ++ feeds b.
Proof. apply flat_map_app. Qed.

Lemma NoDup_snoc {A} (l : list A) x : NoDup l -> ~ In x l -> NoDup (l ++ [x]).
Proof.
  intros N X. induction N as [|y l Ny N IH]; cbn; [constructor; [intros []|constructor]|].
  constructor; [|apply IH; intros Y; apply X; now right].
  intros Y. apply in_app_or in Y as [Y|[->|[]]]; [tauto|]. apply X. now left.
Qed.
Definition active (f : feeder) : Prop := match f with Filling _ | Looping _ => True | _ => False end.
Lemma status_none l fs : (forall i f, hd_error l = Some (Feeds i) -> nth_error fs i = Some f -> ~ active f) ->
  status l fs = (false, [], []).
Proof.
  intros A. destruct l as [|[i|j] l]; cbn; auto. destruct (nth_error fs i) as [f|] eqn:E; [|reflexivity].
  specialize (A i f eq_refl E). destruct f; cbn in A; tauto.
Qed.

Lemma sound_phase x s lp rem total out : sound x s lp rem total out ->
  cs_phase s = match x with Idle | Pulling false | Naming false _ => Open | Finished => Closed | _ => Finalizing end.
Proof.
  intros (pbs & ss & o & _ & _ & St). destruct x as [|[]|[]| | | | | |]; cbn [stage] in St; try tauto.
Qed.

Lemma fed_by_same y y' l : (forall i, In i l -> returned y' i = returned y i) -> fed_by y' l = fed_by y l.
Proof.
  intros E. unfold fed_by. replace (filter (returned y') l) with (filter (returned y) l); [reflexivity|].
  induction l as [|i l IH]; [reflexivity|]. cbn [filter]. rewrite (E i) by now left.
  rewrite IH by (intros j I; apply E; now right). reflexivity.
Qed.
Lemma fed_by_snoc y l i : fed_by y (l ++ [i]) = fed_by y l ++ (if returned y i then nth i datas [] else []).
Proof.
  unfold fed_by. rewrite filter_app, map_app, concat_app. cbn [filter]. destruct (returned y i); cbn; now rewrite ?app_nil_r.
Qed.

Lemma inv_start st0 : enc_inv H c e0 d0 start extra [] [] st0 -> cs_phase st0 = Open ->
  inv [] [] Idle (started st0 datas 1).
Proof.
  intros [(pbs & ss & A1 & A2 & A3 & A4 & A5 & A6 & A7 & Ph)] P. rewrite P in Ph.
  destruct Ph as (S1 & S2 & init & lst & Eb & Fi & Et).
  constructor; cbn; try reflexivity; try tauto; try (now constructor).
  - apply map_length.
  - intros i f E. rewrite nth_error_map in E. destruct (nth_error datas i) as [d|] eqn:Q; [|discriminate].
    injection E as <-. split; [intros []|]. now apply nth_error_nth.
  - exists pbs, ss, []. split; [constructor; auto|]. split; [reflexivity|]. cbn [stage]. rewrite P.
    split; [exact S1|]. split; [exact S2|]. split; [reflexivity|]. split; [discriminate|].
    exists init, lst. split; [exact Eb|]. split; [exact Fi|]. split; [discriminate|]. now rewrite app_nil_r.
Qed.

Lemma inv_outside calls ended x y i rest : inv calls ended x y -> line y = Feeds i :: rest -> outside x \/ x = Finished.
Proof.
  intros I E. pose proof (i_closer _ _ _ _ I) as C. rewrite E in C. pose proof (i_sound _ _ _ _ I) as S.
  destruct (status _ _) as [[lp rem] dh]. destruct S as (pbs & ss & o & _ & _ & St).
  destruct x as [|[]|[]| | | | | |]; cbn in C, St |- *; try discriminate; tauto.
Qed.

Lemma returned_replace y i f s l cs out : returned {| stream := s; line := l; feeders := replace i f (feeders y); consumers := cs; sent := out |} i =
  match nth_error (feeders y) i with Some _ => match f with Ended Done => true | _ => false end | None => false end.
Proof.
  unfold returned. cbn [feeders]. rewrite nth_replace, Nat.eqb_refl. destruct (nth_error (feeders y) i); [|reflexivity].
  destruct f as [| | | |[]|]; reflexivity.
Qed.
Lemma returned_others y i j f s l cs out : i <> j ->
  returned {| stream := s; line := l; feeders := replace i f (feeders y); consumers := cs; sent := out |} j = returned y j.
Proof. intros E. unfold returned. cbn [feeders]. now rewrite nth_others. Qed.

Lemma head_fresh calls ended x y i rest : inv calls ended x y -> line y = Feeds i :: rest -> ~ In i ended /\ ~ In i (feeds rest) /\ In i calls.
Proof.
  intros I E. pose proof (i_calls _ _ _ _ I) as C. rewrite E in C. cbn [feeds flat_map app] in C. fold (feeds rest) in C.
  pose proof (i_nodup _ _ _ _ I) as N. rewrite C in N. apply NoDup_remove_2 in N. rewrite in_app_iff in N.
  split; [tauto|]. split; [tauto|]. rewrite C. apply in_or_app. right. now left.
Qed.

Lemma others_inactive calls ended x y i rest j f : inv calls ended x y -> line y = Feeds i :: rest -> j <> i ->
  nth_error (feeders y) j = Some f -> ~ active f.
Proof.
  intros I E N Q A. pose proof (i_feeder _ _ _ _ I j f Q) as P. rewrite E in P.
  destruct f; cbn in A, P; try tauto; destruct P; congruence.
Qed.

Lemma leave_inv calls ended x y i rest f o s' : inv calls ended x y -> line y = Feeds i :: rest ->
  nth_error (feeders y) i = Some f -> (o = Done \/ o = Raised CipherStreamIsClosed) ->
  sound x s' false [] (fed_by y ended ++ match o with Done => nth i datas [] | _ => [] end) (sent y) ->
  inv calls (ended ++ [i]) x
    {| stream := s'; line := rest; feeders := replace i (Ended o) (feeders y); consumers := consumers y; sent := sent y |}.
Proof.
  intros I E Q Ho So. destruct (head_fresh _ _ _ _ _ _ I E) as (N1 & N2 & N3).
  assert (C : calls = (ended ++ [i]) ++ feeds rest).
  { rewrite (i_calls _ _ _ _ I), E. cbn. now rewrite <- app_assoc. }
  pose proof (i_line _ _ _ _ I) as Nl. rewrite E in Nl. apply NoDup_cons_iff in Nl as [Nl1 Nl2].
  constructor; cbn [feeders line consumers stream sent].
  - rewrite length_replace. apply (i_len _ _ _ _ I).
  - apply (i_cons _ _ _ _ I).
  - exact C.
  - apply (i_nodup _ _ _ _ I).
  - apply (i_bound _ _ _ _ I).
  - intros j g. rewrite nth_replace. destruct (Nat.eqb_spec i j) as [<-|N].
    + rewrite Q. intros G. injection G as <-. split; [apply in_or_app; right; now left|exact Ho].
    + intros G. pose proof (i_feeder _ _ _ _ I j g G) as P. pose proof (others_inactive _ _ _ _ _ _ j g I E (not_eq_sym N) G) as A.
      destruct g; cbn in A; try tauto.
      * destruct P as [P1 P2]. split; [|exact P2]. rewrite E in P1. cbn in P1. destruct P1 as [P1|P1]; [congruence|exact P1].
      * destruct P as [P1 P2]. split; [|exact P2]. apply in_or_app. now left.
  - pose proof (i_closer _ _ _ _ I) as P. rewrite E in P.
    destruct x as [|[]|[]| | | | | |]; cbn in P |- *; try discriminate; try (intros X; apply P; now right).
    destruct P as [P|P]; [discriminate|exact P].
  - intros j J. apply (i_who _ _ _ _ I). rewrite E. now right.
  - exact Nl2.
  - rewrite status_none.
    + rewrite fed_by_snoc, returned_replace, Q, app_nil_r.
      rewrite (fed_by_same y); [destruct o; try exact So; destruct Ho; discriminate|].
      intros j J. apply returned_others. congruence.
    + intros j g Hd G A. rewrite nth_replace in G. destruct (Nat.eqb_spec i j) as [<-|N].
      * rewrite Q in G. injection G as <-. exact A.
      * exact (others_inactive _ _ _ _ _ _ j g I E (not_eq_sym N) G A).
Qed.

Lemma stay_inv calls ended x y i rest f f' s' : inv calls ended x y -> line y = Feeds i :: rest ->
  nth_error (feeders y) i = Some f -> x <> Finished ->
  match f' with
  | Filling rem => sound x s' false rem (fed_by y ended ++ nth i datas []) (sent y)
  | Looping rem => sound x s' true rem (fed_by y ended ++ nth i datas []) (sent y)
  | _ => False
  end ->
  inv calls ended x
    {| stream := s'; line := line y; feeders := replace i f' (feeders y); consumers := consumers y; sent := sent y |}.
Proof.
  intros I E Q Nf So. destruct (head_fresh _ _ _ _ _ _ I E) as (N1 & N2 & N3).
  constructor; cbn [feeders line consumers stream sent].
  - rewrite length_replace. apply (i_len _ _ _ _ I).
  - apply (i_cons _ _ _ _ I).
  - apply (i_calls _ _ _ _ I).
  - apply (i_nodup _ _ _ _ I).
  - apply (i_bound _ _ _ _ I).
  - intros j g. rewrite nth_replace. destruct (Nat.eqb_spec i j) as [<-|N].
    + rewrite Q. intros G. injection G as <-. destruct f'; try contradiction; (split; [rewrite E; reflexivity|exact Nf]).
    + apply (i_feeder _ _ _ _ I).
  - apply (i_closer _ _ _ _ I).
  - apply (i_who _ _ _ _ I).
  - apply (i_line _ _ _ _ I).
  - rewrite E. cbn [status]. rewrite nth_replace, Nat.eqb_refl, Q.
    assert (Fe : fed_by {| stream := s'; line := Feeds i :: rest; feeders := replace i f' (feeders y); consumers := consumers y; sent := sent y |} ended = fed_by y ended).
    { apply fed_by_same. intros j J. apply returned_others. congruence. }
    destruct f'; try contradiction; rewrite Fe; exact So.
Qed.

Lemma feeder_inv calls ended x y i f : inv calls ended x y -> nth_error (feeders y) i = Some f ->
  exists ended', inv (calls ++ match f with Fresh _ => [i] | _ => [] end) ended' x (proceed H c extra (Feeder i) y).
Proof.
  intros I Q. cbn [proceed]. rewrite Q. pose proof (i_feeder _ _ _ _ I i f Q) as P.
  assert (Same : inv calls ended x {| stream := stream y; line := line y; feeders := replace i f (feeders y); consumers := consumers y; sent := sent y |}).
  { replace (replace i f (feeders y)) with (feeders y); [now destruct y|].
    clear -Q. revert Q. unfold replace. generalize (feeders y) as l. intros l. revert i.
    induction l as [|g l IH]; intros [|i] Q; cbn in Q |- *; try discriminate; [congruence|]. f_equal. now apply IH. }
  destruct f as [d|d|rem|rem|o|]; cbn [feeder_step].
  - (* joins the line *)
    destruct P as [P1 P2]. exists ended.
    assert (Nl : ~ In (Feeds i) (line y)).
    { intros X. apply P1. rewrite (i_calls _ _ _ _ I). apply in_or_app. right. now apply in_feeds. }
    constructor; cbn [feeders line consumers stream sent].
    + rewrite length_replace. apply (i_len _ _ _ _ I).
    + apply (i_cons _ _ _ _ I).
    + rewrite feeds_app, app_assoc, <- (i_calls _ _ _ _ I). reflexivity.
    + apply NoDup_snoc; [apply (i_nodup _ _ _ _ I)|exact P1].
    + intros j J. apply in_app_or in J as [J|[<-|[]]]; [now apply (i_bound _ _ _ _ I)|].
      rewrite <- (i_len _ _ _ _ I). apply nth_error_Some. congruence.
    + intros j g. rewrite nth_replace. destruct (Nat.eqb_spec i j) as [<-|N].
      * rewrite Q. intros G. injection G as <-. split; [|exact P2]. rewrite feeds_app. apply in_or_app. right. now left.
      * intros G. pose proof (i_feeder _ _ _ _ I j g G) as P. destruct g.
        -- destruct P as [P3 P4]. split; [|exact P4]. intros J. apply in_app_or in J as [J|[J|[]]]; congruence.
        -- destruct P as [P3 P4]. split; [|exact P4]. rewrite feeds_app. apply in_or_app. now left.
        -- destruct (line y); [now destruct P|exact P].
        -- destruct (line y); [now destruct P|exact P].
        -- exact P.
        -- exact P.
    + pose proof (i_closer _ _ _ _ I) as C.
      assert (Cn : ~ In (Closes 0) (line y) -> ~ In (Closes 0) (line y ++ [Feeds i])).
      { intros X J. apply in_app_or in J as [J|[J|[]]]; [tauto|discriminate]. }
      assert (Ch : hd_error (line y) = Some (Closes 0) -> hd_error (line y ++ [Feeds i]) = Some (Closes 0)).
      { destruct (line y); [discriminate|exact (fun x => x)]. }
      destruct x as [|[]|[]| | | | | |]; auto. apply in_or_app. now left.
    + intros j J. apply in_app_or in J as [J|[J|[]]]; [now apply (i_who _ _ _ _ I)|discriminate].
    + apply NoDup_snoc; [apply (i_line _ _ _ _ I)|exact Nl].
    + assert (St : status (line y ++ [Feeds i]) (replace i (Waiting d) (feeders y)) = status (line y) (feeders y)).
      { destruct (line y) as [|[h|h] l] eqn:El; cbn.
        - rewrite (nth_replaced _ _ _ _ Q). reflexivity.
        - rewrite nth_others; [reflexivity|]. intros ->. apply Nl. now left.
        - reflexivity. }
      rewrite St. pose proof (i_sound _ _ _ _ I) as S. destruct (status (line y) (feeders y)) as [[lp rem] dh].
      rewrite (fed_by_same y); [exact S|]. intros j J. apply returned_others. intros ->. apply P1.
      rewrite (i_calls _ _ _ _ I). apply in_or_app. now left.
  - (* enters *)
    rewrite app_nil_r. destruct (line y) as [|[h|h] rest] eqn:El; [exists ended; exact Same| |exists ended; exact Same].
    destruct (Nat.eqb_spec h i) as [->|N]; [|exists ended; exact Same].
    pose proof (i_sound _ _ _ _ I) as S. rewrite El in S. cbn [status] in S. rewrite Q, app_nil_r in S.
    destruct P as [P1 P2].
    destruct (is_open (stream y)) eqn:O.
    + exists ended. rewrite <- El. cbn [with_count cs_buffer].
      assert (Ox : outside x).
      { destruct (inv_outside _ _ _ _ _ _ I El) as [Ox| ->]; [exact Ox|].
        apply sound_phase in S. unfold is_open in O. rewrite S in O. discriminate. }
      eapply stay_inv; eauto; [now intros ->|]. rewrite P2.
      pose proof (enter_sound x (stream y) _ d (sent y) _ Ox eq_refl S) as S'.
      destruct (split_last (cs_buffer (stream y))) as [[init lst]|]; [|exact S'].
      destruct (blen lst =? bs); exact S'.
    + exists (ended ++ [i]). eapply leave_inv; eauto. rewrite app_nil_r. exact S.
  - (* fills the last block *)
    rewrite app_nil_r. destruct (line y) as [|[h|h] rest] eqn:El; cbn in P; destruct P as [P Nf]; try discriminate.
    assert (h = i) by congruence. subst h.
    pose proof (i_sound _ _ _ _ I) as S. rewrite El in S. cbn [status] in S. rewrite Q in S.
    assert (Ox : outside x).
    { destruct (inv_outside _ _ _ _ _ _ I El) as [Ox| ->]; [exact Ox|]. now destruct P. }
    destruct (fill_sound x _ _ _ _ Ox S) as (init & lst & Es & K). rewrite Es. cbv zeta in K |- *.
    destruct (read_z _ rem) as [chunk rem']. destruct K as [K1 K2].
    destruct (Z.eqb_spec (Z.of_N (blen chunk)) (Z.of_N bs - Z.of_N (blen lst))) as [B|B].
    + exists ended. rewrite <- El. eapply stay_inv; eauto.
    + exists (ended ++ [i]). cbn [tl]. eapply leave_inv; eauto.
  - rewrite app_nil_r. destruct (line y) as [|[h|h] rest] eqn:El; cbn in P; destruct P as [P Nf]; try discriminate.
    assert (h = i) by congruence. subst h.
    pose proof (i_sound _ _ _ _ I) as S. rewrite El in S. cbn [status] in S. rewrite Q in S.
    assert (Ox : outside x).
    { destruct (inv_outside _ _ _ _ _ _ I El) as [Ox| ->]; [exact Ox|]. now destruct P. }
    destruct (loop_sound x _ _ _ _ Ox S) as [K1 K2]. cbv zeta in K1, K2 |- *.
    destruct (N.eqb_spec (blen (take bs rem)) bs) as [B|B].
    + exists ended. rewrite <- El. eapply stay_inv; eauto.
    + exists (ended ++ [i]). cbn [tl]. eapply leave_inv; eauto.
  - rewrite app_nil_r. exists ended. exact Same.
  - destruct P.
Qed.

Definition closer_ok (x : consumer) (l : list who) : Prop :=
  match x with
  | Joining => In (Closes 0) l
  | Pulling true | Naming true _ | Padding _ | Appending _ | Flushing => hd_error l = Some (Closes 0)
  | _ => ~ In (Closes 0) l
  end.

Lemma cons_inv calls ended x y x' s' out' : inv calls ended x y -> closer_ok x' (line y) -> x' <> Finished ->
  (let '(lp, rem, dh) := status (line y) (feeders y) in sound x' s' lp rem (fed_by y ended ++ dh) out') ->
  inv calls ended x' {| stream := s'; line := line y; feeders := feeders y; consumers := replace 0 x' (consumers y); sent := out' |}.
Proof.
  intros I Cl Nf So. constructor; cbn [feeders line consumers stream sent]; try apply I.
  - rewrite (i_cons _ _ _ _ I). reflexivity.
  - intros i f Q. pose proof (i_feeder _ _ _ _ I i f Q) as P. destruct f; auto; destruct P; auto.
  - exact Cl.
  - exact So.
Qed.

Lemma head_closes calls ended x y : inv calls ended x y -> hd_error (line y) = Some (Closes 0) ->
  status (line y) (feeders y) = (false, [], []) /\ forall i f, nth_error (feeders y) i = Some f -> ~ active f.
Proof.
  intros I Hd. assert (A : forall i f, nth_error (feeders y) i = Some f -> ~ active f).
  { intros i f Q A. pose proof (i_feeder _ _ _ _ I i f Q) as P. destruct f; try destruct A; destruct P; congruence. }
  split; [|exact A]. apply status_none. intros i f _ Q. exact (A i f Q).
Qed.

Lemma consumer_inv calls ended x y e : inv calls ended x y ->
  match e with Look _ | Close _ | Go _ => True | _ => False end ->
  exists x', inv calls ended x' (proceed H c extra e y) /\
    (match e with Close _ => True | _ => x = Idle -> outside x' /\ x' <> Joining end).
Proof.
  intros I He. pose proof (i_cons _ _ _ _ I) as Ec. pose proof (i_sound _ _ _ _ I) as S. pose proof (i_closer _ _ _ _ I) as Cl.
  assert (Nothing : forall j, (forall f, e <> Feeder f) -> nth_error (consumers y) (Datatypes.S j) = None).
  { intros j _. rewrite Ec. destruct j; reflexivity. }
  assert (E0 : nth_error (consumers y) 0 = Some x) by (rewrite Ec; reflexivity).
  destruct e as [i|j|j|j|i]; try destruct He; cbn [proceed].
  - (* Look *)
    destruct j as [|j]; [|rewrite Nothing by discriminate; exists x; split; [exact I|intros ->; split; [constructor|discriminate]]].
    rewrite E0. destruct x; try (eexists; split; [exact I|discriminate]).
    assert (B : existsb is_pulling (consumers y) = false) by (rewrite Ec; reflexivity). rewrite B.
    exists (look_step c false (stream y)).
    assert (L : look_step c false (stream y) = Idle \/ look_step c false (stream y) = Pulling false).
    { unfold look_step. destruct (_ <? _); auto. }
    split; [|intros _; destruct L as [-> | ->]; split; (constructor || discriminate)].
    apply (cons_inv calls ended Idle); auto.
    + destruct L as [-> | ->]; exact Cl.
    + destruct L as [-> | ->]; discriminate.
    + destruct (status _ _) as [[lp rem] dh]. now apply look_sound.
  - (* Close *)
    destruct j as [|j]; [|rewrite Nothing by discriminate; exists x; auto].
    rewrite E0. destruct x; try (eexists; split; [exact I|exact Logic.I]).
    cbn in Cl. unfold close_step.
    assert (O : is_open (stream y) = true).
    { destruct (status _ _) as [[lp rem] dh]. now apply close_sound in S. }
    rewrite O. exists Joining. split; [|exact Logic.I].
    assert (St : status (line y ++ [Closes 0]) (feeders y) = status (line y) (feeders y)).
    { destruct (line y) as [|[h|h] l]; reflexivity. }
    constructor; cbn [feeders line consumers stream sent]; try apply I.
    + rewrite Ec. reflexivity.
    + rewrite feeds_app. cbn. rewrite app_nil_r. apply (i_calls _ _ _ _ I).
    + intros i f Q. pose proof (i_feeder _ _ _ _ I i f Q) as P. destruct f; auto.
      * destruct P as [P1 P2]. split; [|exact P2]. rewrite feeds_app. apply in_or_app. now left.
      * destruct P as [P1 P2]. split; [|discriminate]. destruct (line y); [discriminate|exact P1].
      * destruct P as [P1 P2]. split; [|discriminate]. destruct (line y); [discriminate|exact P1].
    + cbn. apply in_or_app. right. now left.
    + intros j J. apply in_app_or in J as [J|[J|[]]]; [now apply (i_who _ _ _ _ I)|congruence].
    + apply NoDup_snoc; [apply (i_line _ _ _ _ I)|exact Cl].
    + rewrite St. destruct (status _ _) as [[lp rem] dh]. apply close_sound in S as [_ S]. exact S.
  - (* Go *)
    destruct j as [|j]; [|rewrite Nothing by discriminate; exists x; split; [exact I|intros ->; split; [constructor|discriminate]]].
    rewrite E0.
    assert (Same : inv calls ended x {| stream := stream y; line := line y; feeders := feeders y; consumers := replace 0 x (consumers y); sent := sent y ++ [] |}).
    { rewrite Ec, app_nil_r. cbn. rewrite <- Ec. now destruct y. }
    destruct x as [|b|b ct| |end_|[|blk blks]| | |ex].
    + cbn [consumer_step]. exists Idle. split; [exact Same|]. intros _. split; [constructor|discriminate].
    + assert (K : exists ct s', (forall j busy l, consumer_step H c extra j busy (Pulling b) (stream y) l = (Naming b ct, s', l, [])) /\
        let '(lp, rem, dh) := status (line y) (feeders y) in sound (Naming b ct) s' lp rem (fed_by y ended ++ dh) (sent y)).
      { destruct (status _ _) as [[lp rem] dh]. destruct (pull_sound (Pulling b) _ _ _ _ _ (ex_intro _ b eq_refl) S) as (ct & s' & b' & Eb & Ek & S').
        injection Eb as <-. eauto. }
      destruct K as (ct & s' & Ek & S'). rewrite Ek, app_nil_r. exists (Naming b ct). split; [|discriminate].
      refine (cons_inv _ _ _ _ _ _ _ I _ _ _); [destruct b; exact Cl|discriminate|exact S'].
    + assert (K : exists i, (forall j busy l, consumer_step H c extra j busy (Naming b ct) (stream y) l = (if b then Flushing else Idle, stream y, l, [(i, ct)])) /\
        let '(lp, rem, dh) := status (line y) (feeders y) in sound (if b then Flushing else Idle) (stream y) lp rem (fed_by y ended ++ dh) (sent y ++ [(i, ct)])).
      { destruct (status _ _) as [[lp rem] dh]. destruct (name_sound _ _ _ _ _ _ _ S) as (i & Ek & S'). eauto. }
      destruct K as (i & Ek & S'). rewrite Ek. exists (if b then Flushing else Idle). split; [|discriminate].
      refine (cons_inv _ _ _ _ _ _ _ I _ _ _); [destruct b; exact Cl|destruct b; discriminate|exact S'].
    + cbn [consumer_step]. destruct (line y) as [|[h|h] rest] eqn:El;
        try (exists Joining; split; [rewrite ?El in *; exact Same|discriminate]).
      assert (h = 0%nat) by (apply (i_who _ _ _ _ I); rewrite El; now left). subst h. rewrite Nat.eqb_refl.
      assert (Hd : hd_error (line y) = Some (Closes 0)) by now rewrite El.
      destruct (head_closes _ _ _ _ I Hd) as [St _]. rewrite El in St. cbn [status] in S.
      destruct (join_sound _ _ _ S) as (end_ & Ee & S'). rewrite Ee, app_nil_r. exists (Padding end_). split; [|discriminate].
      rewrite <- El. refine (cons_inv _ _ _ _ _ _ _ I _ _ _); [exact Hd|discriminate|]. rewrite El. cbn [status]. exact S'.
    + destruct (head_closes _ _ _ _ I Cl) as [St _]. rewrite St in S.
      destruct (padding_sound _ _ _ _ _ _ S) as (init & lst & Es & S'). cbn [consumer_step]. rewrite Es, app_nil_r.
      eexists. split; [|discriminate]. refine (cons_inv _ _ _ _ _ _ _ I _ _ _); [exact Cl|discriminate|]. rewrite St. exact S'.
    + destruct (head_closes _ _ _ _ I Cl) as [St _]. rewrite St in S.
      apply appending_sound in S. cbn [consumer_step]. rewrite app_nil_r.
      eexists. split; [|discriminate]. refine (cons_inv _ _ _ _ _ _ _ I _ _ _); [exact Cl|discriminate|]. rewrite St. exact S.
    + destruct (head_closes _ _ _ _ I Cl) as [St _]. rewrite St in S.
      apply appending_sound in S. cbn [consumer_step]. rewrite app_nil_r.
      eexists. split; [|discriminate]. refine (cons_inv _ _ _ _ _ _ _ I _ _ _); [exact Cl|discriminate|]. rewrite St. exact S.
    + destruct (head_closes _ _ _ _ I Cl) as [St Ac]. rewrite St in S.
      apply flushing_sound in S. cbn [consumer_step].
      assert (B : existsb is_pulling (consumers y) = false) by (rewrite Ec; reflexivity). rewrite B.
      destruct (cs_buffer (stream y)) as [|b0 bl] eqn:Eb.
      * destruct S as (t & m & Ef & S). destruct (cs_session (stream y)) as [bb mm]. cbn [fst snd] in Ef, S. rewrite Ef, app_nil_r.
        exists Finished. split; [|discriminate]. destruct (line y) as [|w rest] eqn:El; [discriminate|]. cbn in Cl. injection Cl as ->.
        pose proof (i_line _ _ _ _ I) as Nl. rewrite El in Nl. apply NoDup_cons_iff in Nl as [Nl1 Nl2].
        constructor; cbn [feeders line consumers stream sent tl]; try apply I.
        -- rewrite Ec. reflexivity.
        -- rewrite (i_calls _ _ _ _ I), El. reflexivity.
        -- intros i f Q. pose proof (i_feeder _ _ _ _ I i f Q) as P. rewrite El in P.
           destruct f; auto; destruct P as [P1 P2]; discriminate.
        -- exact Nl1.
        -- intros j J. apply (i_who _ _ _ _ I). rewrite El. now right.
        -- exact Nl2.
        -- rewrite status_none; [exact S|]. intros i f _ Q. exact (Ac i f Q).
      * rewrite app_nil_r. exists (Pulling true). split; [|discriminate]. refine (cons_inv _ _ _ _ _ _ _ I _ _ _); [exact Cl|discriminate|]. rewrite St. exact S.
    + cbn [consumer_step]. exists Finished. split; [exact Same|discriminate].
    + destruct (status _ _) as [[lp rem] dh]. destruct S as (pbs & ss & o & _ & _ & []).
Qed.

Lemma existsb_in i l : existsb (Nat.eqb i) l = true <-> In i l.
Proof.
  rewrite existsb_exists. split.
  - intros (j & J & E). apply Nat.eqb_eq in E. now subst.
  - intros J. exists i. split; [exact J|]. apply Nat.eqb_refl.
Qed.

Definition valid_index (i : nat) : bool := (i <? length datas)%nat.

Lemma run_inv : forall es seen calls ended x y, uncancelled es -> inv calls ended x y ->
  (forall i, (i < length datas)%nat -> (In i seen <-> In i calls)) ->
  exists ended' x', inv (calls ++ filter valid_index (in_order seen es)) ended' x' (FeedModel.run H c extra es y).
Proof.
  induction es as [|e es IH]; intros seen calls ended x y U I Se.
  - exists ended, x. cbn. now rewrite app_nil_r.
  - inversion U as [|e' es' Ue Us]; subst e' es'. unfold FeedModel.run. cbn [fold_left]. fold (FeedModel.run H c extra es (proceed H c extra e y)).
    assert (Cons : match e with Look _ | Close _ | Go _ => True | _ => False end ->
      exists ended' x', inv (calls ++ filter valid_index (in_order seen es)) ended' x' (FeedModel.run H c extra es (proceed H c extra e y))).
    { intros He. destruct (consumer_inv _ _ _ _ e I He) as (x' & I' & _). eapply IH; eauto. }
    destruct e as [i|j|j|j|i]; try (cbn [in_order]; now apply Cons).
    cbn [in_order]. destruct (nth_error (feeders y) i) as [f|] eqn:Q.
    + assert (Li : (i < length datas)%nat) by (rewrite <- (i_len _ _ _ _ I); apply nth_error_Some; congruence).
      destruct (feeder_inv _ _ _ _ i f I Q) as (ended' & I').
      pose proof (i_feeder _ _ _ _ I i f Q) as P.
      destruct (existsb (Nat.eqb i) seen) eqn:X.
      * apply existsb_in in X. apply (Se i Li) in X.
        assert (Nf : match f with Fresh _ => [i] | _ => [] end = []) by (destruct f; auto; destruct P; tauto).
        rewrite Nf, app_nil_r in I'. eapply IH; eauto.
      * assert (Nx : ~ In i calls). { intros Y. apply (Se i Li), existsb_in in Y. congruence. }
        assert (Fr : match f with Fresh _ => [i] | _ => [] end = [i]).
        { assert (Ci : In i (feeds (line y)) \/ In i ended -> In i calls).
          { intros Z. rewrite (i_calls _ _ _ _ I). apply in_or_app. tauto. }
          destruct f; auto; exfalso; apply Nx, Ci.
          - left. apply P.
          - left. apply in_feeds. destruct P as [P _]. destruct (line y); [discriminate|]. cbn in P. injection P as ->. now left.
          - left. apply in_feeds. destruct P as [P _]. destruct (line y); [discriminate|]. cbn in P. injection P as ->. now left.
          - right. apply P.
          - destruct P. }
        rewrite Fr in I'. cbn [filter]. unfold valid_index at 1. replace (i <? length datas)%nat with true by (symmetry; now apply Nat.ltb_lt).
        change (i :: filter valid_index (in_order (i :: seen) es)) with ([i] ++ filter valid_index (in_order (i :: seen) es)).
        rewrite app_assoc. eapply IH; eauto. intros k Lk. rewrite in_app_iff. cbn. rewrite (Se k Lk). tauto.
    + assert (Li : ~ (i < length datas)%nat) by (rewrite <- (i_len _ _ _ _ I), <- nth_error_Some; congruence).
      cbn [proceed]. rewrite Q. destruct (existsb (Nat.eqb i) seen); [eapply IH; eauto|].
      cbn [filter]. unfold valid_index at 1. replace (i <? length datas)%nat with false by (symmetry; apply Nat.ltb_ge; lia).
      eapply IH; eauto. intros k Lk. cbn. rewrite <- (Se k Lk). split; [intros [->|Z]; [tauto|exact Z]|tauto].
Qed.

(** ** Every schedule can be completed *)
Local Notation run := (FeedModel.run H c extra).
Lemma run_app a b y : run (a ++ b) y = run b (run a y).
Proof. unfold FeedModel.run. apply fold_left_app. Qed.
Definition some_inv (y : system) : Prop := exists calls ended x, inv calls ended x y.
Lemma run_some es y : uncancelled es -> some_inv y -> some_inv (run es y).
Proof.
  revert y. induction es as [|e es IH]; intros y U S; [exact S|]. inversion U as [|e' es' Ue Us]; subst e' es'.
  change (some_inv (run es (proceed H c extra e y))). apply IH; [exact Us|].
  destruct S as (calls & ended & x & I).
  assert (Cons : match e with Look _ | Close _ | Go _ => True | _ => False end -> some_inv (proceed H c extra e y)).
  { intros He. destruct (consumer_inv _ _ _ _ e I He) as (x' & I' & _). do 3 eexists. exact I'. }
  destruct e as [i|j|j|j|i]; try (now apply Cons).
  destruct (nth_error (feeders y) i) as [f|] eqn:Q.
  - destruct (feeder_inv _ _ _ _ i f I Q) as (ended' & I'). do 3 eexists. exact I'.
  - cbn [proceed]. rewrite Q. do 3 eexists. exact I.
Qed.

Lemma uncancelled_app a b : uncancelled a -> uncancelled b -> uncancelled (a ++ b).
Proof. unfold uncancelled. intros. apply Forall_app. now split. Qed.
Lemma uncancelled_go n : uncancelled (repeat (Go 0) n).
Proof. unfold uncancelled. induction n; cbn; constructor; auto. Qed.

(** The consumer's next state is a function of the state. *)
Lemma go_step y x : consumers y = [x] ->
  let '(x', s, l, out) := consumer_step H c extra 0 (is_pulling x) x (stream y) (line y) in
  proceed H c extra (Go 0) y = {| stream := s; line := l; feeders := feeders y; consumers := [x']; sent := sent y ++ out |}.
Proof.
  intros E. cbn [proceed]. rewrite E. cbn [nth_error existsb]. rewrite orb_false_r.
  destruct (consumer_step _ _ _ _ _ _ _ _) as [[[x' s] l] out]. reflexivity.
Qed.

Definition ends (y : system) : Prop := exists n, consumers (run (repeat (Go 0) n) y) = [Finished] /\ feeders (run (repeat (Go 0) n) y) = feeders y.
Lemma ends_step y : ends (proceed H c extra (Go 0) y) -> feeders (proceed H c extra (Go 0) y) = feeders y -> ends y.
Proof. intros (n & A & B) F. exists (Datatypes.S n). cbn [repeat]. change (run (Go 0 :: repeat (Go 0) n) y) with (run (repeat (Go 0) n) (proceed H c extra (Go 0) y)). split; [exact A|congruence]. Qed.
Lemma go_feeders y : feeders (proceed H c extra (Go 0) y) = feeders y.
Proof.
  cbn [proceed]. destruct (nth_error (consumers y) 0) as [x|]; [|reflexivity].
  destruct (consumer_step _ _ _ _ _ _ _ _) as [[[x' s] l] out]. reflexivity.
Qed.

Lemma go_next calls ended x y : inv calls ended x y -> exists x', inv calls ended x' (proceed H c extra (Go 0) y).
Proof. intros I. destruct (consumer_inv _ _ _ _ (Go 0) I Logic.I) as (x' & I' & _). eauto. Qed.

Lemma flush_ends : forall n calls ended x y, inv calls ended x y ->
  match x with
  | Flushing => n = (3 * length (cs_buffer (stream y)))%nat
  | Pulling true => (n + 1 = 3 * length (cs_buffer (stream y)))%nat
  | Naming true _ => (n = 3 * length (cs_buffer (stream y)) + 1)%nat
  | _ => False
  end -> ends y.
Proof.
  induction n as [n IH] using (well_founded_induction lt_wf). intros calls ended x y I E.
  pose proof (i_cons _ _ _ _ I) as Ec. pose proof (go_step y x Ec) as G. destruct (go_next _ _ _ _ I) as (x' & I').
  destruct x as [|[]|[] ct| | | | | |]; try contradiction; cbn [is_pulling consumer_step] in G.
  - (* Pulling *)
    destruct (cs_buffer (stream y)) as [|b rest] eqn:Eb; [cbn in E; lia|].
    destruct (transform H c Encryption (cs_first (stream y)) (cs_session (stream y)) b) as [[ct ss]|e] eqn:T.
    2:{ rewrite G in I'. pose proof (i_cons _ _ _ _ I') as X. cbn in X. injection X as <-.
        pose proof (i_sound _ _ _ _ I') as S. destruct (status _ _) as [[? ?] ?]. destruct S as (? & ? & ? & _ & _ & []). }
    apply ends_step; [|apply go_feeders]. rewrite G in I' |- *.
    pose proof (i_cons _ _ _ _ I') as X. cbn [consumers] in X. injection X as <-.
    eapply (IH (n - 1)%nat); [cbn in E; lia|exact I'|]. cbn [stream cs_buffer]. cbn [length] in E. lia.
  - (* Naming *)
    destruct (next_block_id _ _ _ _ _ _) as [i|e] eqn:T.
    2:{ rewrite G in I'. pose proof (i_cons _ _ _ _ I') as X. cbn in X. injection X as <-.
        pose proof (i_sound _ _ _ _ I') as S. destruct (status _ _) as [[? ?] ?]. destruct S as (? & ? & ? & _ & _ & []). }
    apply ends_step; [|apply go_feeders]. rewrite G in I' |- *.
    pose proof (i_cons _ _ _ _ I') as X. cbn [consumers] in X. injection X as <-.
    eapply (IH (n - 1)%nat); [lia|exact I'|]. cbn [stream]. lia.
  - (* Flushing *)
    destruct (cs_buffer (stream y)) as [|b rest] eqn:Eb.
    + destruct (cs_session (stream y)) as [bb mm]. destruct (finalize H c bb mm) as [[t m]|e] eqn:T.
      2:{ rewrite G in I'. pose proof (i_cons _ _ _ _ I') as X. cbn in X. injection X as <-.
          pose proof (i_sound _ _ _ _ I') as S. destruct (status _ _) as [[? ?] ?]. destruct S as (? & ? & ? & _ & _ & []). }
      exists 1%nat. change (run (repeat (Go 0) 1) y) with (proceed H c extra (Go 0) y). rewrite G. split; reflexivity.
    + apply ends_step; [|apply go_feeders]. rewrite G in I' |- *.
      pose proof (i_cons _ _ _ _ I') as X. cbn [consumers] in X. injection X as <-.
      eapply (IH (n - 1)%nat); [cbn [length] in E; lia|exact I'|]. cbn [stream]. rewrite Eb. cbn [length] in E |- *. lia.
Qed.

Lemma append_ends : forall l calls ended y, inv calls ended (Appending l) y -> ends y.
Proof.
  induction l as [|b l IH]; intros calls ended y I; pose proof (i_cons _ _ _ _ I) as Ec; pose proof (go_step y _ Ec) as G;
    destruct (go_next _ _ _ _ I) as (x' & I'); cbn [is_pulling consumer_step] in G;
    (apply ends_step; [|apply go_feeders]); rewrite G in I' |- *;
    pose proof (i_cons _ _ _ _ I') as X; cbn [consumers] in X; injection X as <-.
  - eapply (flush_ends _ _ _ Flushing); [exact I'|reflexivity].
  - eapply IH. exact I'.
Qed.

Lemma front_ends calls ended x y : inv calls ended x y -> hd_error (line y) = Some (Closes 0) -> ends y.
Proof.
  intros I Hd. pose proof (i_cons _ _ _ _ I) as Ec. pose proof (i_closer _ _ _ _ I) as Cl.
  assert (In0 : In (Closes 0) (line y)) by (destruct (line y); [discriminate|injection Hd as ->; now left]).
  assert (Pad : forall end_ y, inv calls ended (Padding end_) y -> ends y).
  { clear - XL VC VI ME MD VR Ls. intros end_ y I. pose proof (i_cons _ _ _ _ I) as Ec. pose proof (go_step y _ Ec) as G.
    destruct (go_next _ _ _ _ I) as (x' & I'). cbn [is_pulling consumer_step] in G.
    destruct (split_last (cs_buffer (stream y))) as [[init lst]|].
    - apply ends_step; [|apply go_feeders]. rewrite G in I' |- *.
      pose proof (i_cons _ _ _ _ I') as X. cbn [consumers] in X. injection X as <-. eapply append_ends. exact I'.
    - rewrite G in I'. pose proof (i_cons _ _ _ _ I') as X. cbn in X. injection X as <-.
      pose proof (i_sound _ _ _ _ I') as S. destruct (status _ _) as [[? ?] ?]. destruct S as (? & ? & ? & _ & _ & []). }
  destruct x as [|[]|[] ct| |end_|l| | |e]; try (now destruct Cl).
  - eapply (flush_ends (3 * length (cs_buffer (stream y)) - 1)%nat _ _ (Pulling true)); [exact I|]. cbv beta iota.
    pose proof (i_sound _ _ _ _ I) as S. destruct (status _ _) as [[? ?] ?]. destruct S as (? & ? & ? & _ & _ & _ & _ & Ne & _).
    specialize (Ne eq_refl). destruct (cs_buffer (stream y)); [congruence|]. cbn [length]. lia.
  - eapply (flush_ends _ _ _ (Naming true ct)); [exact I|]. cbv beta iota. reflexivity.
  - pose proof (go_step y _ Ec) as G. destruct (go_next _ _ _ _ I) as (x' & I'). cbn [is_pulling consumer_step] in G.
    destruct (line y) as [|w rest] eqn:El; [discriminate|]. cbn in Hd. injection Hd as ->. cbn [Nat.eqb] in G.
    destruct (end_padding c (cs_count (stream y)) extra) as [end_|e].
    + apply ends_step; [|apply go_feeders]. rewrite G in I' |- *.
      pose proof (i_cons _ _ _ _ I') as X. cbn [consumers] in X. injection X as <-. eapply Pad. exact I'.
    + rewrite G in I'. pose proof (i_cons _ _ _ _ I') as X. cbn in X. injection X as <-.
      pose proof (i_sound _ _ _ _ I') as S. destruct (status _ _) as [[? ?] ?]. destruct S as (? & ? & ? & _ & _ & []).
  - eapply Pad. exact I.
  - eapply append_ends. exact I.
  - eapply (flush_ends _ _ _ Flushing); [exact I|reflexivity].
Qed.

Definition weight (f : feeder) : nat :=
  match f with
  | Fresh d => length d + 5 | Waiting d => length d + 4 | Filling d => length d + 3 | Looping d => length d + 2
  | Ended _ => 0 | Gone => 1
  end.
Definition weights (l : list feeder) : nat := fold_right (fun f n => (weight f + n)%nat) 0%nat l.
Lemma weights_replace l i f f' : nth_error l i = Some f -> (weights (replace i f' l) + weight f = weights l + weight f')%nat.
Proof.
  unfold replace. revert i. induction l as [|g l IH]; intros [|i] Q; cbn in Q |- *; try discriminate.
  - injection Q as ->. lia.
  - specialize (IH i Q). cbn [weights fold_right] in *. unfold weights in *. lia.
Qed.
Lemma weights_zero l : weights l = 0%nat -> forall f, In f l -> exists o, f = Ended o.
Proof.
  induction l as [|g l IH]; intros E f I; [destruct I|]. cbn in E. destruct I as [->|I].
  - destruct f; cbn in E; try lia. eauto.
  - apply IH; [unfold weights; lia|exact I].
Qed.
Lemma weights_pos l : weights l <> 0%nat -> exists i f, nth_error l i = Some f /\ weight f <> 0%nat.
Proof.
  induction l as [|g l IH]; intros E; [now destruct E|]. destruct (Nat.eq_dec (weight g) 0) as [Z|Z].
  - destruct IH as (i & f & Q & W). { cbn in E. unfold weights. lia. } exists (Datatypes.S i), f. auto.
  - exists 0%nat, g. auto.
Qed.

(** The feeder in front, or one that has not joined, makes progress. *)
Lemma feeder_progress calls ended x y i f : inv calls ended x y -> nth_error (feeders y) i = Some f ->
  (hd_error (line y) = Some (Feeds i) /\ (forall o, f <> Ended o)) \/ (exists d, f = Fresh d) ->
  (weights (feeders (proceed H c extra (Feeder i) y)) < weights (feeders y))%nat /\
  consumers (proceed H c extra (Feeder i) y) = consumers y.
Proof.
  intros I Q C. pose proof (i_feeder _ _ _ _ I i f Q) as P. cbn [proceed]. rewrite Q.
  destruct (feeder_step c i f (stream y) (line y)) as [[f' s'] l'] eqn:F. cbn [feeders consumers]. split; [|reflexivity].
  pose proof (weights_replace (feeders y) i f f' Q) as W. enough (weight f' < weight f)%nat by lia.
  pose proof (blocksize_pos H c VC) as Bp.
  destruct f as [d|d|rem|rem|o|]; cbn [feeder_step] in F.
  - injection F as <- _ _. cbn. lia.
  - destruct C as [[C _]|[? C]]; [|discriminate]. destruct (line y) as [|w rest]; [discriminate|]. cbn in C. injection C as ->.
    rewrite Nat.eqb_refl in F. destruct (is_open (stream y)); injection F as <- _ _; [|cbn; lia].
    cbn [with_count cs_buffer]. destruct (split_last _) as [[? lst]|]; [destruct (_ =? _)|]; cbn; lia.
  - pose proof (i_sound _ _ _ _ I) as S. destruct P as [P Nf].
    destruct (split_last (cs_buffer (stream y))) as [[init lst]|]; [|injection F as <- _ _; cbn; lia].
    destruct (read_z _ rem) as [chunk rem'] eqn:R.
    assert (Lr : (length rem' <= length rem)%nat).
    { unfold read_z in R. destruct (_ <? 0)%Z; injection R as <- <-; [cbn; lia|]. pose proof (blen_drop (Z.to_N (Z.of_N bs - Z.of_N (blen lst))) rem) as D. unfold blen in *. lia. }
    destruct (_ =? _)%Z; injection F as <- _ _; cbn; lia.
  - destruct (N.eqb_spec (blen (take bs rem)) bs) as [B|B]; injection F as <- _ _; cbn; [|lia].
    pose proof (blen_drop bs rem) as D. rewrite blen_take in B. unfold blen in *. lia.
  - destruct C as [[_ C]|[? C]]; [|discriminate]. now destruct (C o).
  - destruct P.
Qed.

Lemma feeders_end : forall n calls ended x y, inv calls ended x y ->
  (n = 2 * weights (feeders y) + (match x with Finished => 0 | _ => 1 end))%nat ->
  exists es, uncancelled es /\ all_ended (run es y).
Proof.
  induction n as [n IH] using (well_founded_induction lt_wf). intros calls ended x y I E.
  destruct (Nat.eq_dec (weights (feeders y)) 0) as [Z|Z].
  { exists []. split; [constructor|]. intros f F. exact (weights_zero _ Z f F). }
  assert (Step : forall i f, nth_error (feeders y) i = Some f ->
    (hd_error (line y) = Some (Feeds i) /\ (forall o, f <> Ended o)) \/ (exists d, f = Fresh d) ->
    exists es, uncancelled es /\ all_ended (run es y)).
  { intros i f Q C. destruct (feeder_progress _ _ _ _ i f I Q C) as [W Ce].
    destruct (feeder_inv _ _ _ _ i f I Q) as (ended' & I').
    destruct (fun L => IH (2 * weights (feeders (proceed H c extra (Feeder i) y)) + (match x with Finished => 0 | _ => 1 end))%nat L _ _ _ _ I' eq_refl) as (es & U & A).
    - lia.
    - exists (Feeder i :: es). split; [constructor; [exact Logic.I|exact U]|exact A]. }
  destruct (line y) as [|[h|h] rest] eqn:El.
  - destruct (weights_pos _ Z) as (i & f & Q & W). pose proof (i_feeder _ _ _ _ I i f Q) as P. rewrite El in P. cbn in P.
    apply (Step i f Q). right. destruct f; eauto; cbn in P; try tauto; try (now destruct P); cbn in W; lia.
  - destruct (head_fresh _ _ _ _ _ _ I El) as (N1 & _ & N3). pose proof (i_bound _ _ _ _ I h N3) as B.
    rewrite <- (i_len _ _ _ _ I) in B. destruct (nth_error (feeders y) h) as [f|] eqn:Q; [|apply nth_error_Some in B; congruence].
    apply (Step h f Q). left. split; [reflexivity|]. intros o ->. pose proof (i_feeder _ _ _ _ I h _ Q) as P. exact (N1 (proj1 P)).
  - assert (h = 0%nat) by (apply (i_who _ _ _ _ I); rewrite El; now left). subst h.
    assert (Hd : hd_error (line y) = Some (Closes 0)) by now rewrite El.
    destruct (front_ends _ _ _ _ I Hd) as (m & C1 & C2).
    destruct (run_some (repeat (Go 0) m) y (uncancelled_go m)) as (calls' & ended' & x' & I'); [do 3 eexists; exact I|].
    assert (x' = Finished) by (pose proof (i_cons _ _ _ _ I'); congruence). subst x'.
    assert (Nf : x <> Finished).
    { intros ->. apply (i_closer _ _ _ _ I). rewrite El. now left. }
    destruct (fun L => IH (2 * weights (feeders (run (repeat (Go 0) m) y)) + 0)%nat L _ _ _ _ I' eq_refl) as (es & U & A).
    + rewrite C2. destruct x; try lia. congruence.
    + exists (repeat (Go 0) m ++ es). split; [apply uncancelled_app; [apply uncancelled_go|exact U]|]. now rewrite run_app.
Qed.

Lemma close_feeders j y : feeders (proceed H c extra (Close j) y) = feeders y.
Proof.
  cbn [proceed]. destruct (nth_error (consumers y) j) as [[]|]; try reflexivity.
  destruct (close_step _ _ _) as [[? ?] ?]. reflexivity.
Qed.

Lemma consumer_ends calls ended x y : inv calls ended x y -> all_ended y ->
  exists es, uncancelled es /\ finalized (run es y) /\ all_ended (run es y).
Proof.
  intros I A.
  assert (Front : forall calls ended y, inv calls ended Joining y -> all_ended y -> ends y).
  { clear - XL VC VI ME MD VR Ls. intros calls ended y I A. pose proof (i_closer _ _ _ _ I) as Cl. cbn in Cl.
    eapply front_ends; [exact I|]. destruct (line y) as [|[h|h] rest] eqn:El.
    - destruct Cl.
    - exfalso. destruct (head_fresh _ _ _ _ _ _ I El) as (N1 & _ & N3). pose proof (i_bound _ _ _ _ I h N3) as B.
      rewrite <- (i_len _ _ _ _ I) in B. destruct (nth_error (feeders y) h) as [f|] eqn:Q; [|apply nth_error_Some in B; congruence].
      destruct (A f (nth_error_In _ _ Q)) as [o ->]. exact (N1 (proj1 (i_feeder _ _ _ _ I h _ Q))).
    - assert (h = 0%nat) by (apply (i_who _ _ _ _ I); rewrite El; now left). now subst h. }
  assert (Idle_ends : forall calls ended y, inv calls ended Idle y -> all_ended y ->
    exists es, uncancelled es /\ finalized (run es y) /\ all_ended (run es y)).
  { clear - XL VC VI ME MD VR Ls Front. intros calls ended y I A.
    destruct (consumer_inv _ _ _ _ (Close 0) I Logic.I) as (x' & I' & _).
    assert (x' = Joining).
    { pose proof (i_cons _ _ _ _ I') as X. pose proof (i_sound _ _ _ _ I) as S. destruct (status _ _) as [[? ?] ?].
      apply close_sound in S as [O _]. cbn [proceed] in X. rewrite (i_cons _ _ _ _ I) in X. cbn [nth_error] in X.
      unfold close_step in X. rewrite O in X. cbn in X. congruence. }
    subst x'. destruct (Front _ _ _ I') as (n & C1 & C2).
    { intros f F. rewrite close_feeders in F. now apply A. }
    exists (Close 0 :: repeat (Go 0) n). split; [constructor; [exact Logic.I|apply uncancelled_go]|].
    change (run (Close 0 :: repeat (Go 0) n) y) with (run (repeat (Go 0) n) (proceed H c extra (Close 0) y)).
    split; [exact C1|]. intros f F. rewrite C2, close_feeders in F. now apply A. }
  assert (Ends : ends y -> exists es, uncancelled es /\ finalized (run es y) /\ all_ended (run es y)).
  { intros (n & C1 & C2). exists (repeat (Go 0) n). split; [apply uncancelled_go|]. split; [exact C1|].
    intros f F. rewrite C2 in F. now apply A. }
  assert (Then : forall x', inv calls ended x' (proceed H c extra (Go 0) y) ->
    (exists es, uncancelled es /\ finalized (run es (proceed H c extra (Go 0) y)) /\ all_ended (run es (proceed H c extra (Go 0) y))) ->
    exists es, uncancelled es /\ finalized (run es y) /\ all_ended (run es y)).
  { intros x' _ (es & U & F). exists (Go 0 :: es). split; [constructor; [exact Logic.I|exact U]|exact F]. }
  assert (Ag : all_ended (proceed H c extra (Go 0) y)).
  { intros f F. rewrite go_feeders in F. now apply A. }
  pose proof (i_cons _ _ _ _ I) as Ec. pose proof (go_step y _ Ec) as G. pose proof (i_closer _ _ _ _ I) as Cl.
  assert (Name : forall calls ended ct y, inv calls ended (Naming false ct) y -> all_ended y ->
    exists es, uncancelled es /\ finalized (run es y) /\ all_ended (run es y)).
  { clear - XL VC VI ME MD VR Ls Idle_ends. intros calls ended ct y I A.
    pose proof (i_cons _ _ _ _ I) as Ec. pose proof (go_step y _ Ec) as G. destruct (go_next _ _ _ _ I) as (x' & I').
    cbn [is_pulling consumer_step] in G. destruct (next_block_id _ _ _ _ _ _) as [i|e].
    - assert (x' = Idle) by (pose proof (i_cons _ _ _ _ I') as X; rewrite G in X; cbn in X; congruence). subst x'.
      destruct (Idle_ends _ _ _ I') as (es & U & F). { intros f F. rewrite go_feeders in F. now apply A. }
      exists (Go 0 :: es). split; [constructor; [exact Logic.I|exact U]|exact F].
    - exfalso. rewrite G in I'. pose proof (i_cons _ _ _ _ I') as X. cbn in X. injection X as <-.
      pose proof (i_sound _ _ _ _ I') as S. destruct (status _ _) as [[? ?] ?]. destruct S as (? & ? & ? & _ & _ & []). }
  destruct x as [|[]|[] ct| |end_|l| | |e].
  - eapply Idle_ends; eauto.
  - apply Ends. eapply front_ends; eauto.
  - destruct (go_next _ _ _ _ I) as (x' & I'). apply (Then x' I').
    assert (exists ct, x' = Naming false ct) as [ct ->].
    { cbn [is_pulling consumer_step] in G. pose proof (i_cons _ _ _ _ I') as X. pose proof (i_sound _ _ _ _ I') as S.
      destruct (cs_buffer (stream y)) as [|b rest].
      - rewrite G in X. cbn in X. injection X as <-. destruct (status _ _) as [[? ?] ?]. destruct S as (? & ? & ? & _ & _ & []).
      - destruct (transform _ _ _ _ _ _) as [[ct ss]|e].
        + rewrite G in X. cbn in X. exists ct. congruence.
        + rewrite G in X. cbn in X. injection X as <-. destruct (status _ _) as [[? ?] ?]. destruct S as (? & ? & ? & _ & _ & []). }
    eapply Name; eauto.
  - apply Ends. eapply front_ends; eauto.
  - eapply Name; eauto.
  - apply Ends. eapply Front; eauto.
  - apply Ends. eapply front_ends; eauto.
  - apply Ends. eapply front_ends; eauto.
  - apply Ends. eapply front_ends; eauto.
  - exists []. split; [constructor|]. split; [exact Ec|exact A].
  - exfalso. pose proof (i_sound _ _ _ _ I) as S. destruct (status _ _) as [[? ?] ?]. destruct S as (? & ? & ? & _ & _ & []).
Qed.

Lemma completes y : some_inv y -> exists es, uncancelled es /\ finalized (run es y) /\ all_ended (run es y).
Proof.
  intros (calls & ended & x & I). destruct (feeders_end _ _ _ _ _ I eq_refl) as (es & U & A).
  destruct (run_some es y U) as (calls' & ended' & x' & I'); [do 3 eexists; exact I|].
  destruct (consumer_ends _ _ _ _ I' A) as (es' & U' & F). exists (es ++ es').
  split; [now apply uncancelled_app|]. now rewrite run_app.
Qed.

(** Until somebody finalizes nobody is refused. *)
Lemma open_returns : forall es y, uncancelled es -> unclosed es -> some_inv y ->
  cs_phase (stream y) = Open -> (forall o, In (Ended o) (feeders y) -> o = Done) ->
  forall o, In (Ended o) (feeders (run es y)) -> o = Done.
Proof.
  induction es as [|e es IH]; intros y U V S P D; [exact D|].
  inversion U as [|? ? U1 U2]; subst. inversion V as [|? ? V1 V2]; subst.
  change (run (e :: es) y) with (run es (proceed H c extra e y)).
  pose proof (run_some [e] y (Forall_cons _ U1 (Forall_nil _)) S) as S'. change (run [e] y) with (proceed H c extra e y) in S'.
  assert (K : cs_phase (stream (proceed H c extra e y)) = Open /\ (forall o, In (Ended o) (feeders (proceed H c extra e y)) -> o = Done)).
  { destruct S as (calls & ended & x & I). destruct e as [i|j|j|j|i]; try contradiction; cbn [proceed].
    - destruct (nth_error (feeders y) i) as [f|] eqn:Q; [|auto].
      destruct (feeder_step c i f (stream y) (line y)) as [[f' s'] l'] eqn:F. cbn [stream feeders].
      assert (Kf : cs_phase s' = Open /\ (forall o, f' = Ended o -> o = Done \/ f = Ended o \/ o = Raised IndexErr)).
      { pose proof (i_feeder _ _ _ _ I i f Q) as Pf. destruct f as [d|d|rem|rem|o|]; cbn [feeder_step] in F.
        - injection F as <- <- <-. split; [exact P|discriminate].
        - destruct (line y) as [|[h|h] rest]; try (injection F as <- <- <-; split; [exact P|discriminate]).
          destruct (Nat.eqb h i); [|injection F as <- <- <-; split; [exact P|discriminate]].
          unfold is_open in F. rewrite P in F. injection F as <- <- <-. split; [exact P|].
          intros o. destruct (split_last _) as [[? lst]|]; [destruct (_ =? _)|]; discriminate.
        - destruct (split_last _) as [[init lst]|]; [|injection F as <- <- <-; split; [exact P|]; intros o X; injection X as <-; auto].
          destruct (read_z _ _) as [chunk rem']. destruct (_ =? _)%Z; injection F as <- <- <-; (split; [exact P|]); [discriminate|].
          intros o X. injection X as <-. auto.
        - destruct (_ =? _); injection F as <- <- <-; (split; [exact P|]); [discriminate|]. intros o X. injection X as <-. auto.
        - injection F as <- <- <-. split; [exact P|]. auto.
        - destruct Pf. }
      destruct Kf as [K1 K2]. split; [exact K1|]. intros o J. destruct (In_nth_error _ _ J) as [k J']. clear J. rename J' into J. rewrite nth_replace in J.
      destruct (Nat.eqb_spec i k) as [Ek|N]; [subst k|].
      + rewrite Q in J. injection J as J. destruct (K2 o J) as [K|[K|K]]; [exact K| |].
        * subst f. apply D. eapply nth_error_In. exact Q.
        * subst f' o. destruct S' as (calls' & ended' & x' & I'). cbn [proceed] in I'. rewrite Q, F in I'.
          pose proof (i_feeder _ _ _ _ I' i (Ended (Raised IndexErr))) as Pf. cbn [feeders] in Pf.
          rewrite (nth_replaced _ _ _ _ Q) in Pf. destruct (Pf eq_refl) as [_ [X|X]]; discriminate.
      + apply D. eapply nth_error_In. exact J.
    - destruct (nth_error (consumers y) j) as [[]|]; auto.
    - destruct (nth_error (consumers y) j) as [xj|] eqn:Qj; [|auto].
      destruct (consumer_step H c extra j _ xj (stream y) (line y)) as [[[x' s'] l'] out] eqn:F. cbn [stream feeders].
      split; [|exact D]. rewrite (i_cons _ _ _ _ I) in Qj. destruct j as [|[|]]; cbn in Qj; try discriminate. injection Qj as ->.
      pose proof (i_sound _ _ _ _ I) as Sd. destruct (status _ _) as [[? ?] ?]. apply sound_phase in Sd. rewrite P in Sd.
      destruct xj as [|[]|[] ct| |end_|l| | |e]; try discriminate; cbn [consumer_step] in F.
      + injection F as <- <- <- <-. exact P.
      + destruct (cs_buffer (stream y)); [injection F as <- <- <- <-; exact P|].
        destruct (transform _ _ _ _ _ _) as [[]|]; injection F as <- <- <- <-; exact P.
      + destruct (next_block_id _ _ _ _ _ _); injection F as <- <- <- <-; exact P. }
  destruct K as [K1 K2]. apply IH; auto.
Qed.
End Feed.

(** ** A feeder that was cancelled while it waited *)
Definition dead (f : feeder) : Prop := match f with Fresh _ | Waiting _ | Gone => True | _ => False end.
Definition locked_out (x : consumer) : Prop :=
  match x with Idle | Pulling false | Naming false _ | Joining | Broken _ => True | _ => False end.
Definition stuck (i : nat) (y : system) : Prop :=
  hd_error (line y) = Some (Feeds i) /\ nth_error (feeders y) i = Some Gone /\
  Forall dead (feeders y) /\ Forall locked_out (consumers y).

Lemma Forall_replace {A} (P : A -> Prop) i x l : P x -> Forall P l -> Forall P (replace i x l).
Proof.
  intros Px. unfold replace. revert i. induction l as [|y l IH]; intros i F; [now rewrite firstn_nil, skipn_nil|].
  inversion F as [|? ? F1 F2]; subst. destruct i as [|i]; cbn; [now constructor|]. constructor; [exact F1|]. now apply IH.
Qed.
Lemma Forall_nth {A} (P : A -> Prop) l i x : Forall P l -> nth_error l i = Some x -> P x.
Proof. intros F Q. rewrite Forall_forall in F. apply F. eapply nth_error_In. exact Q. Qed.

Lemma stuck_step H c extra i e y : stuck i y -> stuck i (proceed H c extra e y).
Proof.
  intros (Hd & Q & Fd & Fl). destruct (line y) as [|w rest] eqn:El; [discriminate|]. cbn in Hd. injection Hd as ->.
  unfold stuck. destruct e as [k|j|j|j|k]; cbn [proceed].
  - destruct (nth_error (feeders y) k) as [f|] eqn:Qk; [|rewrite El; auto]. pose proof (Forall_nth _ _ _ _ Fd Qk) as D.
    destruct (feeder_step c k f (stream y) (line y)) as [[f' s'] l'] eqn:F. cbn [line feeders consumers].
    assert (K : dead f' /\ hd_error l' = Some (Feeds i) /\ (k = i -> f' = Gone)).
    { destruct f as [d|d|d|d|o|]; try contradiction; cbn [feeder_step] in F; rewrite El in F.
      - injection F as <- <- <-. split; [exact D|]. split; [reflexivity|]. intros ->. congruence.
      - destruct (Nat.eqb_spec i k) as [E|E].
        + subst k. congruence.
        + injection F as <- <- <-. split; [exact D|]. split; [reflexivity|]. congruence.
      - injection F as <- <- <-. auto. }
    destruct K as (K1 & K2 & K3). split; [exact K2|]. split.
    { rewrite nth_replace. destruct (Nat.eqb_spec k i) as [E|E]; [rewrite Q; f_equal; auto|exact Q]. }
    split; [now apply Forall_replace|exact Fl].
  - destruct (nth_error (consumers y) j) as [[]|]; try (rewrite El; now auto). cbn [line feeders consumers]. rewrite El.
    split; [reflexivity|]. split; [exact Q|]. split; [exact Fd|]. apply Forall_replace; [|exact Fl].
    unfold look_step. destruct (_ <? _); [destruct (existsb _ _)|]; exact Logic.I.
  - destruct (nth_error (consumers y) j) as [[]|]; try (rewrite El; now auto). unfold close_step. rewrite El.
    destruct (is_open _); cbn [line feeders consumers]; (split; [reflexivity|]); (split; [exact Q|]); (split; [exact Fd|]);
      apply Forall_replace; auto; exact Logic.I.
  - destruct (nth_error (consumers y) j) as [x|] eqn:Qx; [|rewrite El; auto]. pose proof (Forall_nth _ _ _ _ Fl Qx) as D.
    destruct (consumer_step H c extra j _ x (stream y) (line y)) as [[[x' s'] l'] out] eqn:F. cbn [line feeders consumers].
    assert (K : locked_out x' /\ l' = line y).
    { destruct x as [|[]|[] ct| |end_|bl| | |ex]; try contradiction; cbn [consumer_step] in F.
      - injection F as <- _ <- _. split; [exact Logic.I|reflexivity].
      - destruct (cs_buffer (stream y)); [injection F as <- _ <- _; split; [exact Logic.I|reflexivity]|].
        destruct (transform _ _ _ _ _ _) as [[]|]; injection F as <- _ <- _; split; try exact Logic.I; reflexivity.
      - destruct (next_block_id _ _ _ _ _ _); injection F as <- _ <- _; split; try exact Logic.I; reflexivity.
      - rewrite El in F |- *. injection F as <- _ <- _. split; [exact Logic.I|reflexivity].
      - injection F as <- _ <- _. split; [exact Logic.I|reflexivity]. }
    destruct K as [K1 ->]. rewrite El. split; [reflexivity|]. split; [exact Q|]. split; [exact Fd|]. now apply Forall_replace.
  - destruct (nth_error (feeders y) k) as [f|] eqn:Qk; [|rewrite El; auto]. pose proof (Forall_nth _ _ _ _ Fd Qk) as D.
    assert (K : cancel_step f (line y) = (Gone, line y)).
    { destruct f; try contradiction; reflexivity. }
    rewrite K. cbn [line feeders consumers]. rewrite El. split; [reflexivity|]. split.
    { rewrite nth_replace. destruct (Nat.eqb_spec k i) as [E|E]; [now rewrite Q|exact Q]. }
    split; [apply Forall_replace; [exact Logic.I|exact Fd]|exact Fl].
Qed.
Lemma stuck_run H c extra i es : forall y, stuck i y -> stuck i (FeedModel.run H c extra es y).
Proof.
  induction es as [|e es IH]; intros y S; [exact S|]. change (stuck i (FeedModel.run H c extra es (proceed H c extra e y))).
  apply IH. now apply stuck_step.
Qed.

(** ** The guard, with any number of consumers *)
Definition guarded (l : list who) (at_ : who -> stand) : Prop :=
  NoDup l /\ (forall w, In w l <-> at_ w <> Away) /\ (forall w, at_ w = Inside -> hd_error l = Some w).
Inductive moved (l : list who) (at_ : who -> stand) (l' : list who) (at' : who -> stand) (w : who) : Prop :=
| Moved_in : at_ w = Away -> at' w = Waits -> l' = l ++ [w] -> moved l at_ l' at' w
| Moved_on : (at' w = at_ w \/ hd_error l = Some w /\ at' w = Inside) -> l' = l -> moved l at_ l' at' w
| Moved_out : hd_error l = Some w -> at' w = Away -> l' = tl l -> moved l at_ l' at' w.
Lemma moved_guarded l at_ l' at' w : guarded l at_ -> (forall v, v <> w -> at' v = at_ v) ->
  moved l at_ l' at' w -> guarded l' at'.
Proof.
  intros (N & L & I) O M. assert (D : forall v, v = w \/ v <> w) by (intros v; destruct v as [i|i], w as [k|k];
    try (right; discriminate); (destruct (Nat.eq_dec i k) as [->|]; [now left|right; congruence])).
  destruct M as [A B -> | A -> | A B ->].
  - assert (Nw : ~ In w l) by (intros K; apply L in K; congruence).
    split; [now apply NoDup_snoc|]. split.
    + intros v. rewrite in_app_iff. destruct (D v) as [->|K].
      * rewrite B. split; [discriminate|]. intros _. right. now left.
      * rewrite O by assumption. rewrite <- L. split; [intros [?|[?|[]]]; [assumption|congruence]|now left].
    + intros v E. destruct (D v) as [->|K]; [congruence|]. rewrite O in E by assumption. apply I in E.
      destruct l; [discriminate|exact E].
  - split; [assumption|]. split.
    + intros v. destruct (D v) as [->|K].
      * destruct A as [->|[A B]]; [apply L|]. rewrite B. split; [discriminate|]. intros _. destruct l; [discriminate|].
        injection A as ->. now left.
      * rewrite O by assumption. apply L.
    + intros v E. destruct (D v) as [->|K]; [destruct A as [A|[A _]]; [rewrite A in E; now apply I|exact A]|].
      rewrite O in E by assumption. now apply I.
  - destruct l as [|x l]; [discriminate|]. injection A as ->. apply NoDup_cons_iff in N as [N1 N2]. cbn [tl].
    split; [assumption|]. split.
    + intros v. destruct (D v) as [->|K]; [rewrite B; split; [contradiction|congruence]|]. rewrite O by assumption.
      rewrite <- L. split; [now right|]. intros [?|?]; [congruence|assumption].
    + intros v E. destruct (D v) as [->|K]; [congruence|]. rewrite O in E by assumption. apply I in E. cbn in E. congruence.
Qed.

Section Guard.
Variable H : hasher.
Variable c : cfg.
Variable extra : bytes.
Definition safe (y : system) : Prop := guarded (line y) (stands y).
Lemma safe_feeder i f f' y s l : safe y -> nth_error (feeders y) i = Some f -> feeder_step c i f (stream y) (line y) = (f', s, l) ->
  safe {| stream := s; line := l; feeders := replace i f' (feeders y); consumers := consumers y; sent := sent y |}.
Proof.
  intros G Q E. eapply (moved_guarded _ _ _ _ (Feeds i) G).
  - intros [k|k] K; [|reflexivity]. unfold stands. cbn [feeders]. rewrite nth_others by congruence. reflexivity.
  - cbn [line]. destruct G as (_ & L & I).
    assert (A' : stands {| stream := s; line := l; feeders := replace i f' (feeders y); consumers := consumers y; sent := sent y |} (Feeds i) =
      match f' with Waiting _ => Waits | Filling _ | Looping _ => Inside | _ => Away end).
    { unfold stands. cbn [feeders]. rewrite (nth_replaced _ _ _ _ Q). now destruct f'. }
    assert (A : stands y (Feeds i) = match f with Waiting _ => Waits | Filling _ | Looping _ => Inside | _ => Away end).
    { unfold stands. rewrite Q. now destruct f. }
    specialize (I (Feeds i)).
    destruct f as [d|d|r|r|o|]; cbn [feeder_step] in E.
    + injection E as <- <- <-. now apply Moved_in.
    + destruct (line y) as [|[h|h] rest] eqn:Ln; try (injection E as <- <- <-; apply Moved_on; [left; congruence|reflexivity]).
      destruct (Nat.eqb_spec h i) as [->|]; [|injection E as <- <- <-; apply Moved_on; [left; congruence|reflexivity]].
      destruct (is_open (stream y)).
      * injection E as <- <- <-. apply Moved_on; [|reflexivity]. right. split; [reflexivity|]. rewrite A'.
        destruct (split_last _) as [[? ?]|]; [destruct (_ =? _)|]; reflexivity.
      * injection E as <- <- <-. now apply Moved_out.
    + destruct (split_last (cs_buffer (stream y))) as [[? ?]|]; [destruct (read_z _ _); destruct (_ =? _)%Z|]; injection E as <- <- <-;
        first [apply Moved_on; [left; congruence|reflexivity] | apply Moved_out; auto].
    + destruct (_ =? _); injection E as <- <- <-; first [apply Moved_on; [left; congruence|reflexivity] | apply Moved_out; auto].
    + injection E as <- <- <-. apply Moved_on; [left; congruence|reflexivity].
    + injection E as <- <- <-. apply Moved_on; [left; congruence|reflexivity].
Qed.

Definition place (x : consumer) : stand :=
  match x with
  | Joining => Waits
  | Padding _ | Appending _ | Flushing | Pulling true | Naming true _ => Inside
  | _ => Away
  end.
Lemma safe_consumer j x x' y s l out : safe y -> nth_error (consumers y) j = Some x ->
  ((place x = Inside -> hd_error (line y) = Some (Closes j)) ->
   (place x = Away /\ place x' = Waits /\ l = line y ++ [Closes j]) \/
   ((place x' = place x \/ hd_error (line y) = Some (Closes j) /\ place x' = Inside) /\ l = line y) \/
   (hd_error (line y) = Some (Closes j) /\ place x' = Away /\ l = tl (line y))) ->
  safe {| stream := s; line := l; feeders := feeders y; consumers := replace j x' (consumers y); sent := out |}.
Proof.
  intros G Q E. eapply (moved_guarded _ _ _ _ (Closes j) G).
  - intros [k|k] K; [reflexivity|]. unfold stands. cbn [consumers]. rewrite nth_others by congruence. reflexivity.
  - cbn [line]. destruct G as (_ & L & I).
    assert (A' : stands {| stream := s; line := l; feeders := feeders y; consumers := replace j x' (consumers y); sent := out |} (Closes j) = place x').
    { unfold stands. cbn [consumers]. rewrite (nth_replaced _ _ _ _ Q). now destruct x' as [|[|]|[|]| | | | | |]. }
    assert (A : stands y (Closes j) = place x) by (unfold stands; rewrite Q; now destruct x as [|[|]|[|]| | | | | |]).
    rewrite <- A in E. destruct (E (I _)) as [(A1 & A2 & A3)|[[A1 A2]|(A1 & A2 & A3)]].
    + apply Moved_in; congruence.
    + apply Moved_on; [|exact A2]. destruct A1 as [A1|[A1 A3]]; [left; congruence|right; split; [exact A1|congruence]].
    + apply Moved_out; congruence.
Qed.
Lemma safe_step e y : match e with Cancel _ => False | _ => True end -> safe y -> safe (proceed H c extra e y).
Proof.
  intros U G. destruct e as [i|j|j|j|i]; cbn [proceed]; [..|destruct U].
  - destruct (nth_error (feeders y) i) as [f|] eqn:Q; [|exact G].
    destruct (feeder_step c i f (stream y) (line y)) as [[f' s] l] eqn:E. now apply (safe_feeder i f f').
  - destruct (nth_error (consumers y) j) as [[| | | | | | | |]|] eqn:Q; try exact G. apply (safe_consumer j Idle _ y); try assumption.
    intros _. right. left. split; [left|reflexivity]. unfold look_step. destruct (_ <? _); [destruct (existsb _ _)|]; reflexivity.
  - destruct (nth_error (consumers y) j) as [[| | | | | | | |]|] eqn:Q; try exact G. unfold close_step.
    destruct (is_open (stream y)); apply (safe_consumer j Idle _ y); try assumption; intros _.
    + left. repeat split.
    + right. left. split; [now left|reflexivity].
  - destruct (nth_error (consumers y) j) as [x|] eqn:Q; [|exact G].
    destruct (consumer_step H c extra j (existsb is_pulling (consumers y)) x (stream y) (line y)) as [[[x' s] l] out] eqn:E.
    apply (safe_consumer j x x' y); try assumption. intros I.
    assert (Stay : forall b, hd_error (line y) = Some (Closes j) \/ b = false -> forall x1, place x = (if b : bool then Inside else Away) -> place x1 = Away ->
      place x = Away /\ place x1 = Waits /\ (if b then tl (line y) else line y) = line y ++ [Closes j] \/
      (place x1 = place x \/ hd_error (line y) = Some (Closes j) /\ place x1 = Inside) /\ (if b then tl (line y) else line y) = line y \/
      hd_error (line y) = Some (Closes j) /\ place x1 = Away /\ (if b then tl (line y) else line y) = tl (line y)).
    { intros b Hd x1 P1 P2. destruct b; [right; right; destruct Hd; [auto|discriminate]|right; left; split; [left; congruence|reflexivity]]. }
    destruct x as [|b|b ct| |e|bs| | |e]; cbn [consumer_step] in E.
    + injection E as <- <- <- <-. right. left. split; [now left|reflexivity].
    + assert (P : place (Pulling b) = if b then Inside else Away) by now destruct b.
      assert (Hd : hd_error (line y) = Some (Closes j) \/ b = false) by (destruct b; [left; now apply I|now right]).
      destruct (cs_buffer (stream y)) as [|blk rest]; [injection E as <- <- <- <-; now apply Stay|].
      destruct (transform _ _ _ _ _ _) as [[ct ss]|e]; injection E as <- <- <- <-; [|now apply Stay].
      right. left. split; [left; now destruct b|reflexivity].
    + assert (P : place (Naming b ct) = if b then Inside else Away) by now destruct b.
      assert (Hd : hd_error (line y) = Some (Closes j) \/ b = false) by (destruct b; [left; now apply I|now right]).
      destruct (next_block_id _ _ _ _ _ _) as [id|e]; injection E as <- <- <- <-; [|now apply Stay].
      right. left. split; [left; now destruct b|reflexivity].
    + destruct (line y) as [|[h|h] rest] eqn:Ln; try (injection E as <- <- <- <-; right; left; split; [now left|reflexivity]).
      destruct (Nat.eqb_spec h j) as [->|]; [|injection E as <- <- <- <-; right; left; split; [now left|reflexivity]].
      destruct (end_padding _ _ _); injection E as <- <- <- <-; [right; left; split; [right; split; reflexivity|reflexivity]|].
      right. right. repeat split.
    + specialize (I eq_refl). destruct (split_last _) as [[? ?]|]; injection E as <- <- <- <-; [right; left; split; [now left|reflexivity]|].
      right. right. repeat split. exact I.
    + specialize (I eq_refl). destruct bs; injection E as <- <- <- <-; right; left; (split; [now left|reflexivity]).
    + specialize (I eq_refl). destruct (cs_buffer (stream y)).
      * destruct (cs_session (stream y)) as [bu m]. destruct (finalize H c bu m) as [[? ?]|e]; injection E as <- <- <- <-; right; right; repeat split; exact I.
      * destruct (existsb is_pulling (consumers y)); injection E as <- <- <- <-; [right; right; repeat split; exact I|].
        right. left. split; [now left|reflexivity].
    + injection E as <- <- <- <-. right. left. split; [now left|reflexivity].
    + injection E as <- <- <- <-. right. left. split; [now left|reflexivity].
Qed.
Lemma safe_run es : forall y, uncancelled es -> safe y -> safe (run H c extra es y).
Proof.
  induction es as [|e es IH]; intros y U G; [exact G|]. apply Forall_cons_iff in U as [U1 U2].
  change (safe (run H c extra es (proceed H c extra e y))). apply IH; [exact U2|]. now apply safe_step.
Qed.
Lemma safe_started st0 datas n : safe (started st0 datas n).
Proof.
  split; [constructor|]. assert (A : forall w, stands (started st0 datas n) w = Away).
  { intros [i|j]; unfold stands, started; cbn [feeders consumers].
    - destruct (nth_error (map Fresh datas) i) eqn:E; [|reflexivity]. apply nth_error_In, in_map_iff in E as (? & <- & _). reflexivity.
    - destruct (nth_error (repeat Idle n) j) eqn:E; [|reflexivity]. apply nth_error_In, repeat_spec in E. now subst. }
  split; intros w; rewrite A; [split; [intros []|congruence]|discriminate].
Qed.
End Guard.
