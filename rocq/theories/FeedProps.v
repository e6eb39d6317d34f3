(** * Tasks that share one AsyncCipherStream: C86 *)
From Coq Require Import ZArith Lia ZifyBool ZifyNat ZifyN.
From Verif Require Import Base BaseFacts CanonModel ClockModel GentoolsModel GentoolsProofs CipherModel
  CipherSpec CipherProofs SessionProofs BindingProofs ShippedProofs CipherProps StreamModel StreamSpec
  StreamProofs StreamHistoryProofs StreamOpenProofs StreamPairProofs StreamProps FeedModel FeedSpec FeedProofs.
Local Open Scope N_scope.

(** What any schedule without cancellations leads to. *)
Lemma any_schedule H c ks r salt aad st0 datas es : streaming H c -> valid_coins c r -> valid_salt c salt -> blen aad < 2 ^ 32 ->
  cs_new H c ks r salt aad = Ok st0 -> uncancelled es ->
  exists e d start ended x,
    SessionProofs.started H c ks (choose_salt salt (r_salt r)) aad (r_iv r) e d /\
    start_padding c (r_now r) (r_siv r) = Ok start /\ blen start = inner_header_bytes c /\
    enc_inv H c e d start (r_extra r) [] [] st0 /\ cs_phase st0 = Open /\
    inv H c e d start r datas (filter (valid_index datas) (in_order [] es)) ended x
      (run H c (r_extra r) es (FeedModel.started st0 datas 1)).
Proof.
  intros SG VR VS VA N U.
  destruct (sender H c ks r salt aad SG VR VS VA) as (e & d & start & st0' & St & Hs & Ls & N' & Po & I0).
  rewrite N in N'. apply Ok_inj in N'. subst st0'. destruct SG as [XL VC VI _].
  pose proof (st_emode _ _ _ _ _ _ _ _ St) as ME. pose proof (st_dmode _ _ _ _ _ _ _ _ St) as MD.
  pose proof (inv_start H c e d start r datas st0 I0 Po) as I.
  destruct (FeedProofs.run_inv H c XL VC VI e d start r ME MD VR Ls datas es [] [] [] Idle _ U I) as (ended & x & I1).
  { intros i _. reflexivity. }
  exists e, d, start, ended, x. auto 10.
Qed.

(** The calls that returned are among those that were made, and in that order. *)
Lemma message_of H c e d start r datas es ended x y : inv H c e d start r datas (filter (valid_index datas) (in_order [] es)) ended x y ->
  message datas es y = fed_by datas y ended.
Proof.
  intros I. unfold message, fed_by. f_equal. f_equal.
  assert (E : filter (returned y) (in_order [] es) = filter (returned y) (filter (valid_index datas) (in_order [] es))).
  { generalize (in_order [] es) as l. induction l as [|i l IH]; [reflexivity|]. cbn [filter].
    destruct (valid_index datas i) eqn:V; cbn [filter]; rewrite IH; [reflexivity|].
    replace (returned y i) with false; [reflexivity|]. unfold returned.
    destruct (nth_error (feeders y) i) as [f|] eqn:Q; [|reflexivity]. exfalso.
    unfold valid_index in V. apply Nat.ltb_ge in V. rewrite <- (i_len _ _ _ _ _ _ _ _ _ _ _ I) in V.
    apply nth_error_None in V. congruence. }
  rewrite E, (i_calls _ _ _ _ _ _ _ _ _ _ _ I), filter_app.
  assert (Z : filter (returned y) (feeds (line y)) = []).
  { assert (G : forall i, In i (feeds (line y)) -> returned y i = false).
    { intros i J. unfold returned. destruct (nth_error (feeders y) i) as [[| | | |o|]|] eqn:Q; try reflexivity.
      destruct (i_feeder _ _ _ _ _ _ _ _ _ _ _ I i _ Q) as [K _]. exfalso.
      pose proof (i_nodup _ _ _ _ _ _ _ _ _ _ _ I) as Nd. rewrite (i_calls _ _ _ _ _ _ _ _ _ _ _ I) in Nd.
      clear - Nd J K. induction ended as [|k ended IH]; [destruct K|]. cbn in Nd. apply NoDup_cons_iff in Nd as [N1 N2].
      destruct K as [->|K]; [apply N1, in_or_app; now right|now apply IH]. }
    revert G. generalize (feeds (line y)) as l. induction l as [|i l IH]; intros G; [reflexivity|]. cbn.
    rewrite (G i) by now left. apply IH. intros k K. apply G. now right. }
  now rewrite Z, app_nil_r.
Qed.

(** ** C86 *)

(** C86: any number of tasks feed one stream, each with one call of [abuffer]; another
    task iterates over it meanwhile and finalizes it whenever it likes.  However the tasks
    are interleaved, once the stream is finalized the packets' blocks and the tag are
    exactly the ciphertext which the one-shot function makes of what the calls fed that
    returned, in the order in which they were made. *)
Theorem C86_one_message : forall H c ks r salt aad st0 datas es,
  streaming H c -> valid_coins c r -> valid_salt c salt -> blen aad < 2 ^ 32 ->
  cs_new H c ks r salt aad = Ok st0 -> uncancelled es ->
  let y := run H c (r_extra r) es (started st0 datas 1) in
  finalized y ->
  exists tag, result_of (snd (cs_session (stream y))) = Ok tag /\
    bytes_encrypt H c ks r (message datas es y) salt aad =
      Ok (tag ++ choose_salt salt (r_salt r) ++ r_iv r ++ concat (map snd (sent y))).
Proof.
  intros H c ks r salt aad st0 datas es SG VR VS VA N U y F.
  destruct (any_schedule H c ks r salt aad st0 datas es SG VR VS VA N U) as (e & d & start & ended & x & St & Hs & Ls & I0 & Po & I).
  fold y in I. rewrite (message_of _ _ _ _ _ _ _ _ _ _ _ I).
  assert (x = Finished) by (pose proof (i_cons _ _ _ _ _ _ _ _ _ _ _ I); unfold finalized in F; congruence). subst x.
  pose proof (i_sound _ _ _ _ _ _ _ _ _ _ _ I) as S.
  rewrite status_none in S.
  2:{ intros i f Hd Q A. pose proof (i_feeder _ _ _ _ _ _ _ _ _ _ _ I i f Q) as P. destruct f; try destruct A; now destruct P. }
  rewrite app_nil_r in S. apply sound_closed in S as [S P]. destruct SG as [XL VC VI _].
  destruct (closed_encrypt H c XL VC ks r salt aad VR e d St start Hs _ _ _ S P) as (tag & T1 & _ & T2).
  exists tag. auto.
Qed.
Print Assumptions C86_one_message.

(** C86: the packets, with their IDs, and the tag are those of any single task that feeds
    the same data and finalizes. *)
Theorem C86_as_one_task : forall H c ks r salt aad st0 datas es ops outs st,
  streaming H c -> valid_coins c r -> valid_salt c salt -> blen aad < 2 ^ 32 ->
  cs_new H c ks r salt aad = Ok st0 -> uncancelled es ->
  let y := run H c (r_extra r) es (started st0 datas 1) in
  finalized y ->
  cs_run H c (r_extra r) ops st0 = (outs, st) -> finished ops outs -> fed ops outs = message datas es y ->
  packets outs = sent y /\
  result_of (snd (cs_session st)) = result_of (snd (cs_session (stream y))).
Proof.
  intros H c ks r salt aad st0 datas es ops outs st SG VR VS VA N U y F R1 F1 E.
  destruct (any_schedule H c ks r salt aad st0 datas es SG VR VS VA N U) as (e & d & start & ended & x & St & Hs & Ls & I0 & Po & I).
  fold y in I. rewrite (message_of _ _ _ _ _ _ _ _ _ _ _ I) in E.
  assert (x = Finished) by (pose proof (i_cons _ _ _ _ _ _ _ _ _ _ _ I); unfold finalized in F; congruence). subst x.
  pose proof (i_sound _ _ _ _ _ _ _ _ _ _ _ I) as S.
  rewrite status_none in S.
  2:{ intros i f Hd Q A. pose proof (i_feeder _ _ _ _ _ _ _ _ _ _ _ I i f Q) as P. destruct f; try destruct A; now destruct P. }
  rewrite app_nil_r in S. apply sound_closed in S as [I2 P2]. destruct SG as [XL VC VI _].
  pose proof (st_emode _ _ _ _ _ _ _ _ St) as ME. pose proof (st_dmode _ _ _ _ _ _ _ _ St) as MD.
  pose proof (StreamProofs.run_inv H c XL VC VI e d start r ME MD VR Ls ops [] [] st0 outs st I0 R1) as I1.
  pose proof (finished_closed H c XL VC VI e d start r ME MD VR Ls ops [] [] st0 outs st I0 R1 F1) as P1.
  cbn [app] in I1. rewrite <- E in I2.
  destruct I1 as [(p1 & s1 & _ & T1 & _ & _ & _ & (d1 & A1 & _) & _ & Ph1)].
  destruct I2 as [(p2 & s2 & _ & T2 & _ & _ & _ & (d2 & A2 & _) & _ & Ph2)].
  rewrite P1 in Ph1. rewrite P2 in Ph2.
  destruct Ph1 as (_ & (e1 & E1 & B1) & x1 & _ & S1 & Re1).
  destruct Ph2 as (_ & (e2 & E2 & B2) & x2 & _ & S2 & Re2).
  assert (e1 = e2) by congruence. subst e2. assert (Ep : p2 = p1) by congruence. rewrite Ep, T1 in T2.
  apply Ok_inj in T2. apply pair_equal_spec in T2 as [Em <-].
  split; [exact (accepts_ids _ _ _ _ _ _ _ A1 _ _ _ A2 Em)|].
  rewrite S1, S2. cbn [snd]. congruence.
Qed.
Print Assumptions C86_as_one_task.

(** C86: a call of [abuffer] either returns, or raises CipherStreamIsClosed and has fed
    nothing; the consumer meets no exception; and as long as nobody finalizes no call is
    refused. *)
Theorem C86_answers : forall H c ks r salt aad st0 datas es,
  streaming H c -> valid_coins c r -> valid_salt c salt -> blen aad < 2 ^ 32 ->
  cs_new H c ks r salt aad = Ok st0 -> uncancelled es ->
  let y := run H c (r_extra r) es (started st0 datas 1) in
  (forall o, In (Ended o) (feeders y) -> o = Done \/ o = Raised CipherStreamIsClosed) /\
  (exists x, consumers y = [x] /\ forall e, x <> Broken e) /\
  (unclosed es -> forall o, In (Ended o) (feeders y) -> o = Done).
Proof.
  intros H c ks r salt aad st0 datas es SG VR VS VA N U y.
  destruct (any_schedule H c ks r salt aad st0 datas es SG VR VS VA N U) as (e & d & start & ended & x & St & Hs & Ls & I0 & Po & I).
  fold y in I. split; [|split].
  - intros o J. destruct (In_nth_error _ _ J) as [i Q]. exact (proj2 (i_feeder _ _ _ _ _ _ _ _ _ _ _ I i _ Q)).
  - exists x. split; [exact (i_cons _ _ _ _ _ _ _ _ _ _ _ I)|]. intros ex ->.
    pose proof (i_sound _ _ _ _ _ _ _ _ _ _ _ I) as S. destruct (status _ _ _) as [[? ?] ?]. destruct S as (? & ? & ? & _ & _ & []).
  - intros V. destruct SG as [XL VC VI _].
    pose proof (st_emode _ _ _ _ _ _ _ _ St) as ME. pose proof (st_dmode _ _ _ _ _ _ _ _ St) as MD.
    apply (open_returns H c XL VC VI e d start r ME MD VR Ls datas es _ U V).
    + exists [], [], Idle. now apply inv_start.
    + exact Po.
    + cbn [FeedModel.started feeders]. intros o J. apply in_map_iff in J as (b & J & _). discriminate.
Qed.
Print Assumptions C86_answers.

(** C86: whatever has happened, the tasks can go on so that all calls end and the stream is
    finalized: there is no deadlock. *)
Theorem C86_can_end : forall H c ks r salt aad st0 datas es,
  streaming H c -> valid_coins c r -> valid_salt c salt -> blen aad < 2 ^ 32 ->
  cs_new H c ks r salt aad = Ok st0 -> uncancelled es ->
  exists es', uncancelled es' /\
    let y := run H c (r_extra r) (es ++ es') (started st0 datas 1) in finalized y /\ all_ended y.
Proof.
  intros H c ks r salt aad st0 datas es SG VR VS VA N U.
  destruct (any_schedule H c ks r salt aad st0 datas es SG VR VS VA N U) as (e & d & start & ended & x & St & Hs & Ls & I0 & Po & I).
  destruct SG as [XL VC VI _].
  pose proof (st_emode _ _ _ _ _ _ _ _ St) as ME. pose proof (st_dmode _ _ _ _ _ _ _ _ St) as MD.
  destruct (completes H c XL VC VI e d start r ME MD VR Ls datas (run H c (r_extra r) es (FeedModel.started st0 datas 1))) as (es' & U' & F).
  { do 3 eexists. exact I. }
  exists es'. split; [exact U'|]. cbv zeta. rewrite run_app. exact F.
Qed.
Print Assumptions C86_can_end.

(** C86: any number of consumers too: those in the line of the guards are exactly the tasks
    that have asked and are not done, each once, and whoever is inside is in front, so that at
    most one is; in particular every task that has returned or raised has left. *)
Theorem C86_guards_are_left : forall H c extra st0 datas n es, uncancelled es ->
  let y := run H c extra es (started st0 datas n) in
  NoDup (line y) /\ (forall w, In w (line y) <-> stands y w <> Away) /\
  (forall w, stands y w = Inside -> hd_error (line y) = Some w).
Proof. intros H c extra st0 datas n es U. apply safe_run; [exact U|apply safe_started]. Qed.
Print Assumptions C86_guards_are_left.

Lemma one_replaced (l : list consumer) j x : nth_error l j <> None ->
  (forall j1 j2 f1 f2, nth_error l j1 = Some (Pulling f1) -> nth_error l j2 = Some (Pulling f2) -> j1 = j2) ->
  (forall f, x = Pulling f -> existsb is_pulling l = false \/ exists f', nth_error l j = Some (Pulling f')) ->
  forall j1 j2 f1 f2, nth_error (replace j x l) j1 = Some (Pulling f1) -> nth_error (replace j x l) j2 = Some (Pulling f2) -> j1 = j2.
Proof.
  intros _ I X j1 j2 f1 f2. rewrite !nth_replace.
  assert (Z : forall k f, nth_error l k = Some (Pulling f) -> forall f', x = Pulling f' -> k = j).
  { intros k f E f' X'. destruct (X f' X') as [B|(f2' & E')]; [|now apply (I _ _ _ _ E E')].
    apply nth_error_In in E. assert (T : existsb is_pulling l = true) by (apply existsb_exists; eexists; split; [exact E|reflexivity]). congruence. }
  destruct (Nat.eqb_spec j j1) as [<-|N1], (Nat.eqb_spec j j2) as [<-|N2]; intros E1 E2.
  - reflexivity.
  - destruct (nth_error l j); [|discriminate]. injection E1 as X1. symmetry. exact (Z _ _ E2 _ X1).
  - destruct (nth_error l j); [|discriminate]. injection E2 as X2. exact (Z _ _ E1 _ X2).
  - exact (I _ _ _ _ E1 E2).
Qed.

(** C86: however many consumers there are, and whoever is cancelled: at most one of them has a
    block in the cipher at any time. *)
Theorem C86_one_pull_at_a_time : forall H c extra st0 datas n es j1 j2 f1 f2,
  let y := run H c extra es (started st0 datas n) in
  nth_error (consumers y) j1 = Some (Pulling f1) -> nth_error (consumers y) j2 = Some (Pulling f2) -> j1 = j2.
Proof.
  intros H c extra st0 datas n es. cbv zeta. unfold run.
  assert (I0 : forall j1 j2 f1 f2, nth_error (consumers (FeedModel.started st0 datas n)) j1 = Some (Pulling f1) ->
    nth_error (consumers (FeedModel.started st0 datas n)) j2 = Some (Pulling f2) -> j1 = j2).
  { intros j1 j2 f1 f2 E. apply nth_error_In, repeat_spec in E. discriminate. }
  revert I0. generalize (FeedModel.started st0 datas n). induction es as [|e es IH]; intros y I; [exact I|].
  cbn [fold_left]. apply IH. clear IH. destruct e as [i|j|j|j|i]; cbn [proceed].
  - destruct (nth_error (feeders y) i) as [f|]; [|exact I]. destruct (feeder_step c i f (stream y) (line y)) as [[? ?] ?]. exact I.
  - destruct (nth_error (consumers y) j) as [[]|] eqn:E; try exact I. cbn [consumers]. apply one_replaced; [congruence|exact I|].
    intros f X. unfold look_step in X. destruct (_ <? _) in X; [|discriminate]. destruct (existsb is_pulling (consumers y)); [discriminate|now left].
  - destruct (nth_error (consumers y) j) as [[]|] eqn:E; try exact I. unfold close_step. destruct (is_open (stream y)); cbn [consumers];
      (apply one_replaced; [congruence|exact I|discriminate]).
  - destruct (nth_error (consumers y) j) as [x|] eqn:E; [|exact I].
    destruct (consumer_step H c extra j (existsb is_pulling (consumers y)) x (stream y) (line y)) as [[[x' s] l] out] eqn:G. cbn [consumers].
    apply one_replaced; [congruence|exact I|]. intros f ->.
    destruct x as [|f0|f0 ct| |end_|[|b bs]| | |e]; cbn [consumer_step] in G.
    + discriminate.
    + right. eauto.
    + destruct (next_block_id _ _ _ _ _ _); [|discriminate]. destruct f0; discriminate.
    + destruct (line y) as [|[|h] rest]; try discriminate. destruct (Nat.eqb h j); [|discriminate]. destruct (end_padding _ _ _); discriminate.
    + destruct (split_last _) as [[? ?]|]; discriminate.
    + discriminate.
    + discriminate.
    + destruct (cs_buffer (stream y)).
      * destruct (cs_session (stream y)) as [b m]. destruct (finalize _ _ _ _) as [[? ?]|]; discriminate.
      * destruct (existsb is_pulling (consumers y)); [discriminate|now left].
    + discriminate.
    + discriminate.
  - destruct (nth_error (feeders y) i) as [f|]; [|exact I]. destruct (cancel_step f (line y)) as [? ?]. exact I.
Qed.
Print Assumptions C86_one_pull_at_a_time.

Definition thirty_and_three : list bytes := [repeat x41 30; repeat x42 3].
Definition cancelled_inside : list event :=
  [Feeder 0; Feeder 0; Cancel 0; Feeder 1; Feeder 1; Feeder 1; Close 0] ++ repeat (Go 0) 12.

(** C86 fails when a task is cancelled in [abuffer]: here it has read none of its 30 bytes,
    but they count, so that the padding is wrong.  The ciphertext is authentic and decrypts
    to the 3 bytes which were fed with 30 bytes of padding behind them. *)
Theorem C86_cancelled_call_refuted : exists c ks st0 tag text,
  slick256 [x61] 13 = Ok c /\ make_cipher toy c a_key = Ok ks /\ valid_coins c slick_coins /\ streaming toy c /\
  cs_new toy c ks slick_coins None [x41] = Ok st0 /\
  let y := run toy c (r_extra slick_coins) cancelled_inside (started st0 thirty_and_three 1) in
  finalized y /\ feeders y = [Gone; Ended Done] /\ message thirty_and_three cancelled_inside y = repeat x42 3 /\
  result_of (snd (cs_session (stream y))) = Ok tag /\
  bytes_decrypt toy c ks [] (later 0) (tag ++ r_salt slick_coins ++ r_iv slick_coins ++ concat (map snd (sent y))) [x41] None = Ok text /\
  blen text = 33 /\ take 3 text = repeat x42 3 /\ ~ In x41 text.
Proof.
  destruct (slick256 [x61] 13) as [c|] eqn:E; [|vm_compute in E; discriminate].
  pose proof (shipped_streaming toy [x61] 13 c toy_xof eq_refl (or_introl E)) as SG.
  vm_compute in E. apply Ok_inj in E. subst c.
  eexists _, _, _, _, _. split; [reflexivity|]. split; [vm_compute; reflexivity|].
  split; [constructor; try reflexivity; split; vm_compute; congruence|]. split; [exact SG|].
  split; [vm_compute; reflexivity|]. cbv zeta.
  split; [vm_compute; reflexivity|]. split; [vm_compute; reflexivity|]. split; [vm_compute; reflexivity|].
  split; [vm_compute; reflexivity|]. split; [vm_compute; reflexivity|].
  split; [vm_compute; reflexivity|]. split; [vm_compute; reflexivity|].
  intros J. vm_compute in J. repeat (destruct J as [J|J]; [discriminate|]). exact J.
Qed.
Print Assumptions C86_cancelled_call_refuted.

(** C86 fails when a task is cancelled while it waits for its turn: whatever is done then,
    no call on the stream ever ends and it is never finalized. *)
Theorem C86_cancelled_wait_refuted : forall H c extra st0 d es,
  let y := run H c extra ([Feeder 0; Cancel 0] ++ es) (started st0 [d; d] 1) in
  ~ finalized y /\ forall o, ~ In (Ended o) (feeders y).
Proof.
  intros H c extra st0 d es y.
  assert (S : stuck 0 y).
  { unfold y, run. rewrite fold_left_app. apply stuck_run. unfold stuck. cbn. split; [reflexivity|]. split; [reflexivity|].
    split; repeat constructor. }
  destruct S as (_ & _ & Fd & Fl). split.
  - unfold finalized. intros E. rewrite E in Fl. inversion Fl as [|? ? X]. exact X.
  - intros o J. rewrite Forall_forall in Fd. exact (Fd _ J).
Qed.
Print Assumptions C86_cancelled_wait_refuted.

Definition two_consumers : list event :=
  repeat (Feeder 0) 5 ++ [Look 0; Go 0; Look 1; Go 1; Go 0; Go 1; Close 0] ++ repeat (Go 0) 8.

(** C86 fails for two consumers: when one pulls a block while the other is naming its own,
    the ID is computed from the wrong state.  Nothing is raised, and the receiver refuses
    the very first packet. *)
Theorem C86_two_consumers_refuted : exists c ks st0 dst i b rest,
  slick256 [x61] 13 = Ok c /\ make_cipher toy c a_key = Ok ks /\ valid_coins c slick_coins /\ streaming toy c /\
  cs_new toy c ks slick_coins None [x41] = Ok st0 /\
  let y := run toy c (r_extra slick_coins) two_consumers (started st0 [repeat x43 70] 2) in
  consumers y = [Finished; Idle] /\ feeders y = [Ended Done] /\ sent y = (i, b) :: rest /\
  ds_new toy c ks [] (r_salt slick_coins) [x41] (r_iv slick_coins) = Ok dst /\
  ds_feed toy c (i ++ b) dst = (Refused i b [], dst).
Proof.
  destruct (slick256 [x61] 13) as [c|] eqn:E; [|vm_compute in E; discriminate].
  pose proof (shipped_streaming toy [x61] 13 c toy_xof eq_refl (or_introl E)) as SG.
  vm_compute in E. apply Ok_inj in E. subst c.
  eexists _, _, _, _, _, _, _. split; [reflexivity|]. split; [vm_compute; reflexivity|].
  split; [constructor; try reflexivity; split; vm_compute; congruence|]. split; [exact SG|].
  split; [vm_compute; reflexivity|]. cbv zeta.
  split; [vm_compute; reflexivity|]. split; [vm_compute; reflexivity|]. split; [vm_compute; reflexivity|].
  split; [vm_compute; reflexivity|]. vm_compute. reflexivity.
Qed.
Print Assumptions C86_two_consumers_refuted.

Definition some_schedule : list event :=
  [Feeder 2; Feeder 0; Feeder 1; Feeder 2; Look 0; Feeder 2; Feeder 0; Feeder 2; Look 0; Feeder 2; Go 0; Feeder 0; Go 0; Feeder 0;
   Close 0; Feeder 1; Feeder 0; Go 0; Feeder 0; Go 0; Go 0; Feeder 1] ++ repeat (Go 0) 20 ++ [Feeder 1].

(** A feeder that comes late, one refused, and a consumer that iterates in between. *)
Example C86_case : exists c ks st0,
  slick256 [x61] 13 = Ok c /\ make_cipher toy c a_key = Ok ks /\ valid_coins c slick_coins /\ streaming toy c /\
  cs_new toy c ks slick_coins None [x41] = Ok st0 /\ uncancelled some_schedule /\
  let y := run toy c (r_extra slick_coins) some_schedule (started st0 [repeat x41 30; repeat x42 3; repeat x43 35] 1) in
  finalized y /\ feeders y = [Ended Done; Ended (Raised CipherStreamIsClosed); Ended Done] /\
  message [repeat x41 30; repeat x42 3; repeat x43 35] some_schedule y = repeat x43 35 ++ repeat x41 30 /\
  length (sent y) = 3%nat.
Proof.
  destruct (slick256 [x61] 13) as [c|] eqn:E; [|vm_compute in E; discriminate].
  pose proof (shipped_streaming toy [x61] 13 c toy_xof eq_refl (or_introl E)) as SG.
  vm_compute in E. apply Ok_inj in E. subst c.
  eexists _, _, _. split; [reflexivity|]. split; [vm_compute; reflexivity|].
  split; [constructor; try reflexivity; split; vm_compute; congruence|]. split; [exact SG|].
  split; [vm_compute; reflexivity|]. split; [unfold uncancelled, some_schedule; cbn; repeat constructor|]. cbv zeta.
  split; [vm_compute; reflexivity|]. split; [vm_compute; reflexivity|]. split; vm_compute; reflexivity.
Qed.
