(** * Online encryption and decryption: C27-C30, C33 *)
From Coq Require Import ZArith Lia ZifyBool ZifyNat ZifyN.
From Verif Require Import Base BaseFacts CanonModel ClockModel GentoolsModel GentoolsProofs CipherModel
  CipherSpec CipherProofs SessionProofs BindingProofs ShippedProofs CipherProps StreamModel StreamSpec
  StreamProofs StreamOpenProofs StreamPairProofs StreamHistoryProofs StreamTimeProofs.
Local Open Scope N_scope.

(** The two shipped ciphers can be used for streams. *)
Lemma shipped_streaming : forall H meta mult c, like_shake128 H -> blen meta < 2 ^ 63 ->
  slick256 meta mult = Ok c \/ chunky2048 meta mult = Ok c -> streaming H c.
Proof.
  intros H meta mult c X M E. constructor; [exact (xof_len _ _ X)| | |].
  - destruct E as [E|E]; [exact (slick256_valid _ _ _ _ X M E)|exact (chunky2048_valid _ _ _ _ X M E)].
  - destruct E as [E|E]; unfold slick256, chunky2048 in E; apply bind_ok in E as (perm & _ & E);
      apply Ok_inj in E; subst c; unfold valid_ids; cbn; lia.
  - destruct E as [E|E]; unfold slick256, chunky2048 in E; apply bind_ok in E as (perm & _ & E);
      apply Ok_inj in E; subst c; cbn; lia.
Qed.
Print Assumptions shipped_streaming.

(** Starting either side, and what is known of it. *)
Lemma sender H c ks r salt aad : streaming H c -> valid_coins c r -> valid_salt c salt -> blen aad < 2 ^ 32 ->
  exists e d start st0, started H c ks (choose_salt salt (r_salt r)) aad (r_iv r) e d /\
    start_padding c (r_now r) (r_siv r) = Ok start /\ blen start = inner_header_bytes c /\
    cs_new H c ks r salt aad = Ok st0 /\ cs_phase st0 = Open /\
    enc_inv H c e d start (r_extra r) [] [] st0.
Proof.
  intros [XL VC VI _] VR VS VA.
  destruct (sessions_start H c XL VC ks (choose_salt salt (r_salt r)) aad (r_iv r)) as (e & d & St).
  { apply (choose_salt_len H c VC); assumption. } { apply (vr_iv _ _ VR). } { exact VA. }
  destruct (cs_new_ok H c VC ks r salt aad VR e d St) as (start & st0 & A1 & A2 & A3 & A4 & A5).
  exists e, d, start, st0. auto 10.
Qed.

Lemma cs_run_app H c x : forall ops1 ops2 st outs1 st1, cs_run H c x ops1 st = (outs1, st1) ->
  cs_run H c x (ops1 ++ ops2) st = (outs1 ++ fst (cs_run H c x ops2 st1), snd (cs_run H c x ops2 st1)).
Proof.
  induction ops1 as [|o ops1 IH]; intros ops2 st outs1 st1 R; cbn [cs_run app] in *.
  - injection R as <- <-. cbn. now destruct (cs_run _ _ _ ops2 st).
  - destruct (cs_step _ _ _ o st) as [o' s']. destruct (cs_run _ _ _ ops1 s') as [os ss] eqn:E.
    injection R as <- <-. rewrite (IH ops2 _ _ _ E). reflexivity.
Qed.
Lemma cs_run_len H c x : forall ops st outs st', cs_run H c x ops st = (outs, st') -> length outs = length ops.
Proof.
  induction ops as [|o ops IH]; intros st outs st' R; cbn [cs_run] in R; [now injection R as <- _|].
  destruct (cs_step _ _ _ o st) as [o' s']. destruct (cs_run _ _ _ ops s') as [os ss] eqn:E.
  injection R as <- _. cbn. f_equal. eauto.
Qed.
Lemma combine_app {A B} : forall (a1 a2 : list A) (b1 b2 : list B), length a1 = length b1 ->
  combine (a1 ++ a2) (b1 ++ b2) = combine a1 b1 ++ combine a2 b2.
Proof.
  induction a1 as [|x a1 IH]; intros a2 [|y b1] b2 L; try discriminate; [reflexivity|].
  cbn. rewrite IH by (cbn in L; lia). reflexivity.
Qed.

(** ** C27 *)

(** C27: whatever was fed in whatever pieces, iterated or not in between, once
    [finalize] has ended the packets' blocks and the tag are exactly the
    ciphertext that the one-shot function makes of the concatenation, with the
    same randomness and time. *)
Theorem C27_stream_equals_one_shot : forall H c ks r salt aad st0 ops outs st,
  streaming H c -> valid_coins c r -> valid_salt c salt -> blen aad < 2 ^ 32 ->
  cs_new H c ks r salt aad = Ok st0 -> cs_run H c (r_extra r) ops st0 = (outs, st) ->
  finished ops outs ->
  exists tag, result_of (snd (cs_session st)) = Ok tag /\
    bytes_encrypt H c ks r (fed ops outs) salt aad =
      Ok (tag ++ choose_salt salt (r_salt r) ++ r_iv r ++ concat (map snd (packets outs))).
Proof.
  intros H c ks r salt aad st0 ops outs st SG VR VS VA N R F.
  destruct (sender H c ks r salt aad SG VR VS VA) as (e & d & start & st0' & St & Hs & Ls & N' & Po & I0).
  rewrite N in N'. apply Ok_inj in N'. subst st0'. destruct SG as [XL VC VI _].
  pose proof (st_emode _ _ _ _ _ _ _ _ St) as ME. pose proof (st_dmode _ _ _ _ _ _ _ _ St) as MD.
  pose proof (run_inv H c XL VC VI e d start r ME MD VR Ls ops [] [] st0 outs st I0 R) as I.
  pose proof (finished_closed H c XL VC VI e d start r ME MD VR Ls ops [] [] st0 outs st I0 R F) as P.
  cbn [app] in I.
  destruct (closed_encrypt H c XL VC ks r salt aad VR e d St start Hs _ _ _ I P) as (tag & T1 & _ & T2).
  exists tag. auto.
Qed.
Print Assumptions C27_stream_equals_one_shot.

(** C27: so two histories that feed the same data produce the same packets, IDs
    included, and the same tag. *)
Theorem C27_chunking_is_irrelevant : forall H c ks r salt aad st0 ops1 outs1 st1 ops2 outs2 st2,
  streaming H c -> valid_coins c r -> valid_salt c salt -> blen aad < 2 ^ 32 ->
  cs_new H c ks r salt aad = Ok st0 ->
  cs_run H c (r_extra r) ops1 st0 = (outs1, st1) -> finished ops1 outs1 ->
  cs_run H c (r_extra r) ops2 st0 = (outs2, st2) -> finished ops2 outs2 ->
  fed ops1 outs1 = fed ops2 outs2 ->
  packets outs1 = packets outs2 /\
  result_of (snd (cs_session st1)) = result_of (snd (cs_session st2)).
Proof.
  intros H c ks r salt aad st0 ops1 outs1 st1 ops2 outs2 st2 SG VR VS VA N R1 F1 R2 F2 E.
  destruct (sender H c ks r salt aad SG VR VS VA) as (e & d & start & st0' & St & Hs & Ls & N' & Po & I0).
  rewrite N in N'. apply Ok_inj in N'. subst st0'. destruct SG as [XL VC VI _].
  pose proof (st_emode _ _ _ _ _ _ _ _ St) as ME. pose proof (st_dmode _ _ _ _ _ _ _ _ St) as MD.
  pose proof (run_inv H c XL VC VI e d start r ME MD VR Ls ops1 [] [] st0 outs1 st1 I0 R1) as I1.
  pose proof (finished_closed H c XL VC VI e d start r ME MD VR Ls ops1 [] [] st0 outs1 st1 I0 R1 F1) as P1.
  pose proof (run_inv H c XL VC VI e d start r ME MD VR Ls ops2 [] [] st0 outs2 st2 I0 R2) as I2.
  pose proof (finished_closed H c XL VC VI e d start r ME MD VR Ls ops2 [] [] st0 outs2 st2 I0 R2 F2) as P2.
  cbn [app] in I1, I2. rewrite <- E in I2.
  destruct I1 as [(p1 & s1 & _ & T1 & _ & _ & _ & (d1 & A1 & _) & _ & Ph1)].
  destruct I2 as [(p2 & s2 & _ & T2 & _ & _ & _ & (d2 & A2 & _) & _ & Ph2)].
  rewrite P1 in Ph1. rewrite P2 in Ph2.
  destruct Ph1 as (_ & (e1 & E1 & B1) & x1 & _ & S1 & Re1).
  destruct Ph2 as (_ & (e2 & E2 & B2) & x2 & _ & S2 & Re2).
  assert (e1 = e2) by congruence. subst e2. assert (Ep : p2 = p1) by congruence. rewrite Ep, T1 in T2. apply Ok_inj in T2. apply pair_equal_spec in T2 as [Em <-].
  split; [exact (accepts_ids _ _ _ _ _ _ _ A1 _ _ _ A2 Em)|].
  rewrite S1, S2. cbn [snd]. congruence.
Qed.
Print Assumptions C27_chunking_is_irrelevant.

(** C27: a stream can always be opened; no history makes a call raise anything
    but the complaint that the stream is closed; until [finalize] is called
    everything fed is taken; and from there [finalize] ends after finitely many
    packets. *)
Theorem C27_stream_works : forall H c ks r salt aad,
  streaming H c -> valid_coins c r -> valid_salt c salt -> blen aad < 2 ^ 32 ->
  exists st0, cs_new H c ks r salt aad = Ok st0 /\
    (forall ops outs st, cs_run H c (r_extra r) ops st0 = (outs, st) ->
       forall o out, In (o, out) (combine ops outs) -> proper o out) /\
    (forall ops outs st, Forall feeds_or_iterates ops -> cs_run H c (r_extra r) ops st0 = (outs, st) ->
       (forall d out, In (EFeed d, out) (combine ops outs) -> out = Done) /\
       exists n outs' st', cs_run H c (r_extra r) (ops ++ repeat EFinal n) st0 = (outs', st') /\
         finished (ops ++ repeat EFinal n) outs').
Proof.
  intros H c ks r salt aad SG VR VS VA.
  destruct (sender H c ks r salt aad SG VR VS VA) as (e & d & start & st0 & St & Hs & Ls & N & Po & I0).
  destruct SG as [XL VC VI _].
  pose proof (st_emode _ _ _ _ _ _ _ _ St) as ME. pose proof (st_dmode _ _ _ _ _ _ _ _ St) as MD.
  exists st0. split; [exact N|]. split.
  - intros ops outs st R o out I.
    exact (run_allowed H c XL VC VI e d start r ME MD VR Ls ops [] [] st0 outs st I0 R o out I).
  - intros ops outs st F R.
    destruct (open_feeds H c XL VC VI e d start r ME MD VR Ls ops [] [] st0 outs st I0 Po F R) as [P D].
    split; [exact D|].
    pose proof (run_inv H c XL VC VI e d start r ME MD VR Ls ops [] [] st0 outs st I0 R) as I. cbn [app] in I.
    destruct (step_inv H c XL VC VI e d start r ME MD VR Ls EFinal _ _ st I) as (o1 & st1 & S1 & I1 & C1).
    rewrite P in C1.
    assert (NP : cs_phase st1 <> Open).
    { intros X. destruct C1 as [(i & b & _ & Y)|[_ Y]]; congruence. }
    destruct (closes H c XL VC VI ks r salt aad VR VA e d St start Ls _ _ st1 I1 NP) as (n & outs' & st2 & R2 & _ & Ln).
    exists (S (S n)), (outs ++ o1 :: outs' ++ [Stop]), st2. split.
    + rewrite (cs_run_app H c _ _ _ _ _ _ R). change (repeat EFinal (S (S n))) with (EFinal :: repeat EFinal (S n)).
      cbn [cs_run]. rewrite S1. rewrite R2. reflexivity.
    + unfold finished. rewrite combine_app by (symmetry; eapply cs_run_len; exact R). apply in_or_app. right.
      change (repeat EFinal (S (S n))) with (EFinal :: repeat EFinal (S n)). cbn [combine]. right.
      rewrite <- Ln. clear. induction outs' as [|x l IH]; cbn; [now left|]. right. exact IH.
Qed.
Print Assumptions C27_stream_works.

(** ** C28 *)
Lemma ds_run_app H c ttl : forall ops1 ops2 st outs1 st1, ds_run H c ttl ops1 st = (outs1, st1) ->
  ds_run H c ttl (ops1 ++ ops2) st = (outs1 ++ fst (ds_run H c ttl ops2 st1), snd (ds_run H c ttl ops2 st1)).
Proof.
  induction ops1 as [|o ops1 IH]; intros ops2 st outs1 st1 R; cbn [ds_run app] in *.
  - injection R as <- <-. cbn. now destruct (ds_run _ _ _ ops2 st).
  - destruct (ds_step _ _ _ o st) as [o' s']. destruct (ds_run _ _ _ ops1 s') as [os ss] eqn:E.
    injection R as <- <-. rewrite (IH ops2 _ _ _ E). reflexivity.
Qed.
Lemma ds_run_len H c ttl : forall ops st outs st', ds_run H c ttl ops st = (outs, st') -> length outs = length ops.
Proof.
  induction ops as [|o ops IH]; intros st outs st' R; cbn [ds_run] in R; [now injection R as <- _|].
  destruct (ds_step _ _ _ o st) as [o' s']. destruct (ds_run _ _ _ ops s') as [os ss] eqn:E.
  injection R as <- _. cbn. f_equal. eauto.
Qed.

(** A sender and a receiver, who has the salt and IV that the sender used. *)
Lemma both H c ks r salt aad rsalt st0 dst0 : streaming H c -> valid_coins c r -> valid_salt c salt ->
  blen aad < 2 ^ 32 -> cs_new H c ks r salt aad = Ok st0 ->
  ds_new H c ks rsalt (choose_salt salt (r_salt r)) aad (r_iv r) = Ok dst0 ->
  exists e d start, started H c ks (choose_salt salt (r_salt r)) aad (r_iv r) e d /\
    start_padding c (r_now r) (r_siv r) = Ok start /\ blen start = inner_header_bytes c /\
    enc_inv H c e d start (r_extra r) [] [] st0 /\
    ds_phase dst0 = DOpen /\ ds_streaming dst0 = false /\ ds_iterating dst0 = false /\
    dec_inv H c d [] [] dst0.
Proof.
  intros SG VR VS VA N Nd.
  destruct (sender H c ks r salt aad SG VR VS VA) as (e & d & start & st0' & St & Hs & Ls & N' & Po & I0).
  rewrite N in N'. apply Ok_inj in N'. subst st0'. pose proof SG as [XL VC VI _].
  destruct (ds_new_ok H c XL ks r salt aad VA e d St rsalt) as (x & X & P & S & T & _ & I).
  rewrite Nd in X. apply Ok_inj in X. subst x. exists e, d, start. auto 12.
Qed.

(** C28: if the packets which the receiver's stream accepted are those of a
    finished sender, in order, and its [finalize] ended, then what it released
    is exactly what was fed to the sender; and the sender's tag is the only one
    that the receiver's test accepts. *)
Theorem C28_receiver_gets_the_data :
  forall H c ks r salt aad rsalt st0 eops eouts st dst0 ttl dops douts dst,
  streaming H c -> valid_coins c r -> valid_salt c salt -> blen aad < 2 ^ 32 ->
  cs_new H c ks r salt aad = Ok st0 ->
  cs_run H c (r_extra r) eops st0 = (eouts, st) -> finished eops eouts ->
  ds_new H c ks rsalt (choose_salt salt (r_salt r)) aad (r_iv r) = Ok dst0 ->
  ds_run H c ttl dops dst0 = (douts, dst) -> completed dops douts ->
  accepted c dops douts = packets eouts ->
  released douts = fed eops eouts /\
  exists tag, result_of (snd (cs_session st)) = Ok tag /\
    forall untrusted, test_shmac (snd (ds_session dst)) untrusted = Ok tt <-> untrusted = tag.
Proof.
  intros H c ks r salt aad rsalt st0 eops eouts st dst0 ttl dops douts dst SG VR VS VA N R F Nd Rd Cd Ac.
  destruct (both _ _ _ _ _ _ _ _ _ SG VR VS VA N Nd) as (e & d & start & St & Hs & Ls & I0 & Pd & _ & _ & D0).
  destruct SG as [XL VC VI _].
  pose proof (st_emode _ _ _ _ _ _ _ _ St) as ME. pose proof (st_dmode _ _ _ _ _ _ _ _ St) as MD.
  pose proof (run_inv H c XL VC VI e d start r ME MD VR Ls eops [] [] st0 eouts st I0 R) as I.
  pose proof (finished_closed H c XL VC VI e d start r ME MD VR Ls eops [] [] st0 eouts st I0 R F) as P.
  pose proof (drun_inv H c XL VC VI d ttl dops [] [] dst0 douts dst D0 Rd) as D.
  assert (Pn : ds_phase dst0 <> DFailed) by congruence.
  pose proof (completed_done H c XL VC VI d ttl dops [] [] dst0 douts dst D0 Pn Rd Cd) as Q.
  cbn [app] in I, D. rewrite Ac in D.
  destruct (done_text H c XL VC r aad VR VA e d start Ls _ _ _ _ _ I P D Q) as [E1 E2].
  split; [exact E1|].
  destruct (closed_encrypt H c XL VC ks r salt aad VR e d St start Hs _ _ _ I P) as (tag & T1 & T2 & _).
  exists tag. split; [exact T1|]. intros u. rewrite T1 in E2. unfold test_shmac.
  rewrite E2. cbn [bind]. destruct (bytes_eqb u tag) eqn:Eu.
  - apply bytes_eqb_eq in Eu. now split.
  - apply bytes_eqb_neq in Eu. split; intros X; congruence.
Qed.
Print Assumptions C28_receiver_gets_the_data.

(** C28: before that, what has been released is always the beginning of what was
    fed, provided that what was accepted is the beginning of what was sent. *)
Theorem C28_released_is_a_prefix :
  forall H c ks r salt aad rsalt st0 eops eouts st dst0 ttl dops douts dst later_packets,
  streaming H c -> valid_coins c r -> valid_salt c salt -> blen aad < 2 ^ 32 ->
  cs_new H c ks r salt aad = Ok st0 -> cs_run H c (r_extra r) eops st0 = (eouts, st) ->
  ds_new H c ks rsalt (choose_salt salt (r_salt r)) aad (r_iv r) = Ok dst0 ->
  ds_run H c ttl dops dst0 = (douts, dst) -> unfinalized dops ->
  packets eouts = accepted c dops douts ++ later_packets ->
  prefix (released douts) (fed eops eouts).
Proof.
  intros H c ks r salt aad rsalt st0 eops eouts st dst0 ttl dops douts dst lp SG VR VS VA N R Nd Rd U Ac.
  destruct (both _ _ _ _ _ _ _ _ _ SG VR VS VA N Nd) as (e & d & start & St & Hs & Ls & I0 & Pd & _ & _ & D0).
  destruct SG as [XL VC VI _].
  pose proof (st_emode _ _ _ _ _ _ _ _ St) as ME. pose proof (st_dmode _ _ _ _ _ _ _ _ St) as MD.
  pose proof (run_inv H c XL VC VI e d start r ME MD VR Ls eops [] [] st0 eouts st I0 R) as I.
  pose proof (drun_inv H c XL VC VI d ttl dops [] [] dst0 douts dst D0 Rd) as D.
  pose proof (unfinalized_open H c XL VC VI d ttl dops [] [] dst0 douts dst D0 Pd U Rd) as Q.
  cbn [app] in I, D. rewrite Ac in I.
  exact (open_prefix H c XL VC r aad VR VA e d start Ls _ _ _ _ _ _ I D Q).
Qed.
Print Assumptions C28_released_is_a_prefix.

(** C28: a receiver that has accepted the beginning of what was sent, and has
    not called [finalize], accepts the next packets of the sender. *)
Theorem C28_genuine_packets_are_accepted :
  forall H c ks r salt aad rsalt st0 eops eouts st dst0 ttl dops douts dst next_packets later_packets,
  streaming H c -> valid_coins c r -> valid_salt c salt -> blen aad < 2 ^ 32 ->
  cs_new H c ks r salt aad = Ok st0 -> cs_run H c (r_extra r) eops st0 = (eouts, st) ->
  ds_new H c ks rsalt (choose_salt salt (r_salt r)) aad (r_iv r) = Ok dst0 ->
  ds_run H c ttl dops dst0 = (douts, dst) -> unfinalized dops ->
  packets eouts = accepted c dops douts ++ next_packets ++ later_packets -> next_packets <> [] ->
  exists dst', ds_feed H c (concat (map wire next_packets)) dst = (Done, dst') /\
    accepted c (dops ++ [DFeed (concat (map wire next_packets))]) (douts ++ [Done]) =
      accepted c dops douts ++ next_packets.
Proof.
  intros H c ks r salt aad rsalt st0 eops eouts st dst0 ttl dops douts dst np lp SG VR VS VA N R Nd Rd U Ac Ne.
  destruct (both _ _ _ _ _ _ _ _ _ SG VR VS VA N Nd) as (e & d & start & St & Hs & Ls & I0 & Pd & _ & _ & D0).
  destruct SG as [XL VC VI _].
  pose proof (st_emode _ _ _ _ _ _ _ _ St) as ME. pose proof (st_dmode _ _ _ _ _ _ _ _ St) as MD.
  pose proof (run_inv H c XL VC VI e d start r ME MD VR Ls eops [] [] st0 eouts st I0 R) as I.
  pose proof (drun_inv H c XL VC VI d ttl dops [] [] dst0 douts dst D0 Rd) as D.
  pose proof (unfinalized_open H c XL VC VI d ttl dops [] [] dst0 douts dst D0 Pd U Rd) as Q.
  cbn [app] in I, D. rewrite Ac in I.
  destruct I as [(pbs & ss & _ & _ & _ & _ & _ & (ds & A & _) & _)].
  destruct (accepts_app _ _ _ _ _ _ _ _ A) as (p1 & p2 & d1 & _ & A1 & A2).
  destruct (accepts_app _ _ _ _ _ _ _ _ A2) as (p3 & p4 & d3 & _ & A3 & _).
  destruct (genuine_feed H c XL VC VI d np p3 d3 _ p1 d1 _ dst D Q A1 A3 Ne) as (dst' & G1 & G2).
  exists dst'. split; [exact G1|].
  pose proof (ds_run_len _ _ _ _ _ _ _ Rd) as L. clear - L G2. revert douts L.
  induction dops as [|o dops IH]; intros [|x douts] L; try discriminate; cbn [app accepted].
  - rewrite G2. now rewrite app_nil_r.
  - rewrite IH by (cbn in L; lia). now rewrite app_assoc.
Qed.
Print Assumptions C28_genuine_packets_are_accepted.

(** C28: and when it has them all, [finalize] called within the time-to-live
    runs to its end (so that the first theorem applies). *)
Theorem C28_receiver_completes :
  forall H c ks r salt aad rsalt st0 eops eouts st dst0 ttl dops douts dst now,
  streaming H c -> valid_coins c r -> valid_salt c salt -> blen aad < 2 ^ 32 ->
  cs_new H c ks r salt aad = Ok st0 ->
  cs_run H c (r_extra r) eops st0 = (eouts, st) -> finished eops eouts ->
  ds_new H c ks rsalt (choose_salt salt (r_salt r)) aad (r_iv r) = Ok dst0 ->
  ds_run H c ttl dops dst0 = (douts, dst) -> unfinalized dops ->
  accepted c dops douts = packets eouts ->
  ~ too_late (c_clock c) (r_now r) ttl now ->
  exists n douts' dst', ds_run H c ttl (dops ++ repeat (DFinal now) n) dst0 = (douts', dst') /\
    completed (dops ++ repeat (DFinal now) n) douts' /\
    accepted c (dops ++ repeat (DFinal now) n) douts' = packets eouts.
Proof.
  intros H c ks r salt aad rsalt st0 eops eouts st dst0 ttl dops douts dst now SG VR VS VA N R F Nd Rd U Ac T.
  destruct (both _ _ _ _ _ _ _ _ _ SG VR VS VA N Nd) as (e & d & start & St & Hs & Ls & I0 & Pd & _ & _ & D0).
  destruct SG as [XL VC VI ST].
  pose proof (st_emode _ _ _ _ _ _ _ _ St) as ME. pose proof (st_dmode _ _ _ _ _ _ _ _ St) as MD.
  pose proof (run_inv H c XL VC VI e d start r ME MD VR Ls eops [] [] st0 eouts st I0 R) as I.
  pose proof (finished_closed H c XL VC VI e d start r ME MD VR Ls eops [] [] st0 eouts st I0 R F) as P.
  pose proof (drun_inv H c XL VC VI d ttl dops [] [] dst0 douts dst D0 Rd) as D.
  pose proof (unfinalized_open H c XL VC VI d ttl dops [] [] dst0 douts dst D0 Pd U Rd) as Q.
  cbn [app] in I, D. rewrite Ac in D.
  destruct (whole_completes H c XL VC r e d start VR Hs Ls ST now ttl _ _ _ _ _ I P D Q (or_intror T))
    as (n & outs' & dst' & Rf & _ & Pl).
  pose proof (ds_run_len _ _ _ _ _ _ _ Rd) as Ld. pose proof (ds_run_len _ _ _ _ _ _ _ Rf) as Lf.
  exists (S n), (douts ++ outs' ++ [Stop]), dst'. split; [|split].
  - rewrite (ds_run_app H c _ _ _ _ _ _ Rd), Rf. reflexivity.
  - rewrite repeat_length, app_length, Nat.add_1_r in Lf. injection Lf as Lf. split.
    + exists now. rewrite combine_app by congruence. apply in_or_app. right. rewrite <- Lf. clear.
      induction outs' as [|x l IH]; cbn; [now left|]. right. exact IH.
    + intros o x In_ Fo. rewrite combine_app in In_ by congruence. apply in_app_or in In_ as [In_|In_].
      * exfalso. apply in_combine_l in In_. unfold unfinalized in U. rewrite Forall_forall in U. exact (U _ In_ Fo).
      * apply in_combine_r in In_. apply in_app_or in In_ as [In_|[In_|[]]]; [|discriminate].
        rewrite Forall_forall in Pl. destruct (Pl _ In_) as [q X]. discriminate.
  - rewrite <- Ac. clear - Ld. revert douts Ld.
    induction dops as [|o dops IH]; intros [|x douts] L; try discriminate; cbn [app accepted].
    + generalize (outs' ++ [Stop]) (S n). clear. intros l m. revert l.
      induction m as [|m IH]; intros [|y l]; cbn; auto.
    + rewrite IH by (cbn in L; lia). reflexivity.
Qed.
Print Assumptions C28_receiver_completes.

(** ** C29 *)

(** C29: in any state, a packet with a wrong ID is handed back, with what
    followed it, and the stream is in the state in which it would be if it had
    only been fed what came before. *)
Theorem C29_refused_packet_changes_nothing : forall H c data dst i b rest dst',
  streaming H c -> ds_feed H c data dst = (Refused i b rest, dst') ->
  exists good, data = good ++ i ++ b ++ rest /\
    blen i = c_block_id_bytes c /\ blen b = c_blocksize c /\
    (good = [] /\ dst' = dst \/ good <> [] /\ ds_feed H c good dst = (Done, dst')).
Proof. intros H c data dst i b rest dst' [XL VC VI _]. now apply feed_refused. Qed.
Print Assumptions C29_refused_packet_changes_nothing.

(** C29: so the calls which offered such packets can be deleted from any history
    without changing the outcome of any other call, or the final state. *)
Theorem C29_forgeries_leave_no_trace : forall H c ttl ops dst outs dst',
  streaming H c -> ds_run H c ttl ops dst = (outs, dst') ->
  ds_run H c ttl (map fst (kept ops outs)) dst = (map snd (kept ops outs), dst').
Proof. intros H c ttl ops dst outs dst' [XL VC VI _]. now apply kept_run. Qed.
Print Assumptions C29_forgeries_leave_no_trace.

Lemma accepts_blocks H c f d P pts d2 : accepts H c f d P pts d2 ->
  transform_blocks H c Decryption f d (map snd P) = Ok (pts, d2) /\ full c (map snd P).
Proof.
  induction 1 as [f d|f d i ct pt d1 out pts d2 A1 A2 A3 A4 A5 [I1 I2]]; [split; [reflexivity|constructor]|].
  cbn [map snd transform_blocks]. rewrite A4. cbn [bind]. rewrite I1. split; [reflexivity|now constructor].
Qed.
Lemma id_after_run H c ks salt aad iv e d P pts d2 b size baad : streaming H c ->
  started H c ks salt aad iv e d -> accepts H c true d P pts d2 ->
  id_after H c ks salt aad iv (concat (map snd P)) b size baad = next_block_id H c (snd d2) b size baad.
Proof.
  intros [XL VC _ _] St A. destruct (ds_new_session H c XL _ _ _ _ _ _ salt St) as (st & N & S & _).
  unfold id_after. rewrite N. cbn [bind]. rewrite S. destruct (accepts_blocks _ _ _ _ _ _ _ A) as [T F].
  rewrite batch_blocks; [|exact (blocksize_pos H c VC)|exact F]. rewrite T. cbn [bind]. now destruct d2.
Qed.
Lemma receiver H c ks salt aad iv rsalt dst0 : streaming H c -> blen salt = c_salt_bytes c ->
  blen iv = c_iv_bytes c -> blen aad < 2 ^ 32 -> ds_new H c ks rsalt salt aad iv = Ok dst0 ->
  exists e d, started H c ks salt aad iv e d /\ ds_phase dst0 = DOpen /\ dec_inv H c d [] [] dst0.
Proof.
  intros [XL VC VI _] Ls Lv VA N.
  destruct (sessions_start H c XL VC ks salt aad iv Ls Lv VA) as (e & d & St). exists e, d.
  destruct (ds_new_ok H c XL ks {| r_salt := salt; r_iv := iv; r_siv := []; r_extra := []; r_now := 0%Z |} None aad VA e d St rsalt)
    as (x & X & P & _ & _ & _ & I).
  change (ds_new H c ks rsalt salt aad iv = Ok x) in X. rewrite N in X. apply Ok_inj in X. subst x. auto.
Qed.

(** C29: a packet is accepted exactly when its ID is the one which the receiver
    computes for its block. *)
Theorem C29_accepted_iff_id_matches :
  forall H c ks salt aad iv rsalt dst0 ttl ops outs dst i b,
  streaming H c -> blen salt = c_salt_bytes c -> blen iv = c_iv_bytes c -> blen aad < 2 ^ 32 ->
  ds_new H c ks rsalt salt aad iv = Ok dst0 ->
  ds_run H c ttl ops dst0 = (outs, dst) -> unfinalized ops ->
  blen i = c_block_id_bytes c -> blen b = c_blocksize c ->
  exists genuine, id_after H c ks salt aad iv (concat (map snd (accepted c ops outs))) b None [] = Ok genuine /\
    (i = genuine -> exists dst', ds_feed H c (i ++ b) dst = (Done, dst')) /\
    (i <> genuine -> ds_feed H c (i ++ b) dst = (Refused i b [], dst)).
Proof.
  intros H c ks salt aad iv rsalt dst0 ttl ops outs dst i b SG Ls Lv VA N R U Li Lb.
  destruct (receiver _ _ _ _ _ _ _ _ SG Ls Lv VA N) as (e & d & St & P0 & D0).
  pose proof SG as [XL VC VI _].
  pose proof (drun_inv H c XL VC VI d ttl ops [] [] dst0 outs dst D0 R) as D. cbn [app] in D.
  pose proof (unfinalized_open H c XL VC VI d ttl ops [] [] dst0 outs dst D0 P0 U R) as Q.
  pose proof D as [(pts & ss & out0 & Ac & Fp & L & X & CI & F & Ph)]. rewrite Q in Ph. destruct Ph as [Es _].
  rewrite (id_after_run H c ks salt aad iv e d _ _ _ b None [] SG St Ac), <- Es.
  assert (Fin : s_finalized (snd (ds_session dst)) = false) by (rewrite Es; apply (lv_open _ _ _ L)).
  destruct (test_id_ok H c XL VC VI (snd (ds_session dst)) b i Fin Li Lb) as (g & G1 & G2).
  exists g. split; [exact G1|].
  pose proof VI as (V1 & V2 & _ & _). pose proof (blocksize_pos H c VC) as Bp.
  assert (Fd : ds_feed H c (i ++ b) dst = ds_digest H c (length (i ++ b)) (i ++ b) dst).
  { unfold ds_feed. rewrite Q.
    assert (Lp : blen (i ++ b) = packetsize c) by (rewrite blen_app; unfold packetsize; lia).
    rewrite Lp, N.mod_same by (unfold packetsize; lia).
    destruct (N.eqb_spec (packetsize c) 0) as [Z|_]; [unfold packetsize in Z; lia|]. reflexivity. }
  rewrite Fd. destruct i as [|x i']; [rewrite (@blen_nil byte) in Li; lia|].
  set (i := x :: i') in *. replace (length (i ++ b)) with (S (length (i' ++ b))) by reflexivity.
  cbn [ds_digest]. rewrite take_app by exact Li. rewrite drop_app by exact Li.
  replace (take (c_blocksize c) b) with b by (symmetry; apply take_all; lia).
  replace (drop (c_blocksize c) b) with (@nil byte) by (symmetry; apply drop_all; lia).
  unfold i at 1 3. fold i. rewrite G2. split; intros Ei.
  - subst g. rewrite bytes_eqb_refl.
    destruct (accept_one H c XL VC d _ _ dst i b D Q Li Lb G1) as (pt & s' & T & _).
    rewrite T, digest_nil. eexists; reflexivity.
  - apply bytes_eqb_neq in Ei. rewrite Ei. reflexivity.
Qed.
Print Assumptions C29_accepted_iff_id_matches.

(** ** C30 *)

(** C30, what holds: once a genuine packet was accepted, and before that packets
    were only fed, nothing is ever released if every moment at which a call looks
    at the clock is too late. *)
Theorem C30_expired_stream_releases_nothing_partial :
  forall H c ks r salt aad rsalt st0 eops eouts st dst0 ttl dops1 douts1 dst1 later_packets dops2 douts2 dst2,
  streaming H c -> valid_coins c r -> valid_salt c salt -> blen aad < 2 ^ 32 ->
  cs_new H c ks r salt aad = Ok st0 -> cs_run H c (r_extra r) eops st0 = (eouts, st) ->
  ds_new H c ks rsalt (choose_salt salt (r_salt r)) aad (r_iv r) = Ok dst0 ->
  ds_run H c ttl dops1 dst0 = (douts1, dst1) -> Forall feeds dops1 ->
  packets eouts = accepted c dops1 douts1 ++ later_packets -> accepted c dops1 douts1 <> [] ->
  ds_run H c ttl dops2 dst1 = (douts2, dst2) ->
  (forall o now, In o dops2 -> moment o = Some now -> too_late (c_clock c) (r_now r) ttl now) ->
  released douts2 = [].
Proof.
  intros H c ks r salt aad rsalt st0 eops eouts st dst0 ttl dops1 douts1 dst1 lp dops2 douts2 dst2
    SG VR VS VA N R Nd Rd Fd Ac Ne Rd2 Late.
  destruct (both _ _ _ _ _ _ _ _ _ SG VR VS VA N Nd) as (e & d & start & St & Hs & Ls & I0 & Pd & Sd & Id & D0).
  destruct SG as [XL VC VI ST].
  pose proof (st_emode _ _ _ _ _ _ _ _ St) as ME. pose proof (st_dmode _ _ _ _ _ _ _ _ St) as MD.
  pose proof (run_inv H c XL VC VI e d start r ME MD VR Ls eops [] [] st0 eouts st I0 R) as I.
  pose proof (drun_inv H c XL VC VI d ttl dops1 [] [] dst0 douts1 dst1 D0 Rd) as D.
  cbn [app] in I, D. rewrite Ac in I.
  assert (Fr : ds_streaming dst1 = false /\ ds_iterating dst1 = false /\ ds_phase dst1 = DOpen).
  { clear - Rd Fd Pd Sd Id. revert dst0 douts1 Rd Pd Sd Id.
    induction Fd as [|o ops Fo Fd IH]; intros st outs R P S I; cbn [ds_run] in R.
    - injection R as <- <-. auto.
    - destruct (ds_step H c ttl o st) as [o' st'] eqn:E. destruct (ds_run H c ttl ops st') as [os s2] eqn:R2.
      injection R as <- ->. destruct o; try contradiction. cbn [ds_step] in E. unfold ds_feed in E.
      destruct (_ || _); [injection E as <- <-; eauto|]. rewrite P in E.
      destruct (digest_frame H c _ _ _ _ _ E) as (A1 & A2 & A3 & _). eapply IH; [exact R2| | |]; congruence. }
  destruct Fr as (F1 & F2 & F3).
  exact (late_releases_nothing H c XL VC r e d start Hs Ls ST ttl _ _ _ _ _ _ _ _ _ I D Ne F1 F2 F3 Late Rd2).
Qed.
Print Assumptions C30_expired_stream_releases_nothing_partial.

(** C30: nor does a stream which nobody asked for output before a packet was accepted, as
    shows in that no call raised IndexError: whatever is fed, iterated over and finalized in
    whatever order, nothing is released if every moment at which a call looks at the clock
    is too late. *)
Theorem C30_expired_from_the_start_partial :
  forall H c ks r salt aad rsalt st0 eops eouts st dst0 ttl dops douts dst later_packets,
  streaming H c -> valid_coins c r -> valid_salt c salt -> blen aad < 2 ^ 32 ->
  cs_new H c ks r salt aad = Ok st0 -> cs_run H c (r_extra r) eops st0 = (eouts, st) ->
  ds_new H c ks rsalt (choose_salt salt (r_salt r)) aad (r_iv r) = Ok dst0 ->
  ds_run H c ttl dops dst0 = (douts, dst) ->
  packets eouts = accepted c dops douts ++ later_packets ->
  (forall o now, In o dops -> moment o = Some now -> too_late (c_clock c) (r_now r) ttl now) ->
  ~ In (Raised IndexErr) douts ->
  released douts = [].
Proof.
  intros H c ks r salt aad rsalt st0 eops eouts st dst0 ttl dops douts dst lp SG VR VS VA N R Nd Rd Ac Late Ni.
  destruct (both _ _ _ _ _ _ _ _ _ SG VR VS VA N Nd) as (e & d & start & St & Hs & Ls & I0 & Pd & Sd & Id & D0).
  destruct SG as [XL VC VI ST].
  pose proof (st_emode _ _ _ _ _ _ _ _ St) as ME. pose proof (st_dmode _ _ _ _ _ _ _ _ St) as MD.
  pose proof (run_inv H c XL VC VI e d start r ME MD VR Ls eops [] [] st0 eouts st I0 R) as I.
  cbn [app] in I. rewrite Ac in I.
  exact (late_from_start H c XL VC VI r e d start Hs Ls ST ttl _ lp st dops dst0 douts dst D0 Pd Sd Id I Late Ni Rd).
Qed.
Print Assumptions C30_expired_from_the_start_partial.

(** C30 as stated is false: asking a fresh stream for output raises IndexError,
    and after that the age is never checked.  Here data sealed at time 0 is
    released at time 100 with a time-to-live of 5. *)
Definition expired_dops (p : bytes) : list dop :=
  [DNext (later 100); DFeed p; DNext (later 100); DFinal (later 100); DFinal (later 100); DFinal (later 100)].
Theorem C30_iterating_first_disables_the_check_refuted : exists c ks st0 st dst0 dst eouts douts,
  slick256 [x61] 13 = Ok c /\ make_cipher toy c a_key = Ok ks /\ valid_coins c slick_coins /\
  cs_new toy c ks slick_coins None [x41] = Ok st0 /\
  cs_run toy c (r_extra slick_coins) [EFeed [x68; x69]; EFinal; EFinal; EFinal] st0 = (eouts, st) /\
  finished [EFeed [x68; x69]; EFinal; EFinal; EFinal] eouts /\
  ds_new toy c ks [] (r_salt slick_coins) [x41] (r_iv slick_coins) = Ok dst0 /\
  ds_run toy c (Some 5%Z) (expired_dops (concat (map wire (packets eouts)))) dst0 = (douts, dst) /\
  too_late (c_clock c) (r_now slick_coins) (Some 5%Z) (later 100) /\
  released douts = [x68; x69].
Proof.
  destruct (slick256 [x61] 13) as [c|] eqn:E; [|vm_compute in E; discriminate].
  vm_compute in E. apply Ok_inj in E. subst c.
  eexists _, _, _, _, _, _, _, _. split; [reflexivity|]. split; [vm_compute; reflexivity|].
  split; [constructor; try reflexivity; split; vm_compute; congruence|].
  split; [vm_compute; reflexivity|]. split; [vm_compute; reflexivity|].
  split; [unfold finished; cbn [combine]; do 3 right; now left|].
  split; [vm_compute; reflexivity|]. split; [vm_compute; reflexivity|].
  split; [exists 5%Z; split; [reflexivity|vm_compute; reflexivity]|]. vm_compute. reflexivity.
Qed.
Print Assumptions C30_iterating_first_disables_the_check_refuted.

(** Cases for C27-C30: "hi" in two pieces, a forged packet, a second receiver who
    looks too late. *)
Definition some_eops : list eop := [EFeed [x68]; ENext; EFeed [x69]; EFinal; EFinal; EFinal; EFeed [x6a]].
Definition forged : bytes := repeat x00 48.
Definition some_dops (p : bytes) : list dop :=
  [DFeed forged; DFeed p; DNext (later 4); DFinal (later 4); DFinal (later 5); DFinal (later 5)].
Example C27_C30_case : exists c ks st0 st eouts dst0 dst douts dst' douts' tag,
  slick256 [x61] 13 = Ok c /\ make_cipher toy c a_key = Ok ks /\ valid_coins c slick_coins /\
  streaming toy c /\
  cs_new toy c ks slick_coins None [x41] = Ok st0 /\
  cs_run toy c (r_extra slick_coins) some_eops st0 = (eouts, st) /\
  finished some_eops eouts /\ fed some_eops eouts = [x68; x69] /\
  length (packets eouts) = 1%nat /\ result_of (snd (cs_session st)) = Ok tag /\
  bytes_encrypt toy c ks slick_coins [x68; x69] None [x41] =
    Ok (tag ++ r_salt slick_coins ++ r_iv slick_coins ++ concat (map snd (packets eouts))) /\
  ds_new toy c ks [] (r_salt slick_coins) [x41] (r_iv slick_coins) = Ok dst0 /\
  ds_run toy c (Some 5%Z) (some_dops (concat (map wire (packets eouts)))) dst0 = (douts, dst) /\
  completed (some_dops (concat (map wire (packets eouts)))) douts /\
  accepted c (some_dops (concat (map wire (packets eouts)))) douts = packets eouts /\
  released douts = [x68; x69] /\ test_shmac (snd (ds_session dst)) tag = Ok tt /\
  ds_run toy c (Some 5%Z) [DFeed (concat (map wire (packets eouts))); DNext (later 6); DFinal (later 7)] dst0 =
    (douts', dst') /\
  too_late (c_clock c) (r_now slick_coins) (Some 5%Z) (later 6) /\ ~ In (Raised IndexErr) douts' /\ length douts' = 3%nat /\
  released douts' = [].
Proof.
  destruct (slick256 [x61] 13) as [c|] eqn:E; [|vm_compute in E; discriminate].
  pose proof (shipped_streaming toy [x61] 13 c toy_xof eq_refl (or_introl E)) as SG.
  vm_compute in E. apply Ok_inj in E. subst c.
  eexists _, _, _, _, _, _, _, _, _, _, _. split; [reflexivity|]. split; [vm_compute; reflexivity|].
  split; [constructor; try reflexivity; split; vm_compute; congruence|]. split; [exact SG|].
  split; [vm_compute; reflexivity|]. split; [vm_compute; reflexivity|].
  split; [unfold finished; cbn [combine some_eops]; do 4 right; now left|].
  split; [vm_compute; reflexivity|]. split; [vm_compute; reflexivity|].
  split; [vm_compute; reflexivity|]. split; [vm_compute; reflexivity|].
  split; [vm_compute; reflexivity|]. split; [vm_compute; reflexivity|].
  split.
  { split; [exists (later 5); cbn [combine some_dops]; do 4 right; now left|].
    intros o e I F. cbn [combine some_dops] in I. repeat (destruct I as [I|I]; [try (injection I; intros; discriminate)|]).
    destruct I. }
  split; [vm_compute; reflexivity|]. split; [vm_compute; reflexivity|]. split; [vm_compute; reflexivity|].
  split; [vm_compute; reflexivity|]. split; [exists 5%Z; split; [reflexivity|vm_compute; reflexivity]|].
  split; [intros [X|[X|[X|[]]]]; discriminate|]. split; vm_compute; reflexivity.
Qed.

(** ** C33 *)

(** C33: the ID of a block is the XOF's output, of the requested size, on a fixed
    prefix followed by: what the running digest squeezed from everything
    absorbed so far, that size, the associated data and the block, each
    with its length.  The size is within the limits. *)
Theorem C33_id_is_a_hash : forall H c ks salt aad iv body block size baad i,
  streaming H c -> blen salt = c_salt_bytes c -> blen iv = c_iv_bytes c -> blen aad < 2 ^ 32 ->
  blen body mod c_blocksize c = 0 ->
  id_after H c ks salt aad iv body block size baad = Ok i ->
  exists f x n payload,
    absorbed H c ks salt aad iv body = Ok x /\ kdf_factory H c (c_block_id_kdf c) = Ok f /\
    h_block_size H <= n /\
    block_id_payload (take (h_block_size H) (h_digest H x n)) (blen i) baad block = Ok payload /\
    i = h_digest H (f ++ payload) (blen i) /\
    c_min_block_id_bytes c <= blen i <= c_max_block_id_bytes c.
Proof. intros H c ks salt aad iv body block size baad i [XL VC _ _]. now apply id_after_hash. Qed.
Print Assumptions C33_id_is_a_hash.

(** C33: if two IDs agree although anything differs between the two situations
    (keys, salts, associated data, IVs, earlier blocks, the block, its own associated
    data; with keys of one length, or else associated data and earlier blocks of one
    length), then two different inputs have been found,
    among those hashed for these IDs, on which the XOF agrees: either in the IDs
    themselves, or in the running digests (a rate's worth of output) before. *)
Theorem C33_any_change_changes_the_id :
  forall H c key1 ks1 s1 aad1 v1 body1 b1 z1 ba1 key2 ks2 s2 aad2 v2 body2 b2 z2 ba2 i,
  streaming H c -> make_cipher H c key1 = Ok ks1 -> make_cipher H c key2 = Ok ks2 ->
  comparable key1 aad1 v1 body1 key2 aad2 v2 body2 ->
  blen s1 = c_salt_bytes c -> blen v1 = c_iv_bytes c -> blen aad1 < 2 ^ 32 ->
  blen s2 = c_salt_bytes c -> blen v2 = c_iv_bytes c -> blen aad2 < 2 ^ 32 ->
  blen body1 mod c_blocksize c = 0 -> blen body2 mod c_blocksize c = 0 ->
  id_after H c ks1 s1 aad1 v1 body1 b1 z1 ba1 = Ok i ->
  id_after H c ks2 s2 aad2 v2 body2 b2 z2 ba2 = Ok i ->
  (key1, s1, aad1, v1, body1, b1, ba1) <> (key2, s2, aad2, v2, body2, b2, ba2) ->
  exists f x1 x2 n1 n2 p1 p2,
    absorbed H c ks1 s1 aad1 v1 body1 = Ok x1 /\ absorbed H c ks2 s2 aad2 v2 body2 = Ok x2 /\
    h_block_size H <= n1 /\ h_block_size H <= n2 /\
    block_id_payload (take (h_block_size H) (h_digest H x1 n1)) (blen i) ba1 b1 = Ok p1 /\
    block_id_payload (take (h_block_size H) (h_digest H x2 n2)) (blen i) ba2 b2 = Ok p2 /\
    h_digest H (f ++ p1) (blen i) = i /\ h_digest H (f ++ p2) (blen i) = i /\
    (p1 <> p2 \/
     x1 <> x2 /\ take (h_block_size H) (h_digest H x1 n1) = take (h_block_size H) (h_digest H x2 n2)).
Proof.
  intros H c key1 ks1 s1 aad1 v1 body1 b1 z1 ba1 key2 ks2 s2 aad2 v2 body2 b2 z2 ba2 i
    SG K1 K2 Lk L1 L2 L3 L4 L5 L6 M1 M2 I1 I2 Ne.
  destruct (C33_id_is_a_hash _ _ _ _ _ _ _ _ _ _ _ SG L1 L2 L3 M1 I1) as (f & x1 & n1 & p1 & A1 & F1 & N1 & P1 & E1 & _).
  destruct (C33_id_is_a_hash _ _ _ _ _ _ _ _ _ _ _ SG L4 L5 L6 M2 I2) as (f' & x2 & n2 & p2 & A2 & F2 & N2 & P2 & E2 & _).
  assert (f' = f) by congruence. subst f'.
  exists f, x1, x2, n1, n2, p1, p2. do 8 (split; [congruence|]).
  destruct (bytes_eqb p1 p2) eqn:Ep; [|left; now apply bytes_eqb_neq].
  apply bytes_eqb_eq in Ep. subst p2. right. destruct SG as [XL VC _ _].
  assert (Ld : blen (take (h_block_size H) (h_digest H x1 n1)) = blen (take (h_block_size H) (h_digest H x2 n2))).
  { rewrite !blen_take, !XL. lia. }
  destruct (block_id_payload_inj H XL _ _ _ _ _ _ _ _ _ Ld P1 P2) as (Ed & _ & -> & ->).
  split; [|exact Ed]. intros <-. apply Ne.
  assert (s1 <> []) by (eapply salt_nonempty; eassumption). assert (s2 <> []) by (eapply salt_nonempty; eassumption).
  destruct (absorbed_inj H c XL VC key1 ks1 s1 aad1 v1 body1 key2 ks2 s2 aad2 v2 body2 x1)
    as (-> & -> & -> & -> & ->); auto. unfold blen in *. lia.
Qed.
Print Assumptions C33_any_change_changes_the_id.

(** C33: every size within the limits works, the default's included (for which 0
    also stands); other sizes are refused. *)
Theorem C33_sizes : forall H c ks salt aad iv body block size baad,
  streaming H c -> blen salt = c_salt_bytes c -> blen iv = c_iv_bytes c -> blen aad < 2 ^ 32 ->
  blen body mod c_blocksize c = 0 -> blen block < 2 ^ 63 -> blen baad < 2 ^ 63 ->
  let n := match size with None | Some 0 => c_block_id_bytes c | Some n => n end in
  (c_min_block_id_bytes c <= n <= c_max_block_id_bytes c ->
     exists i, id_after H c ks salt aad iv body block size baad = Ok i /\ blen i = n) /\
  (n < c_min_block_id_bytes c \/ c_max_block_id_bytes c < n ->
     id_after H c ks salt aad iv body block size baad = Err PermissionErr).
Proof.
  intros H c ks salt aad iv body block size baad SG Ls Lv VA Mb Lb La n. pose proof SG as [XL VC VI _].
  destruct (sessions_start H c XL VC ks salt aad iv Ls Lv VA) as (e & d & St).
  destruct (ds_new_session H c XL _ _ _ _ _ _ salt St) as (st & N & S & _).
  unfold id_after. rewrite N. cbn [bind]. rewrite S.
  pose proof (live_core _ _ _ _ (st_core _ _ _ _ _ _ _ _ St) (st_live _ _ _ _ _ _ _ _ St)) as Ld.
  pose proof (blocksize_pos H c VC) as Bp. pose proof (batch_full _ _ Bp Mb) as Fb.
  destruct (blocks_dec_enc H c XL VC _ true d d Ld eq_refl Fb) as (bl & s1 & [b2 s2] & T & _ & _ & _ & C & L & _).
  rewrite T. cbn [bind]. pose proof (lv_open _ _ _ (live_core _ _ _ _ C L)) as Fin. cbn [snd] in Fin.
  unfold next_block_id, test_block_id_size.
  assert (En : size_or size (c_block_id_bytes c) = n) by (destruct size as [[|p]|]; reflexivity).
  rewrite En. split.
  - intros [A B]. destruct (N.ltb_spec n (c_min_block_id_bytes c)); [lia|].
    destruct (N.ltb_spec (c_max_block_id_bytes c) n); [lia|]. cbn [bind].
    destruct (vc_kdfs _ _ VC (c_block_id_kdf c)) as [f Ef]; [cbn; auto|]. rewrite Ef. cbn [bind].
    unfold get_block_id_mac. rewrite Fin.
    set (g := match s_mode s2 with Some Encryption => _ | _ => _ end).
    assert (Hg : exists y, g = Ok y) by (unfold g; destruct (s_mode s2) as [[]|]; eauto).
    destruct Hg as [y ->]. cbn [bind]. unfold block_id_payload.
    destruct VI as (_ & _ & _ & V4).
    change (2 ^ 63) with 9223372036854775808 in *.
    rewrite (to_bytes_be_fit 1 n) by (change (256 ^ 1) with 256; lia). cbn [bind].
    rewrite (to_bytes_be_fit 8 (blen baad)) by (change (256 ^ 8) with 18446744073709551616; lia). cbn [bind].
    rewrite (to_bytes_be_fit 8 (blen block)) by (change (256 ^ 8) with 18446744073709551616; lia). cbn [bind].
    eexists. split; [reflexivity|]. apply XL.
  - intros A. destruct (N.ltb_spec n (c_min_block_id_bytes c)); [reflexivity|].
    destruct (N.ltb_spec (c_max_block_id_bytes c) n); [reflexivity|]. lia.
Qed.
Print Assumptions C33_sizes.

Example C33_case : exists c ks i,
  slick256 [x61] 13 = Ok c /\ streaming toy c /\ make_cipher toy c a_key = Ok ks /\
  id_after toy c ks (repeat x01 8) [x41] (repeat x02 8) (repeat x05 32) (repeat x06 32) None [] = Ok i /\
  blen i = 16 /\
  id_after toy c ks (repeat x01 8) [x41] (repeat x02 8) (repeat x05 32) (repeat x07 32) None [] <> Ok i /\
  id_after toy c ks (repeat x01 8) [x41] (repeat x02 8) (repeat x05 32) (repeat x06 32) (Some 33) [] = Err PermissionErr.
Proof.
  destruct (slick256 [x61] 13) as [c|] eqn:E; [|vm_compute in E; discriminate].
  pose proof (shipped_streaming toy [x61] 13 c toy_xof eq_refl (or_introl E)) as SG.
  vm_compute in E. apply Ok_inj in E. subst c.
  eexists _, _, _. split; [reflexivity|]. split; [exact SG|]. split; [vm_compute; reflexivity|].
  split; [vm_compute; reflexivity|]. split; [vm_compute; reflexivity|].
  split; [vm_compute; discriminate|]. vm_compute. reflexivity.
Qed.
