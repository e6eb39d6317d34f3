(** * Tasks that share one AsyncDecipherStream: C87 *)
From Coq Require Import ZArith Lia ZifyBool ZifyNat ZifyN.
From Verif Require Import Base BaseFacts CanonModel ClockModel GentoolsModel GentoolsProofs CipherModel
  CipherSpec CipherProofs SessionProofs BindingProofs ShippedProofs CipherProps StreamModel StreamSpec
  StreamProofs StreamHistoryProofs StreamOpenProofs StreamPairProofs StreamTimeProofs StreamProps
  FeedModel FeedSpec FeedProofs ReceiveModel ReceiveSpec ReceiveProofs ReceiveGuard.
Local Open Scope N_scope.

(** What any schedule without cancellations leads to. *)
Lemma any_receipt H c ks rsalt salt aad iv dst0 ttl datas es : streaming H c -> blen salt = c_salt_bytes c ->
  blen iv = c_iv_bytes c -> blen aad < 2 ^ 32 -> ds_new H c ks rsalt salt aad iv = Ok dst0 -> undisturbed es ->
  let y := rrun H c ttl es (rstarted dst0 datas 1) in
  let calls := filter (valid_index datas) (arrivals [] es) in
  exists e d ended x a,
    SessionProofs.started H c ks salt aad iv e d /\ ds_phase dst0 = DOpen /\ dec_inv H c d [] [] dst0 /\
    rinv H c ttl (at_moment es) dst0 datas calls ended x a y /\ refused_ok H c d datas calls y.
Proof.
  intros SG Ls Lv VA N U y calls. destruct (StreamProps.receiver _ _ _ _ _ _ _ _ SG Ls Lv VA N) as (e & d & St & P0 & D0).
  destruct SG as [XL VC VI _].
  destruct (rrun_inv H c XL VC VI ttl (at_moment es) d dst0 D0 datas es [] [] [] RIdle dst0 (rstarted dst0 datas 1))
    as (ended & x & a & I & R); auto.
  - apply (rinv_start H c ttl (at_moment es) d dst0 D0 datas P0).
  - intros k i b rem c1 c2 Q. cbn in Q. rewrite nth_error_map in Q. destruct (nth_error datas k); discriminate.
  - intros i _. reflexivity.
  - exists e, d, ended, x, a. auto.
Qed.

(** ** C87 *)

(** C87: any number of tasks feed one stream, each with one call of [abuffer], with
    anything: whole packets or not, genuine or forged.  Another task iterates over the stream
    meanwhile, and finalizes it whenever it likes.  However the tasks are interleaved, there
    is a sequence of calls, made one after another, in which the iterating task gets the
    same answers, and the same packets are taken in, in the order in which the feeding calls
    were made; and its end is the state in which the stream is left. *)
Theorem C87_linearizable : forall H c ks rsalt salt aad iv dst0 ttl datas es,
  streaming H c -> blen salt = c_salt_bytes c -> blen iv = c_iv_bytes c -> blen aad < 2 ^ 32 ->
  ds_new H c ks rsalt salt aad iv = Ok dst0 -> undisturbed es ->
  let y := rrun H c ttl es (rstarted dst0 datas 1) in
  exists ops outs dst, ds_run H c ttl ops dst0 = (outs, dst) /\
    answers ops outs = heard y /\ accepted c ops outs = delivered c datas es y /\
    (forall o now, In o ops -> moment o = Some now -> at_moment es now) /\
    (at_rest y -> inbox y = ds_set_phase dst DOpen).
Proof.
  intros H c ks rsalt salt aad iv dst0 ttl datas es SG Ls Lv VA N U y.
  destruct (any_receipt H c ks rsalt salt aad iv dst0 ttl datas es SG Ls Lv VA N U) as (e & d & ended & x & a & _ & _ & _ & I & _).
  fold y in I. destruct (n_hist _ _ _ _ _ _ _ _ _ _ _ I) as (ops & outs & R & A & Ac & _ & M).
  exists ops, outs, a. split; [exact R|]. split; [exact A|]. split; [rewrite delivered_all; exact Ac|]. split; [exact M|].
  intros Re. unfold at_rest in Re. rewrite (n_read _ _ _ _ _ _ _ _ _ _ _ I) in Re. apply Forall_inv in Re.
  pose proof (n_rel _ _ _ _ _ _ _ _ _ _ _ I) as Rl. destruct Re as [-> | ->]; apply Rl.
Qed.
Print Assumptions C87_linearizable.

Lemma feed_not_plain H c data st : released [fst (ds_feed H c data st)] = [].
Proof.
  unfold ds_feed. destruct (_ || _); [reflexivity|]. destruct (ds_phase st); try reflexivity.
  generalize (length data) as fuel. intros fuel. revert data st. induction fuel as [|fuel IH]; intros data st; [reflexivity|].
  cbn [ds_digest]. destruct (take (c_block_id_bytes c) data) as [|z zs] eqn:T; [reflexivity|].
  destruct (test_next_block_id _ _ _ _ _ _) as [u|[]]; try reflexivity.
  destruct (transform _ _ _ _ _ _) as [[pt ss]|e']; [apply IH|reflexivity].
Qed.
Lemma released_cons o outs : released (o :: outs) = released [o] ++ released outs.
Proof. destruct o; cbn; try reflexivity. now rewrite app_nil_r. Qed.
Lemma released_answers H c ttl : forall ops st outs st', ds_run H c ttl ops st = (outs, st') ->
  released (map snd (answers ops outs)) = released outs.
Proof.
  induction ops as [|o ops IH]; intros st outs st' R; cbn [ds_run] in R.
  - injection R as <- <-. reflexivity.
  - destruct (ds_step H c ttl o st) as [out st1] eqn:E. destruct (ds_run H c ttl ops st1) as [outs1 st2] eqn:R1.
    injection R as <- <-. rewrite (released_cons out). rewrite <- (IH _ _ _ R1). destruct o; cbn [answers map snd].
    + cbn [ds_step] in E. pose proof (feed_not_plain H c data st) as F. rewrite E in F. cbn [fst] in F. now rewrite F.
    + now rewrite released_cons.
    + now rewrite released_cons.
    + now rewrite released_cons.
    + now rewrite released_cons.
Qed.
Lemma answers_unfinalized : forall ops outs, length outs = length ops -> (forall o, ~ In (true, o) (answers ops outs)) -> unfinalized ops.
Proof.
  induction ops as [|o ops IH]; intros [|out outs] L N; cbn in L; try discriminate; [constructor|].
  injection L as L. constructor.
  - intros F. destruct o; try destruct F; apply (N out); now left.
  - apply (IH outs L). intros o' J. apply (N o'). destruct o; cbn [answers]; auto; now right.
Qed.

(** C87: so if the calls have brought in all packets of a sender, in their order, and the
    stream was read to its end, then the task has got exactly what the sender fed, and the
    stream accepts exactly the sender's tag. *)
Theorem C87_receives_the_message :
  forall H c ks r salt aad rsalt st0 eops eouts st dst0 ttl datas es,
  streaming H c -> valid_coins c r -> valid_salt c salt -> blen aad < 2 ^ 32 ->
  cs_new H c ks r salt aad = Ok st0 ->
  cs_run H c (r_extra r) eops st0 = (eouts, st) -> finished eops eouts ->
  ds_new H c ks rsalt (choose_salt salt (r_salt r)) aad (r_iv r) = Ok dst0 -> undisturbed es ->
  let y := rrun H c ttl es (rstarted dst0 datas 1) in
  delivered c datas es y = packets eouts -> read_to_the_end y ->
  released (map snd (heard y)) = fed eops eouts /\
  exists tag, result_of (snd (cs_session st)) = Ok tag /\
    forall untrusted, test_shmac (snd (ds_session (inbox y))) untrusted = Ok tt <-> untrusted = tag.
Proof.
  intros H c ks r salt aad rsalt st0 eops eouts st dst0 ttl datas es SG VR VS VA N R F Nd U y De [Rs Rr].
  assert (Ls' : blen (choose_salt salt (r_salt r)) = c_salt_bytes c)
    by (destruct SG as [_ VC _ _]; now apply (choose_salt_len H c VC)).
  destruct (any_receipt H c ks rsalt _ aad (r_iv r) dst0 ttl datas es SG Ls' (vr_iv _ _ VR) VA Nd U)
    as (e1 & d1 & ended & x & a & _ & _ & _ & I1 & _). fold y in I1.
  destruct (both _ _ _ _ _ _ _ _ _ SG VR VS VA N Nd) as (e & d & start & St & Hs & Ls & I0 & Pd & _ & _ & D0).
  destruct SG as [XL VC VI _].
  pose proof (st_emode _ _ _ _ _ _ _ _ St) as ME. pose proof (st_dmode _ _ _ _ _ _ _ _ St) as MD.
  pose proof (StreamProofs.run_inv H c XL VC VI e d start r ME MD VR Ls eops [] [] st0 eouts st I0 R) as I.
  pose proof (finished_closed H c XL VC VI e d start r ME MD VR Ls eops [] [] st0 eouts st I0 R F) as P.
  destruct (n_hist _ _ _ _ _ _ _ _ _ _ _ I1) as (ops & outs & Rd & A & Ac & _ & _).
  pose proof (drun_inv H c XL VC VI d ttl ops [] [] dst0 outs a D0 Rd) as D.
  assert (Pn : ds_phase dst0 <> DFailed) by congruence.
  assert (Q : ds_phase a = DDone).
  { apply (read_done H c XL VC VI ttl d ops [] [] dst0 outs a D0 Pn Rd); rewrite A; assumption. }
  cbn [app] in I, D. rewrite Ac in D. rewrite delivered_all in De. rewrite De in D.
  destruct (done_text H c XL VC r aad VR VA e d start Ls _ _ _ _ _ I P D Q) as [E1 E2].
  split. { rewrite <- A, (released_answers _ _ _ _ _ _ _ Rd). exact E1. }
  destruct (closed_encrypt H c XL VC ks r salt aad VR e d St start Hs _ _ _ I P) as (tag & T1 & T2 & _).
  exists tag. split; [exact T1|]. intros u. rewrite T1 in E2.
  rewrite (rel_done _ _ _ _ _ _ _ _ (n_rel _ _ _ _ _ _ _ _ _ _ _ I1) Q). unfold test_shmac.
  rewrite E2. cbn [bind]. destruct (bytes_eqb u tag) eqn:Eu.
  - apply bytes_eqb_eq in Eu. now split.
  - apply bytes_eqb_neq in Eu. split; intros X; congruence.
Qed.
Print Assumptions C87_receives_the_message.

(** C87: and until it is finalized, the pieces it yields are a prefix of what the sender fed. *)
Theorem C87_released_is_a_prefix :
  forall H c ks r salt aad rsalt st0 eops eouts st dst0 ttl datas es later_packets,
  streaming H c -> valid_coins c r -> valid_salt c salt -> blen aad < 2 ^ 32 ->
  cs_new H c ks r salt aad = Ok st0 -> cs_run H c (r_extra r) eops st0 = (eouts, st) ->
  ds_new H c ks rsalt (choose_salt salt (r_salt r)) aad (r_iv r) = Ok dst0 -> undisturbed es ->
  let y := rrun H c ttl es (rstarted dst0 datas 1) in
  packets eouts = delivered c datas es y ++ later_packets -> (forall o, ~ In (true, o) (heard y)) ->
  prefix (released (map snd (heard y))) (fed eops eouts).
Proof.
  intros H c ks r salt aad rsalt st0 eops eouts st dst0 ttl datas es lp SG VR VS VA N R Nd U y De Nf.
  assert (Ls' : blen (choose_salt salt (r_salt r)) = c_salt_bytes c)
    by (destruct SG as [_ VC _ _]; now apply (choose_salt_len H c VC)).
  destruct (C87_linearizable H c ks rsalt _ aad (r_iv r) dst0 ttl datas es SG Ls' (vr_iv _ _ VR) VA Nd U)
    as (ops & outs & dst & Rd & A & Ac & _ & _). fold y in A, Ac.
  rewrite <- A, (released_answers _ _ _ _ _ _ _ Rd).
  refine (C28_released_is_a_prefix _ _ _ _ _ _ _ _ _ _ _ _ _ _ _ _ lp SG VR VS VA N R Nd Rd _ _).
  - apply (answers_unfinalized _ outs); [eapply StreamProps.ds_run_len; eauto|]. now rewrite A.
  - now rewrite Ac.
Qed.
Print Assumptions C87_released_is_a_prefix.

(** C87: if at every moment at which the task runs the packets are too old, and it never looks
    before there is a packet, then it gets no plaintext.  (As C30, this needs that no
    IndexError was raised.) *)
Theorem C87_expired_releases_nothing :
  forall H c ks r salt aad rsalt st0 eops eouts st dst0 ttl datas es later_packets,
  streaming H c -> valid_coins c r -> valid_salt c salt -> blen aad < 2 ^ 32 ->
  cs_new H c ks r salt aad = Ok st0 -> cs_run H c (r_extra r) eops st0 = (eouts, st) ->
  ds_new H c ks rsalt (choose_salt salt (r_salt r)) aad (r_iv r) = Ok dst0 -> undisturbed es ->
  let y := rrun H c ttl es (rstarted dst0 datas 1) in
  packets eouts = delivered c datas es y ++ later_packets ->
  (forall now, at_moment es now -> too_late (c_clock c) (r_now r) ttl now) ->
  (forall f, ~ In (f, Raised IndexErr) (heard y)) ->
  released (map snd (heard y)) = [].
Proof.
  intros H c ks r salt aad rsalt st0 eops eouts st dst0 ttl datas es lp SG VR VS VA N R Nd U y De Late Ni.
  assert (Ls' : blen (choose_salt salt (r_salt r)) = c_salt_bytes c)
    by (destruct SG as [_ VC _ _]; now apply (choose_salt_len H c VC)).
  destruct (any_receipt H c ks rsalt _ aad (r_iv r) dst0 ttl datas es SG Ls' (vr_iv _ _ VR) VA Nd U)
    as (e1 & d1 & ended & x & a & _ & _ & _ & I1 & _). fold y in I1.
  destruct (n_hist _ _ _ _ _ _ _ _ _ _ _ I1) as (ops & outs & Rd & A & Ac & Only & M).
  rewrite <- delivered_all in Ac. rewrite <- A, (released_answers _ _ _ _ _ _ _ Rd).
  refine (C30_expired_from_the_start_partial _ _ _ _ _ _ _ _ _ _ _ _ _ _ _ _ lp SG VR VS VA N R Nd Rd _ _ _).
  - now rewrite Ac.
  - intros o now J Mo. apply Late. eapply M; eauto.
  - intros J. destruct (Only _ J) as [X|X]; [discriminate|]. apply in_map_iff in X as ((f & o) & X1 & X2). cbn in X1. subst o.
    rewrite A in X2. exact (Ni _ X2).
Qed.
Print Assumptions C87_expired_releases_nothing.

Lemma up_to_split k : forall l c1 c2, NoDup l -> l = c1 ++ k :: c2 -> up_to k l = c1 ++ [k].
Proof.
  intros l c1. revert l. induction c1 as [|i c1 IH]; intros l c2 Nd ->; cbn [app up_to]; [now rewrite Nat.eqb_refl|].
  apply NoDup_cons_iff in Nd as [N1 N2]. destruct (Nat.eqb_spec i k) as [->|_].
  - exfalso. apply N1, in_or_app. right. now left.
  - f_equal. eapply IH; eauto.
Qed.
Lemma arrivals_once : forall es seen, NoDup (arrivals seen es) /\ forall i, In i (arrivals seen es) -> ~ In i seen.
Proof.
  induction es as [|e es IH]; intros seen; [split; [constructor|intros i []]|].
  destruct e; cbn [arrivals]; try apply IH.
  destruct (existsb (Nat.eqb k) seen) eqn:X; [apply IH|].
  assert (Nk : ~ In k seen).
  { intros J. rewrite <- not_true_iff_false in X. apply X, existsb_exists. exists k. split; [exact J|apply Nat.eqb_refl]. }
  destruct (IH (k :: seen)) as [Nd Ns]. split.
  - constructor; [|exact Nd]. intros J. apply (Ns k J). now left.
  - intros i [<-|J]; [exact Nk|]. intros Ji. apply (Ns i J). now right.
Qed.

(** C87: the stream decides about every packet by its ID.  Whatever was fed by whom, each packet
    taken in has the ID which one computes for its block from the blocks taken in before it; and
    a call that was refused a packet had got to one whose ID is not the one which
    is computed for its block from the blocks of the calls before it and its own. *)
Theorem C87_decided_by_ids : forall H c ks rsalt salt aad iv dst0 ttl datas es,
  streaming H c -> blen salt = c_salt_bytes c -> blen iv = c_iv_bytes c -> blen aad < 2 ^ 32 ->
  ds_new H c ks rsalt salt aad iv = Ok dst0 -> undisturbed es ->
  let y := rrun H c ttl es (rstarted dst0 datas 1) in
  (forall before i b after, delivered c datas es y = before ++ (i, b) :: after ->
     id_after H c ks salt aad iv (concat (map snd before)) b None [] = Ok i) /\
  (forall k i b rest, nth_error (receivers y) k = Some (REnded (Refused i b rest)) ->
     exists genuine, genuine <> i /\
       id_after H c ks salt aad iv (concat (map snd (delivered_up_to c datas es y k))) b None [] = Ok genuine).
Proof.
  intros H c ks rsalt salt aad iv dst0 ttl datas es SG Ls Lv VA N U y.
  destruct (any_receipt H c ks rsalt salt aad iv dst0 ttl datas es SG Ls Lv VA N U) as (e & d & ended & x & a & St & P0 & D0 & I & R).
  fold y in I, R. pose proof SG as [XL VC VI _]. split.
  - intros before i b after De. rewrite delivered_all in De.
    destruct (hist_inv H c XL VC VI ttl _ d dst0 D0 _ _ _ (n_hist _ _ _ _ _ _ _ _ _ _ _ I)) as (out & [D]).
    destruct D as (pts & ss & out0 & A & _). rewrite De in A.
    exact (accepts_id_after H c XL VC ks salt aad iv e d St _ _ _ _ _ _ A).
  - intros k i b rest Q.
    assert (Jk : In k (filter (valid_index datas) (arrivals [] es))).
    { destruct (n_recv _ _ _ _ _ _ _ _ _ _ _ I k _ Q) as [J _]. exact J. }
    apply in_split in Jk as (c1 & c2 & Sp).
    destruct (R k i b rest c1 c2 Q Sp) as (pts & ss & A & g & G1 & G2). exists g. split; [congruence|].
    assert (E : delivered_up_to c datas es y k = concat (map (took c datas y) (c1 ++ [k]))).
    { unfold delivered_up_to. rewrite <- (up_to_split k _ c1 c2 (NoDup_filter _ (proj1 (arrivals_once es []))) Sp).
      assert (V : valid_index datas k = true).
      { assert (J : In k (filter (valid_index datas) (arrivals [] es))) by (rewrite Sp; apply in_or_app; right; now left).
        apply filter_In in J. apply J. }
      clear - V. generalize (arrivals [] es) as l. induction l as [|i l IH]; [reflexivity|]. cbn [filter up_to].
      destruct (Nat.eqb_spec i k) as [->|Ne].
      - rewrite V. cbn [up_to]. now rewrite Nat.eqb_refl.
      - destruct (valid_index datas i) eqn:Vi; cbn [up_to map concat].
        + destruct (Nat.eqb_spec i k) as [X|_]; [congruence|]. cbn [map concat]. now rewrite IH.
        + rewrite IH. replace (took c datas y i) with (@nil (bytes * bytes)); [reflexivity|]. unfold took.
          unfold valid_index in Vi. apply Nat.ltb_ge, nth_error_None in Vi. now rewrite Vi. }
    rewrite E, (id_after_run H c ks salt aad iv e d _ _ _ b None [] SG St A). exact G1.
Qed.
Print Assumptions C87_decided_by_ids.

(** C87: a call that ended raised [InvalidLength] if what it fed is not a positive number of
    whole packets, and only then; otherwise it returned, was refused a packet, or found the
    stream closed, which is only possible if the other task has called [afinalize]. *)
Theorem C87_outcomes : forall H c ks rsalt salt aad iv dst0 ttl datas es,
  streaming H c -> blen salt = c_salt_bytes c -> blen iv = c_iv_bytes c -> blen aad < 2 ^ 32 ->
  ds_new H c ks rsalt salt aad iv = Ok dst0 -> undisturbed es ->
  let y := rrun H c ttl es (rstarted dst0 datas 1) in
  forall k o data, nth_error (receivers y) k = Some (REnded o) -> nth_error datas k = Some data ->
  (o = Raised InvalidLength <-> ~ exists n, blen data = (n + 1) * packetsize c) /\
  (o = Raised InvalidLength \/ o = Done \/ (exists i b rest, o = Refused i b rest) \/
   o = Raised CipherStreamIsClosed /\ exists j now, In (RClose j now) es).
Proof.
  intros H c ks rsalt salt aad iv dst0 ttl datas es SG Ls Lv VA N U y k o data Q Qd.
  destruct (any_receipt H c ks rsalt salt aad iv dst0 ttl datas es SG Ls Lv VA N U) as (e & d & ended & x & a & St & P0 & D0 & I & _).
  fold y in I. pose proof SG as [XL VC VI _].
  destruct (n_recv _ _ _ _ _ _ _ _ _ _ _ I k _ Q) as [_ Rk].
  assert (Pp : packetsize c <> 0). { pose proof (blocksize_pos H c VC). unfold packetsize. lia. }
  assert (G : good c datas k = true <-> exists n, blen data = (n + 1) * packetsize c).
  { unfold good. rewrite Qd. rewrite negb_true_iff, orb_false_iff, negb_false_iff, N.eqb_neq, N.eqb_eq. split.
    - intros [Nz M]. apply N.mod_divide in M as [m M]; [|exact Pp]. exists (m - 1). rewrite M. f_equal.
      destruct (N.eq_dec m 0) as [->|]; lia.
    - intros [n E]. rewrite E. split; [|now apply N.mod_mul]. apply N.neq_mul_0. lia. }
  rewrite <- G. destruct (good c datas k).
  - destruct Rk as [_ O]. split.
    + split; [|intros Z; now destruct Z]. intros ->. destruct O as [O|[O|(? & ? & ? & O)]]; discriminate.
    + destruct O as [->|[->|O]]; auto. do 3 right. split; [reflexivity|].
      destruct (closed_run H c XL VC VI ttl (at_moment es) d dst0 D0 datas es (rstarted dst0 datas 1)) as [Cl Cr]; auto.
      * do 4 eexists. apply (rinv_start H c ttl (at_moment es) d dst0 D0 datas P0).
      * intros i Qi. cbn in Qi. rewrite nth_error_map in Qi. destruct (nth_error datas i); discriminate.
      * destruct (Cr (Cl k Q)) as [X|X]; [discriminate|exact X].
  - subst o. split; [|now left]. split; [congruence|reflexivity].
Qed.
Print Assumptions C87_outcomes.

(** C87: whatever the schedule was so far, the tasks can go on such that all calls end. *)
Theorem C87_can_end : forall H c ks rsalt salt aad iv dst0 ttl datas es (now : Z),
  streaming H c -> blen salt = c_salt_bytes c -> blen iv = c_iv_bytes c -> blen aad < 2 ^ 32 ->
  ds_new H c ks rsalt salt aad iv = Ok dst0 -> undisturbed es ->
  exists es', undisturbed es' /\
    let y := rrun H c ttl (es ++ es') (rstarted dst0 datas 1) in all_back y /\ readers y = [RIdle].
Proof.
  intros H c ks rsalt salt aad iv dst0 ttl datas es now SG Ls Lv VA N U.
  destruct (StreamProps.receiver _ _ _ _ _ _ _ _ SG Ls Lv VA N) as (e & d & St & P0 & D0).
  destruct SG as [XL VC VI _].
  destruct (all_end H c XL VC VI ttl (fun _ => True) d dst0 D0 datas (fun _ => Logic.I) now
    (rrun H c ttl es (rstarted dst0 datas 1))) as (es' & U' & B).
  { apply (some_run H c XL VC VI ttl (fun _ => True) d dst0 D0 datas); auto.
    do 4 eexists. apply (rinv_start H c ttl _ d dst0 D0 datas P0). }
  exists es'. split; [exact U'|]. cbv zeta. now rewrite rrun_app.
Qed.
Print Assumptions C87_can_end.

Definition two_readers : list revent :=
  repeat (Receiver 0) 4 ++ [RLook 0 (later 100); RLook 1 (later 100)] ++ repeat (RGo 1 (later 100)) 3 ++
  [RClose 1 (later 100)] ++ repeat (RGo 1 (later 100)) 6.
Definition stopped_reader : list revent :=
  repeat (Receiver 0) 4 ++ [RLook 0 (later 100); RStop 0; RClose 0 (later 100)] ++ repeat (RGo 0 (later 100)) 8.

(** The age of the packets is not tested when two tasks read the stream: while one of them is
    testing it, the other takes it for tested.  Here all that happens is 100 seconds after the
    message was sealed, the limit is 5 seconds, and the message is released. *)
Theorem C87_two_readers_skip_the_age_check_refuted : exists c ks st0 st eouts dst0,
  slick256 [x61] 13 = Ok c /\ make_cipher toy c a_key = Ok ks /\ valid_coins c slick_coins /\ streaming toy c /\
  cs_new toy c ks slick_coins None [x41] = Ok st0 /\
  cs_run toy c (r_extra slick_coins) some_eops st0 = (eouts, st) /\ fed some_eops eouts = [x68; x69] /\
  ds_new toy c ks [] (r_salt slick_coins) [x41] (r_iv slick_coins) = Ok dst0 /\ undisturbed two_readers /\
  (forall now, at_moment two_readers now -> too_late (c_clock c) (r_now slick_coins) (Some 5%Z) now) /\
  let datas := [concat (map wire (packets eouts))] in
  let y := rrun toy c (Some 5%Z) two_readers (rstarted dst0 datas 2) in
  delivered c datas two_readers y = packets eouts /\
  heard y = [(false, Stop); (true, Plain [x68; x69]); (true, Stop)].
Proof.
  destruct (slick256 [x61] 13) as [c|] eqn:E; [|vm_compute in E; discriminate].
  pose proof (shipped_streaming toy [x61] 13 c toy_xof eq_refl (or_introl E)) as SG.
  vm_compute in E. apply Ok_inj in E. subst c.
  eexists _, _, _, _, _, _. split; [reflexivity|]. split; [vm_compute; reflexivity|].
  split; [constructor; try reflexivity; split; vm_compute; congruence|]. split; [exact SG|].
  split; [vm_compute; reflexivity|]. split; [vm_compute; reflexivity|]. split; [vm_compute; reflexivity|].
  split; [vm_compute; reflexivity|]. split; [unfold undisturbed, two_readers; cbn; repeat constructor|].
  split.
  { intros now (j & J). assert (now = later 100) as ->.
    { unfold two_readers in J. cbn [repeat app] in J.
      destruct J as [J|[J|J]]; repeat (destruct J as [J|J]; [try discriminate; congruence|]); destruct J. }
    exists 5%Z. split; [reflexivity|]. vm_compute. reflexivity. }
  cbv zeta. split; vm_compute; reflexivity.
Qed.
Print Assumptions C87_two_readers_skip_the_age_check_refuted.

(** Nor when a task is cancelled which is testing it: the test is taken for done. *)
Theorem C87_cancelled_test_skips_the_age_check_refuted : exists c ks st0 st eouts dst0,
  slick256 [x61] 13 = Ok c /\ make_cipher toy c a_key = Ok ks /\ valid_coins c slick_coins /\ streaming toy c /\
  cs_new toy c ks slick_coins None [x41] = Ok st0 /\
  cs_run toy c (r_extra slick_coins) some_eops st0 = (eouts, st) /\ fed some_eops eouts = [x68; x69] /\
  ds_new toy c ks [] (r_salt slick_coins) [x41] (r_iv slick_coins) = Ok dst0 /\
  (forall now, at_moment stopped_reader now -> too_late (c_clock c) (r_now slick_coins) (Some 5%Z) now) /\
  let datas := [concat (map wire (packets eouts))] in
  let y := rrun toy c (Some 5%Z) stopped_reader (rstarted dst0 datas 1) in
  delivered c datas stopped_reader y = packets eouts /\
  heard y = [(true, Plain [x68; x69]); (true, Stop)].
Proof.
  destruct (slick256 [x61] 13) as [c|] eqn:E; [|vm_compute in E; discriminate].
  pose proof (shipped_streaming toy [x61] 13 c toy_xof eq_refl (or_introl E)) as SG.
  vm_compute in E. apply Ok_inj in E. subst c.
  eexists _, _, _, _, _, _. split; [reflexivity|]. split; [vm_compute; reflexivity|].
  split; [constructor; try reflexivity; split; vm_compute; congruence|]. split; [exact SG|].
  split; [vm_compute; reflexivity|]. split; [vm_compute; reflexivity|]. split; [vm_compute; reflexivity|].
  split; [vm_compute; reflexivity|].
  split.
  { intros now (j & J). assert (now = later 100) as ->.
    { unfold stopped_reader in J. cbn [repeat app] in J.
      destruct J as [J|[J|J]]; repeat (destruct J as [J|J]; [try discriminate; congruence|]); destruct J. }
    exists 5%Z. split; [reflexivity|]. vm_compute. reflexivity. }
  cbv zeta. split; vm_compute; reflexivity.
Qed.
Print Assumptions C87_cancelled_test_skips_the_age_check_refuted.

Definition cancelled_receiver : list revent :=
  repeat (Receiver 0) 3 ++ [RCancel 0] ++ repeat (Receiver 1) 4.

(** A task that is cancelled while its packet is deciphered ends the stream for the others: the
    same genuine packet, fed again, is not taken in, although its ID is accepted. *)
Theorem C87_cancelled_receiver_ends_the_stream_refuted : exists c ks st0 st eouts dst0,
  slick256 [x61] 13 = Ok c /\ make_cipher toy c a_key = Ok ks /\ valid_coins c slick_coins /\ streaming toy c /\
  cs_new toy c ks slick_coins None [x41] = Ok st0 /\
  cs_run toy c (r_extra slick_coins) some_eops st0 = (eouts, st) /\ length (packets eouts) = 1%nat /\
  ds_new toy c ks [] (r_salt slick_coins) [x41] (r_iv slick_coins) = Ok dst0 /\
  let p := concat (map wire (packets eouts)) in
  let y := rrun toy c None cancelled_receiver (rstarted dst0 [p; p] 1) in
  receivers y = [RGone; REnded (Raised StopIter)] /\ closing y = false.
Proof.
  destruct (slick256 [x61] 13) as [c|] eqn:E; [|vm_compute in E; discriminate].
  pose proof (shipped_streaming toy [x61] 13 c toy_xof eq_refl (or_introl E)) as SG.
  vm_compute in E. apply Ok_inj in E. subst c.
  eexists _, _, _, _, _, _. split; [reflexivity|]. split; [vm_compute; reflexivity|].
  split; [constructor; try reflexivity; split; vm_compute; congruence|]. split; [exact SG|].
  split; [vm_compute; reflexivity|]. split; [vm_compute; reflexivity|]. split; [vm_compute; reflexivity|].
  split; [vm_compute; reflexivity|]. cbv zeta. split; vm_compute; reflexivity.
Qed.
Print Assumptions C87_cancelled_receiver_ends_the_stream_refuted.

(** With any number of readers, however calls end, even with an exception because the stream was
    ended by a cancelled call: whoever is in the line waits or is inside, whoever left is not
    in it, and the one inside is in front. *)
Theorem C87_guards_are_left : forall H c ttl st0 datas n es,
  no_waiter_cancelled H c ttl es (rstarted st0 datas n) ->
  let y := rrun H c ttl es (rstarted st0 datas n) in
  NoDup (waiters y) /\ (forall w, In w (waiters y) <-> rstands y w <> Away) /\
  (forall w, rstands y w = Inside -> hd_error (waiters y) = Some w).
Proof. intros H c ttl st0 datas n es U. apply rsafe_run; [exact U|apply rsafe_started]. Qed.
Print Assumptions C87_guards_are_left.

(** The task that is cancelled in [cancelled_receiver] is inside, and nobody is left in the line. *)
Example C87_guards_case : exists c ks st0 st eouts dst0,
  slick256 [x61] 13 = Ok c /\ make_cipher toy c a_key = Ok ks /\
  cs_new toy c ks slick_coins None [x41] = Ok st0 /\ cs_run toy c (r_extra slick_coins) some_eops st0 = (eouts, st) /\
  ds_new toy c ks [] (r_salt slick_coins) [x41] (r_iv slick_coins) = Ok dst0 /\
  let p := concat (map wire (packets eouts)) in
  no_waiter_cancelled toy c None cancelled_receiver (rstarted dst0 [p; p] 1) /\
  rstands (rrun toy c None (repeat (Receiver 0) 3) (rstarted dst0 [p; p] 1)) (Feeds 0) = Inside /\
  waiters (rrun toy c None cancelled_receiver (rstarted dst0 [p; p] 1)) = [].
Proof.
  destruct (slick256 [x61] 13) as [c|] eqn:E; [|vm_compute in E; discriminate].
  vm_compute in E. apply Ok_inj in E. subst c.
  eexists _, _, _, _, _, _. split; [reflexivity|]. split; [vm_compute; reflexivity|].
  split; [vm_compute; reflexivity|]. split; [vm_compute; reflexivity|]. split; [vm_compute; reflexivity|].
  cbv zeta. split; [|split; vm_compute; reflexivity].
  intros before k after data E. unfold cancelled_receiver in E. cbn [repeat app] in E.
  destruct before as [|e1 before]; [discriminate|]. injection E as <- E.
  destruct before as [|e2 before]; [discriminate|]. injection E as <- E.
  destruct before as [|e3 before]; [discriminate|]. injection E as <- E.
  destruct before as [|e4 before]; [injection E as <- _; vm_compute; discriminate|].
  injection E as <- E. exfalso.
  repeat (destruct before as [|?e before]; [discriminate|injection E as <- E]). now destruct before.
Qed.

Definition some_receipt : list revent :=
  [Receiver 1; Receiver 0; Receiver 1; Receiver 0; Receiver 2; Receiver 1; Receiver 0; Receiver 0; Receiver 0; RLook 0 (later 1);
   RGo 0 (later 2); RGo 0 (later 2); RClose 0 (later 3); Receiver 3; RGo 0 (later 3); RGo 0 (later 3); RGo 0 (later 4);
   Receiver 3; RGo 0 (later 4); Receiver 3; RGo 0 (later 4); RGo 0 (later 4)].
Definition too_old : list revent :=
  [Receiver 0; Receiver 0; Receiver 0; Receiver 0; RLook 0 (later 6); RGo 0 (later 6); RClose 0 (later 7); RGo 0 (later 7); RGo 0 (later 7); RGo 0 (later 7)].

(** The packet of a sender, a forged one, a piece of one and one that is late; and the packet
    when it is too old. *)
Example C87_case : exists c ks st0 st eouts dst0,
  slick256 [x61] 13 = Ok c /\ make_cipher toy c a_key = Ok ks /\ valid_coins c slick_coins /\ streaming toy c /\
  cs_new toy c ks slick_coins None [x41] = Ok st0 /\
  cs_run toy c (r_extra slick_coins) some_eops st0 = (eouts, st) /\ finished some_eops eouts /\ fed some_eops eouts = [x68; x69] /\
  blen (r_salt slick_coins) = c_salt_bytes c /\ blen (r_iv slick_coins) = c_iv_bytes c /\
  ds_new toy c ks [] (r_salt slick_coins) [x41] (r_iv slick_coins) = Ok dst0 /\ undisturbed some_receipt /\ undisturbed too_old /\
  (let datas := [concat (map wire (packets eouts)); forged; [x00]; forged] in
   let y := rrun toy c (Some 5%Z) some_receipt (rstarted dst0 datas 1) in
   delivered c datas some_receipt y = packets eouts /\ read_to_the_end y /\ at_rest y /\
   receivers y = [REnded Done; REnded (Refused (take 16 forged) (drop 16 forged) []); REnded (Raised InvalidLength);
                  REnded (Raised CipherStreamIsClosed)] /\
   heard y = [(false, Stop); (true, Plain [x68; x69]); (true, Stop)]) /\
  (let datas := [concat (map wire (packets eouts))] in
   let y := rrun toy c (Some 5%Z) too_old (rstarted dst0 datas 1) in
   delivered c datas too_old y = packets eouts /\
   (forall now, at_moment too_old now -> too_late (c_clock c) (r_now slick_coins) (Some 5%Z) now) /\
   heard y = [(false, Raised (TimestampExpired 1)); (true, Raised (TimestampExpired 2))]).
Proof.
  destruct (slick256 [x61] 13) as [c|] eqn:E; [|vm_compute in E; discriminate].
  pose proof (shipped_streaming toy [x61] 13 c toy_xof eq_refl (or_introl E)) as SG.
  vm_compute in E. apply Ok_inj in E. subst c.
  eexists _, _, _, _, _, _. split; [reflexivity|]. split; [vm_compute; reflexivity|].
  split; [constructor; try reflexivity; split; vm_compute; congruence|]. split; [exact SG|].
  split; [vm_compute; reflexivity|]. split; [vm_compute; reflexivity|].
  split; [unfold finished; cbn [combine some_eops]; do 4 right; now left|].
  split; [vm_compute; reflexivity|]. split; [reflexivity|]. split; [reflexivity|]. split; [vm_compute; reflexivity|].
  split; [unfold undisturbed, some_receipt; repeat constructor|]. split; [unfold undisturbed, too_old; repeat constructor|].
  split; cbv zeta.
  - match goal with |- _ /\ read_to_the_end ?y /\ _ =>
      assert (Hh : heard y = [(false, Stop); (true, Plain [x68; x69]); (true, Stop)]) by (vm_compute; reflexivity);
      assert (Hr : readers y = [RIdle]) by (vm_compute; reflexivity) end.
    split; [vm_compute; reflexivity|]. split; [|split; [|split]].
    + unfold read_to_the_end. rewrite Hh. split; [right; right; now left|].
      intros e [J|[J|[J|[]]]]; discriminate.
    + unfold at_rest. rewrite Hr. repeat constructor.
    + vm_compute. reflexivity.
    + exact Hh.
  - split; [vm_compute; reflexivity|]. split; [|vm_compute; reflexivity].
    intros now (j & J). assert (now = later 6 \/ now = later 7) as [-> | ->].
    { unfold too_old in J. destruct J as [J|[J|J]]; repeat (destruct J as [J|J]; [try discriminate; injection J; auto|]); destruct J. }
    all: exists 5%Z; (split; [reflexivity|]); vm_compute; reflexivity.
Qed.
