(** * The stream's clock checks and the completion of genuine streams *)
From Coq Require Import ZArith Lia ZifyBool ZifyNat ZifyN.
From Verif Require Import Base BaseFacts CanonModel ClockModel ClockProofs GentoolsModel GentoolsProofs CipherModel
  CipherSpec CipherProofs SessionProofs StreamModel StreamSpec StreamProofs StreamOpenProofs
  StreamPairProofs StreamHistoryProofs.
Local Open Scope N_scope.

Section Times.
Variable H : hasher.
Variable c : cfg.
Hypothesis XL : forall m n, blen (h_digest H m n) = n.
Hypothesis VC : valid_cfg H c.
Hypothesis VI : valid_ids c.
Variables (r : coins) (e d : session) (start : bytes).
Hypothesis VR : valid_coins c r.
Hypothesis Hstart : start_padding c (r_now r) (r_siv r) = Ok start.
Hypothesis Lstart : blen start = inner_header_bytes c.
Hypothesis Ts : c_timestamp_bytes c <= c_blocksize c.

Lemma stamp : exists ts, make_timestamp (c_clock c) (r_now r) (c_timestamp_bytes c) BigEndian = Ok ts /\
  take (c_timestamp_bytes c) start = ts /\ c_timestamp_bytes c <= blen start.
Proof.
  unfold start_padding in Hstart. apply bind_ok in Hstart as (ts & E & X). apply Ok_inj in X. subst start.
  exists ts. split; [exact E|].
  assert (L : blen ts = c_timestamp_bytes c).
  { unfold make_timestamp in E. apply z_to_bytes_ok in E as (_ & L & _). exact L. }
  split; [now rewrite take_app|]. rewrite blen_app. lia.
Qed.

Lemma first_block P1 P2 data st out dst :
  enc_inv H c e d start (r_extra r) data (P1 ++ P2) st -> dec_inv H c d P1 out dst ->
  P1 <> [] -> ds_streaming dst = false ->
  exists q l, ds_queue dst = q :: l /\ take (c_timestamp_bytes c) q = take (c_timestamp_bytes c) start.
Proof.
  intros [(pbs & ss & Fp & T & L & X & First & (ds & Ac & Cd & Fd) & Ln & Ph)]
         [(pts & ss' & out0 & Ac' & Fp' & L' & X' & CI & F & Ph')] Ne S.
  destruct (ci_fresh _ _ _ _ CI S) as (_ & _ & Eq).
  destruct (accepts_app _ _ _ _ _ _ _ _ Ac) as (p1 & p2 & dd & -> & A1 & A2).
  destruct (accepts_det _ _ _ _ _ _ _ A1 _ _ Ac') as [-> ->].
  destruct stamp as (ts & _ & _ & Lt).
  assert (Q : exists a b, start ++ a = concat pts ++ b).
  { pose proof (blocksize_pos H c VC) as Bp. destruct (cs_phase st).
    - destruct Ph as (_ & _ & init & lst & Eb & _ & Et).
      exists data, (concat p2 ++ concat (cs_buffer st)). rewrite <- Et, concat_app, <- app_assoc. reflexivity.
    - destruct Ph as (_ & end_ & Ee & Eb). exists (data ++ end_), (concat p2 ++ concat (cs_buffer st)).
      rewrite <- (batch_concat (c_blocksize c) (start ++ data ++ end_)) by exact Bp.
      rewrite <- Eb, !concat_app, <- app_assoc. reflexivity.
    - destruct Ph as (_ & (end_ & Ee & Eb) & _). exists (data ++ end_), (concat p2).
      rewrite <- (batch_concat (c_blocksize c) (start ++ data ++ end_)) by exact Bp.
      rewrite <- Eb, !concat_app. reflexivity. }
  destruct Q as (a & b & Eab).
  destruct pts as [|q l]. { inversion Ac'; subst. congruence. }
  exists q, l. split; [exact Eq|]. inversion Fp'; subst. cbn [concat] in Eab.
  rewrite <- (take_app_le _ start a) by exact Lt. rewrite Eab, <- app_assoc.
  symmetry. apply take_app_le. lia.
Qed.

Lemma in_time now ttl ts : make_timestamp (c_clock c) (r_now r) (c_timestamp_bytes c) BigEndian = Ok ts ->
  ~ too_late (c_clock c) (r_now r) ttl now ->
  exists u, test_timestamp (c_clock c) now ts ttl BigEndian = Ok u.
Proof.
  intros E N. pose proof (test_timestamp_opened (c_clock c) (r_now r) now _ ts ttl [] E) as T.
  unfold opened in T. destruct ttl as [l|].
  - destruct (Z.leb_spec (clock_time (c_clock c) now - clock_time (c_clock c) (r_now r)) l).
    + apply bind_ok in T as (u & T & _). eauto.
    + exfalso. apply N. exists l. split; [reflexivity|lia].
  - apply bind_ok in T as (u & T & _). eauto.
Qed.
Lemma not_in_time now ttl ts : make_timestamp (c_clock c) (r_now r) (c_timestamp_bytes c) BigEndian = Ok ts ->
  too_late (c_clock c) (r_now r) ttl now ->
  exists n, test_timestamp (c_clock c) now ts ttl BigEndian = Err (TimestampExpired n).
Proof.
  intros E (l & -> & N). pose proof (test_timestamp_opened (c_clock c) (r_now r) now _ ts (Some l) [] E) as T.
  unfold opened in T.
  destruct (Z.leb_spec (clock_time (c_clock c) now - clock_time (c_clock c) (r_now r)) l); [lia|].
  destruct (test_timestamp _ _ _ _ _) as [u|x]; [discriminate|]. cbn in T. injection T as ->. eauto.
Qed.

(** All of a closed sender's packets: the first step of [finalize] goes well. *)
Lemma whole_completes now ttl data P st out dst :
  enc_inv H c e d start (r_extra r) data P st -> cs_phase st = Closed ->
  dec_inv H c d P out dst -> ds_phase dst = DOpen ->
  (ds_streaming dst = true \/ ~ too_late (c_clock c) (r_now r) ttl now) ->
  exists n outs st', ds_run H c ttl (repeat (DFinal now) (S n)) dst = (outs ++ [Stop], st') /\
    ds_phase st' = DDone /\ Forall (fun o => exists q, o = Plain q) outs.
Proof.
  intros EI Pc DI Pd Hs. pose proof EI as EI0. pose proof DI as DI0.
  destruct EI0 as [(pbs & ss & Fp & T & L & X & First & (ds & Ac & Cd & Fd) & Ln & Ph)].
  destruct DI0 as [(pts & ss' & out0 & Ac' & Fp' & L' & X' & CI & F & Ph')].
  rewrite Pc in Ph. destruct Ph as (_ & (end_ & Ee & Ep) & _).
  rewrite Pd in Ph'. destruct Ph' as [_ ->].
  destruct (accepts_det _ _ _ _ _ _ _ Ac _ _ Ac') as [-> ->].
  pose proof (blocksize_pos H c VC) as Bp.
  assert (Le : 0 < blen end_).
  { apply (end_bound H c XL VC r [] VR eq_refl start Lstart data end_ Ee). }
  assert (Cp : concat pts = start ++ data ++ end_) by (rewrite Ep; now apply batch_concat).
  assert (Lp : inner_header_bytes c < blen (concat pts)) by (rewrite Cp, !blen_app; lia).
  assert (Ne : P <> []).
  { intros ->. assert (Z0 : pts = []) by (inversion Ac; auto). rewrite Z0 in Lp. cbn [concat] in Lp. rewrite (@blen_nil byte) in Lp. lia. }
  assert (Pr : fst (ds_prologue c now ttl dst) = None).
  { unfold ds_prologue. destruct (ds_streaming dst) eqn:S.
    - destruct (trim_queue _ _). reflexivity.
    - destruct Hs as [|Hs]; [discriminate|].
      rewrite <- (app_nil_r P) in EI. destruct (first_block P [] data st out0 dst EI DI Ne S) as (q & l & Eq & Et).
      destruct stamp as (ts & Mt & Ets & _). destruct (in_time now ttl ts Mt Hs) as (u & U).
      rewrite Eq, Et, Ets, U. destruct (trim_queue _ _). reflexivity. }
  apply (open_done H c XL VC d ttl now P out0 dst DI Pd Pr).
  destruct (ds_prologue c now ttl dst) as [oe st1] eqn:Ep1. cbn [fst snd] in *. subst oe.
  destruct (prologue_ok H c XL VC _ _ _ _ _ _ _ CI Ep1) as (CI1 & _ & Z & _).
  destruct (Z eq_refl) as [_ Z']. destruct CI1 as [[Q1 Q2 Q3 Q4 Q5 Q6 Q7] _ _].
  intros Eq. rewrite Eq in *. cbn [concat] in Q3. rewrite app_nil_r in Q3.
  destruct out0 as [|y o] eqn:Eo.
  - assert (G : blen (drop (inner_header_bytes c - ds_trim st1) (concat pts)) = 0) by (rewrite <- Q3; reflexivity).
    rewrite blen_drop in G. lia.
  - destruct Q7 as [_ Q7]; [discriminate|]. unfold min_stream_queue, blen in Q7. cbn in Q7. lia.
Qed.

(** Genuine packets, whose age is checked once they are there. *)
Lemma late_releases_nothing ttl data P1 P2 st out dst ops outs dst' :
  enc_inv H c e d start (r_extra r) data (P1 ++ P2) st -> dec_inv H c d P1 out dst -> P1 <> [] ->
  ds_streaming dst = false -> ds_iterating dst = false -> ds_phase dst = DOpen ->
  (forall o now, In o ops -> moment o = Some now -> too_late (c_clock c) (r_now r) ttl now) ->
  ds_run H c ttl ops dst = (outs, dst') -> released outs = [].
Proof.
  intros EI DI Ne S It Pd Late R.
  destruct (first_block P1 P2 data st out dst EI DI Ne S) as (q & l & Eq & Et).
  destruct stamp as (ts & Mt & Ets & _).
  apply (late_run H c ttl ts ops dst outs dst' S It (or_introl Pd)); [exists q, l; split; congruence| |exact R].
  intros o now I M. apply not_in_time; [exact Mt|]. eauto.
Qed.
(** The same from the beginning, provided that nobody asked for output before there was
    any. *)
Lemma late_from_start ttl data P2 st : forall ops dst outs dst', dec_inv H c d [] [] dst -> ds_phase dst = DOpen ->
  ds_streaming dst = false -> ds_iterating dst = false ->
  enc_inv H c e d start (r_extra r) data (accepted c ops outs ++ P2) st ->
  (forall o now, In o ops -> moment o = Some now -> too_late (c_clock c) (r_now r) ttl now) ->
  ~ In (Raised IndexErr) outs -> ds_run H c ttl ops dst = (outs, dst') -> released outs = [].
Proof.
  assert (Failed : forall ops dst outs dst', ds_phase dst = DFailed -> ds_streaming dst = false -> ds_queue dst = [] ->
    ds_iterating dst = false -> ~ In (Raised IndexErr) outs -> ds_run H c ttl ops dst = (outs, dst') -> released outs = []).
  { induction ops as [|o ops IH]; intros dst outs dst' F S Q It Ni R; [cbn in R; injection R as <- _; reflexivity|].
    cbn [ds_run] in R. destruct (ds_step H c ttl o dst) as [o' st1] eqn:E.
    destruct (ds_run H c ttl ops st1) as [outs1 st2] eqn:R1. injection R as <- <-.
    assert (Same : o' <> Raised IndexErr -> released [o'] = [] /\ st1 = dst).
    { intros No. destruct o as [p|now| |now|now]; cbn [ds_step] in E.
      - unfold ds_feed in E. destruct (_ || _); [injection E as <- <-; auto|]. rewrite F in E. injection E as <- <-. auto.
      - unfold ds_next, ds_prologue in E. rewrite S, Q in E. injection E as <- <-. now destruct No.
      - unfold ds_more in E. rewrite It in E. injection E as <- <-. auto.
      - unfold ds_finalize in E. rewrite F in E. injection E as <- <-. auto.
      - rewrite F in E. injection E as <- <-. auto. }
    destruct Same as [S1 ->]; [intros ->; apply Ni; now left|].
    assert (X : released outs1 = []) by (apply (IH dst outs1 st2); auto; intros X; apply Ni; now right).
    destruct o'; cbn in *; try exact X. now rewrite app_nil_r in S1; subst. }
  induction ops as [|o ops IH]; intros dst outs dst' DI Po S It EI Late Ni R; [cbn in R; injection R as <- _; reflexivity|].
  cbn [ds_run] in R. destruct (ds_step H c ttl o dst) as [o' st1] eqn:E.
  destruct (ds_run H c ttl ops st1) as [outs1 st2] eqn:R1. injection R as <- <-.
  assert (Q : ds_queue dst = []).
  { destruct DI as [(pts & ss & out0 & Ac & _ & _ & _ & CI & _)]. inversion Ac; subst. now apply (ci_fresh _ _ _ _ CI S). }
  assert (Ni1 : ~ In (Raised IndexErr) outs1) by (intros X; apply Ni; now right).
  assert (No : o' <> Raised IndexErr) by (intros ->; apply Ni; now left).
  assert (Late1 : forall o now, In o ops -> moment o = Some now -> too_late (c_clock c) (r_now r) ttl now).
  { intros o1 now J. apply Late. now right. }
  assert (R0 : ds_run H c ttl [o] dst = ([o'], st1)) by (cbn [ds_run]; now rewrite E).
  pose proof (drun_inv H c XL VC VI d ttl [o] [] [] dst [o'] st1 DI R0) as D1. cbn [app accepted] in D1. rewrite app_nil_r in D1.
  cbn [accepted] in EI.
  assert (Go : released [o'] = [] -> ds_streaming st1 = false -> ds_iterating st1 = false -> ds_phase st1 = DOpen ->
    released outs1 = []).
  { intros Z S1 I1 P1. rewrite Z in D1. destruct (taken c o o') as [|t0 ts] eqn:Ta.
    - eapply IH; eauto.
    - rewrite <- app_assoc in EI.
      eapply (late_releases_nothing ttl data (t0 :: ts) (accepted c ops outs1 ++ P2)); eauto. discriminate. }
  assert (Split : released (o' :: outs1) = released [o'] ++ released outs1).
  { destruct o'; cbn; now rewrite ?app_nil_r. }
  assert (Fin : forall now, ds_finalize H c now ttl dst = (o', st1) -> released (o' :: outs1) = []).
  { intros now Ef. unfold ds_finalize in Ef. rewrite Po in Ef. destruct (ds_session dst) as [b s].
    destruct (finalize H c b s) as [[t s']|e0].
    - unfold ds_prologue in Ef. cbn [ds_streaming ds_queue] in Ef. rewrite S, Q in Ef. injection Ef as <- _. now destruct No.
    - injection Ef as <- <-. cbn [released]. eapply (Failed ops _ _ _ _ _ _ _ Ni1 R1). Unshelve. all: cbn; auto. }
  destruct o as [p|now| |now|now]; cbn [ds_step] in E.
  - unfold ds_feed in E. rewrite Split. destruct (_ || _).
    + injection E as <- <-. now rewrite Go.
    + rewrite Po in E. destruct (digest_frame H c _ _ _ _ _ E) as (A1 & A2 & A3 & _ & A5).
      rewrite A5, Go; auto; congruence.
  - unfold ds_next, ds_prologue in E. rewrite S, Q in E. injection E as <- _. now destruct No.
  - unfold ds_more in E. rewrite It in E. injection E as <- <-. rewrite Split, Go; auto.
  - exact (Fin now E).
  - rewrite Po in E. exact (Fin now E).
Qed.
End Times.
