(** * Histories of the streams *)
From Coq Require Import ZArith.
From Verif Require Import Base BaseFacts CanonModel CanonSpec PermModel ClockModel GentoolsModel
  GentoolsSpec GentoolsProofs CipherModel CipherSpec CipherProofs SessionProofs BindingProofs
  StreamModel StreamSpec StreamProofs StreamOpenProofs StreamPairProofs.
Local Open Scope N_scope.

Section Streams.
Variable H : hasher.
Variable c : cfg.
Hypothesis XL : forall m n, blen (h_digest H m n) = n.
Hypothesis VC : valid_cfg H c.
Hypothesis VI : valid_ids c.
Local Notation bs := (c_blocksize c).
Local Notation bid := (c_block_id_bytes c).
Local Notation ih := (inner_header_bytes c).
Local Notation ps := (packetsize c).
Local Notation minq := (min_stream_queue c).

(** ** The encrypting side *)
Section Enc.
Variables (e0 d0 : session) (start : bytes) (r : coins).
Hypothesis L0 : live H c e0.
Hypothesis C0 : core e0 = core d0.
Hypothesis ME : s_mode (snd e0) = Some Encryption.
Hypothesis MD : s_mode (snd d0) = Some Decryption.
Hypothesis VR : valid_coins c r.
Hypothesis Ls : blen start = inner_header_bytes c.
Local Notation extra := (r_extra r).
Local Notation inv := (enc_inv H c e0 d0 start extra).

Lemma closed_stays : forall ops data out st outs st', inv data out st -> cs_phase st = Closed ->
  cs_run H c extra ops st = (outs, st') -> cs_phase st' = Closed.
Proof.
  induction ops as [|o ops IH]; intros data out st outs st' I P R.
  - cbn in R. injection R as _ <-. exact P.
  - cbn [cs_run] in R.
    destruct (step_inv H c XL VC VI e0 d0 start r ME MD VR Ls o data out st I) as (o' & st1 & E & I1 & Cs).
    rewrite E in R. destruct (cs_run H c extra ops st1) as [outs1 st2] eqn:R1. injection R as _ <-.
    eapply IH; [exact I1| |exact R1]. rewrite P in Cs.
    destruct o; (destruct Cs as [? Cs]; congruence).
Qed.

Lemma finished_closed : forall ops data out st outs st', inv data out st ->
  cs_run H c extra ops st = (outs, st') -> finished ops outs -> cs_phase st' = Closed.
Proof.
  induction ops as [|o ops IH]; intros data out st outs st' I R F.
  - cbn in R. injection R as <- <-. destruct F.
  - cbn [cs_run] in R.
    destruct (step_inv H c XL VC VI e0 d0 start r ME MD VR Ls o data out st I) as (o' & st1 & E & I1 & Cs).
    rewrite E in R. destruct (cs_run H c extra ops st1) as [outs1 st2] eqn:R1. injection R as <- <-.
    destruct F as [F|F].
    + injection F as -> ->. eapply closed_stays; [exact I1| |exact R1].
      destruct (cs_phase st) eqn:P.
      * destruct Cs as [(? & ? & ? & _)|[_ Cs]]; [discriminate|exact Cs].
      * destruct Cs as [(? & ? & ? & _)|[_ Cs]]; [discriminate|exact Cs].
      * destruct Cs as [_ ->]. exact P.
    + eapply IH; eauto.
Qed.

(** What each call may show. *)
Definition allowed (o : eop) (out : outcome) : Prop :=
  match o with
  | EFeed _ => out = Done \/ out = Hangs \/ out = Raised CipherStreamIsClosed
  | ENext | EFinal => (exists i b, out = Packet i b) \/ out = Stop
  | EFinalAgain => (exists i b, out = Packet i b) \/ out = Stop \/ out = Raised CipherStreamIsClosed
  end.
Lemma run_allowed : forall ops data out st outs st', inv data out st ->
  cs_run H c extra ops st = (outs, st') -> forall o o', In (o, o') (combine ops outs) -> allowed o o'.
Proof.
  induction ops as [|o ops IH]; intros data out st outs st' I R o2 o2' F.
  - cbn in R. injection R as <- <-. destruct F.
  - cbn [cs_run] in R.
    destruct (step_inv H c XL VC VI e0 d0 start r ME MD VR Ls o data out st I) as (o' & st1 & E & I1 & Cs).
    rewrite E in R. destruct (cs_run H c extra ops st1) as [outs1 st2] eqn:R1. injection R as <- <-.
    destruct F as [F|F]; [|eapply IH; eauto]. injection F as <- <-.
    destruct o, (cs_phase st); cbn [allowed];
      repeat match goal with
             | H : _ /\ _ |- _ => destruct H
             | H : _ \/ _ |- _ => destruct H
             | H : ex _ |- _ => destruct H
             end; subst; eauto.
Qed.

(** Until the finalization, feeding works. *)
Lemma open_feeds : forall ops data out st outs st', inv data out st -> cs_phase st = Open ->
  Forall (fun o => match o with EFinal | EFinalAgain => False | _ => True end) ops ->
  cs_run H c extra ops st = (outs, st') ->
  cs_phase st' = Open /\ forall d o', In (EFeed d, o') (combine ops outs) -> o' = Done.
Proof.
  induction ops as [|o ops IH]; intros data out st outs st' I P F R.
  - cbn in R. injection R as <- <-. split; [exact P|]. intros ? ? [].
  - cbn [cs_run] in R. apply Forall_cons_iff in F as [F1 F2].
    destruct (step_inv H c XL VC VI e0 d0 start r ME MD VR Ls o data out st I) as (o' & st1 & E & I1 & Cs).
    rewrite E in R. destruct (cs_run H c extra ops st1) as [outs1 st2] eqn:R1. injection R as <- <-.
    rewrite P in Cs.
    assert (P1 : cs_phase st1 = Open) by (destruct o; try contradiction; now destruct Cs).
    destruct (IH _ _ _ _ _ I1 P1 F2 R1) as [P2 Q]. split; [exact P2|].
    intros d o2 [G|G]; [|eauto]. injection G as -> <-. now destruct Cs.
Qed.
End Enc.

(** ** The decrypting side *)
Section Dec.
Variable d0 : session.
Variable ttl : option Z.
Local Notation inv := (dec_inv H c d0).

Lemma prologue_error now st e : fst (ds_prologue c now ttl st) = Some e -> e <> CipherStreamIsClosed.
Proof.
  unfold ds_prologue. destruct (ds_streaming st).
  - destruct (trim_queue _ _). discriminate.
  - destruct (ds_queue st) as [|q qu]; [intros E; injection E as <-; discriminate|].
    unfold test_timestamp. destruct ttl as [l|].
    + destruct (_ >? _)%Z; [|destruct (trim_queue _ _); discriminate].
      intros E. injection E as <-. discriminate.
    + destruct (trim_queue _ _); discriminate.
Qed.

Lemma unfinalized_open : forall ops acc out st outs st', inv acc out st -> ds_phase st = DOpen ->
  unfinalized ops -> ds_run H c ttl ops st = (outs, st') -> ds_phase st' = DOpen.
Proof.
  induction ops as [|o ops IH]; intros acc out st outs st' I P U R.
  - cbn in R. injection R as _ <-. exact P.
  - cbn [ds_run] in R. apply Forall_cons_iff in U as [U1 U2].
    destruct (dstep_inv H c XL VC VI d0 ttl o acc out st I) as (o' & st1 & E & I1).
    rewrite E in R. destruct (ds_run H c ttl ops st1) as [outs1 st2] eqn:R1. injection R as _ <-.
    eapply IH; [exact I1| |exact U2|exact R1].
    destruct o as [d|now| |now|now]; cbn [ds_step] in E; try (exfalso; apply U1; exact Logic.I).
    + destruct (feed_inv H c XL VC VI d0 d acc out st I) as (o2 & st2' & E2 & _ & Cs & _).
      rewrite E in E2. injection E2 as <- <-. rewrite P in Cs.
      destruct (_ || _); destruct Cs; congruence.
    + destruct (next_inv H c XL VC d0 ttl now acc out st I) as (o2 & st2' & E2 & _ & Cs & _).
      rewrite E in E2. injection E2 as <- <-. congruence.
    + destruct (more_inv H c XL VC d0 ttl acc out st I) as (o2 & st2' & E2 & _ & Cs & _).
      rewrite E in E2. injection E2 as <- <-. congruence.
Qed.

(** A step never leaves the ended phases, and fails only with an error. *)
Lemma dstep_phase o acc out st o' st' : inv acc out st -> ds_step H c ttl o st = (o', st') ->
  (ds_phase st = DDone -> ds_phase st' = DDone) /\
  (ds_phase st <> DFailed -> ds_phase st' = DFailed ->
     finalizes o /\ exists e, o' = Raised e /\ e <> CipherStreamIsClosed) /\
  (ds_phase st <> DFailed -> (exists now, o = DFinal now) -> o' = Stop -> ds_phase st' = DDone).
Proof.
  intros I E.
  assert (Fin : forall now, ds_finalize H c now ttl st = (o', st') ->
    (ds_phase st = DDone -> ds_phase st' = DDone) /\
    (ds_phase st <> DFailed -> ds_phase st' = DFailed -> exists e, o' = Raised e /\ e <> CipherStreamIsClosed) /\
    (ds_phase st <> DFailed -> o' = Stop -> ds_phase st' = DDone)).
  { intros now Ef. destruct (final_inv H c XL VC d0 ttl now acc out st I) as (o2 & st2 & E2 & _ & Cs).
    rewrite Ef in E2. injection E2 as <- <-.
    destruct (ds_phase st) as [| |rest| |] eqn:P.
    - split; [discriminate|]. destruct Cs as [(e & Pr & -> & P')|(Pr & Cs)].
      + split; [|discriminate]. intros _ _. exists e. split; [reflexivity|]. eapply prologue_error; eauto.
      + destruct Cs as [(_ & -> & P')|[(q & -> & [P'|[rest P']])|[-> P']]];
          (split; [intros _ Pf|intros _ St]; try congruence).
        exists IndexErr. split; [reflexivity|discriminate].
    - split; [discriminate|].
      destruct Cs as [(_ & -> & P')|[(q & -> & P' & _)|[(q & rest & -> & P')|[-> P']]]];
          (split; [intros _ Pf|intros _ St]; try congruence).
        exists IndexErr. split; [reflexivity|discriminate].
    - split; [discriminate|].
      destruct Cs as [(x & rest' & -> & -> & P')|(-> & -> & P')];
          (split; [intros _ Pf|intros _ St]; congruence).
    - destruct Cs as [-> ->]. split; [auto|]. split; [congruence|auto].
    - destruct Cs as [-> ->]. split; [congruence|]. split; congruence. }
  destruct o as [d|now| |now|now]; cbn [ds_step] in E.
  - destruct (feed_inv H c XL VC VI d0 d acc out st I) as (o2 & st2' & E2 & _ & Cs & _).
    rewrite E in E2. injection E2 as <- <-.
    destruct (ds_phase st) eqn:P.
    + destruct (_ || _); [destruct Cs as [-> ->]|destruct Cs as [P' _]].
      * split; [congruence|]. split; [congruence|]. intros _ [? ?]; discriminate.
      * split; [discriminate|]. split; [congruence|]. intros _ [? ?]; discriminate.
    + destruct Cs as [-> _]. rewrite P. split; [congruence|]. split; [congruence|]. intros _ [? ?]; discriminate.
    + destruct Cs as [-> _]. rewrite P. split; [congruence|]. split; [congruence|]. intros _ [? ?]; discriminate.
    + destruct Cs as [-> _]. rewrite P. split; [congruence|]. split; [congruence|]. intros _ [? ?]; discriminate.
    + destruct Cs as [-> _]. rewrite P. split; [congruence|]. split; [congruence|]. intros _ [? ?]; discriminate.
  - destruct (next_inv H c XL VC d0 ttl now acc out st I) as (o2 & st2' & E2 & _ & Cs & _).
    rewrite E in E2. injection E2 as <- <-. rewrite Cs. split; [congruence|]. split; [congruence|].
    intros _ [? ?]; discriminate.
  - destruct (more_inv H c XL VC d0 ttl acc out st I) as (o2 & st2' & E2 & _ & Cs & _).
    rewrite E in E2. injection E2 as <- <-. rewrite Cs. split; [congruence|]. split; [congruence|].
    intros _ [? ?]; discriminate.
  - destruct (Fin now E) as (F1 & F2 & F3). split; [exact F1|]. split; [|auto].
    intros A B. split; [exact Logic.I|auto].
  - destruct (ds_phase st) eqn:P; try (injection E as <- <-; rewrite P; split; [congruence|]; split; [congruence|];
      intros _ [? ?]; discriminate).
    destruct (Fin now E) as (F1 & F2 & F3). split; [exact F1|]. split.
    + intros A B. split; [exact Logic.I|auto].
    + intros _ [? ?]; discriminate.
Qed.

Lemma done_stays : forall ops acc out st outs st', inv acc out st -> ds_phase st = DDone ->
  ds_run H c ttl ops st = (outs, st') -> ds_phase st' = DDone.
Proof.
  induction ops as [|o ops IH]; intros acc out st outs st' I P R.
  - cbn in R. injection R as _ <-. exact P.
  - cbn [ds_run] in R.
    destruct (dstep_inv H c XL VC VI d0 ttl o acc out st I) as (o' & st1 & E & I1).
    rewrite E in R. destruct (ds_run H c ttl ops st1) as [outs1 st2] eqn:R1. injection R as _ <-.
    eapply IH; [exact I1| |exact R1]. destruct (dstep_phase _ _ _ _ _ _ I E) as [F _]. auto.
Qed.
Lemma completed_done : forall ops acc out st outs st', inv acc out st -> ds_phase st <> DFailed ->
  ds_run H c ttl ops st = (outs, st') -> completed ops outs -> ds_phase st' = DDone.
Proof.
  induction ops as [|o ops IH]; intros acc out st outs st' I P R [[now F] G].
  - cbn in R. injection R as <- <-. destruct F.
  - cbn [ds_run] in R.
    destruct (dstep_inv H c XL VC VI d0 ttl o acc out st I) as (o' & st1 & E & I1).
    rewrite E in R. destruct (ds_run H c ttl ops st1) as [outs1 st2] eqn:R1. injection R as <- <-.
    destruct (dstep_phase _ _ _ _ _ _ I E) as (F1 & F2 & F3).
    destruct F as [F|F].
    + injection F as -> ->. eapply done_stays; [exact I1| |exact R1]. eauto.
    + eapply IH; [exact I1| |exact R1|].
      * intros Pf. destruct (F2 P Pf) as (Fo & e & -> & Ne). apply Ne. eapply G; [left; reflexivity|exact Fo].
      * split; [eauto|]. intros o2 e2 J. eapply G. right. exact J.
Qed.

(** ** Genuine packets are accepted *)
Lemma genuine_digest : forall G fuel f dd pts d2 st, accepts H c f dd G pts d2 ->
  ds_first st = f -> ds_session st = dd -> (length (concat (map wire G)) <= fuel)%nat ->
  exists st', ds_digest H c fuel (concat (map wire G)) st = (Done, st').
Proof.
  induction G as [|[i ct] G IH]; intros fuel f dd pts d2 st A Ef Es Lf.
  - exists st. cbn [map concat]. destruct fuel; [reflexivity|]. cbn [ds_digest].
    replace (take bid []) with (@nil byte) by (rewrite take_firstn; now rewrite firstn_nil). reflexivity.
  - inversion A as [|? ? ? ? pt d1 ? pts' ? B1 B2 B3 B4 B5]; subst.
    cbn [map concat] in *. unfold wire at 1 in Lf. unfold wire at 1. cbn [fst snd] in *.
    rewrite <- app_assoc in *.
    destruct fuel as [|fuel].
    { pose proof (bid_pos c VI). rewrite !app_length in Lf. unfold blen in B1. lia. }
    cbn [ds_digest]. rewrite take_app, drop_app, (take_app bs), (drop_app bs) by assumption.
    assert (exists z zs, i = z :: zs) as (z & zs & Ez).
    { destruct i as [|z zs]; [|eauto]. pose proof (bid_pos c VI). rewrite (@blen_nil byte) in B1. lia. }
    unfold test_next_block_id. rewrite (block_id_size H c XL VI), B3 by assumption. cbn [bind].
    rewrite bytes_eqb_refl, B4.
    rewrite Ez. eapply IH; [exact B5|reflexivity|reflexivity|].
    rewrite !app_length in Lf. rewrite Ez in Lf. cbn [length] in Lf. lia.
Qed.

Lemma wires_len G : Forall (fun p => blen (fst p) = bid /\ blen (snd p) = bs) G ->
  blen (concat (map wire G)) = N.of_nat (length G) * ps.
Proof.
  induction 1 as [|[i b] G [Li Lb] F IH]; [reflexivity|]. cbn [map concat length]. unfold wire at 1.
  cbn [fst snd] in *. rewrite !blen_app, IH, Li, Lb. unfold packetsize. lia.
Qed.
Lemma accepts_sizes f d o p d1 : accepts H c f d o p d1 ->
  Forall (fun p => blen (fst p) = bid /\ blen (snd p) = bs) o.
Proof. induction 1; constructor; auto. Qed.
Lemma parse_wires G : Forall (fun p => blen (fst p) = bid /\ blen (snd p) = bs) G ->
  parse c (concat (map wire G)) = G.
Proof.
  induction 1 as [|[i b] G [Li Lb] F IH]; [apply (parse_nil c)|]. cbn [map concat]. unfold wire at 1.
  cbn [fst snd] in *. rewrite <- app_assoc, (parse_cons H c XL VC) by assumption. now rewrite IH.
Qed.

Lemma genuine_feed G pts d2 acc p1 d1 out st :
  inv acc out st -> ds_phase st = DOpen -> accepts H c true d0 acc p1 d1 ->
  accepts H c (match acc with [] => true | _ => false end) d1 G pts d2 -> G <> [] ->
  exists st', ds_feed H c (concat (map wire G)) st = (Done, st') /\
    taken c (DFeed (concat (map wire G))) Done = G.
Proof.
  intros I P Ac Ag Ne. pose proof I as [(pts' & ss & out0 & Ac' & _ & _ & _ & _ & F & Ph)].
  rewrite P in Ph. destruct Ph as [Es _].
  destruct (accepts_det H c _ _ _ _ _ Ac _ _ Ac') as [<- <-].
  pose proof (wires_len G (accepts_sizes _ _ _ _ _ Ag)) as Lw.
  pose proof (ps_pos H c VC) as Pp.
  unfold ds_feed. rewrite Lw, N.mod_mul by lia.
  match goal with |- context [if ?x || _ then _ else _] => replace x with false end.
  2:{ symmetry. apply N.eqb_neq. destruct G; [congruence|]. cbn [length]. lia. }
  cbn [orb negb N.eqb]. rewrite P.
  destruct (genuine_digest G (length (concat (map wire G))) _ _ _ _ st Ag F Es (Nat.le_refl _)) as [st' E].
  exists st'. split; [exact E|]. cbn [taken]. apply parse_wires. eapply accepts_sizes; eauto.
Qed.

(** ** The finalization comes to an end *)
Lemma tail_done now : forall rest acc out st, inv acc out st -> ds_phase st = DTail rest ->
  exists n outs st', ds_run H c ttl (repeat (DFinal now) (S n)) st = (outs ++ [Stop], st') /\
    ds_phase st' = DDone /\ Forall (fun o => exists q, o = Plain q) outs.
Proof.
  induction rest as [|x rest IH]; intros acc out st I P.
  - destruct (final_inv H c XL VC d0 ttl now acc out st I) as (o & st' & E & I' & Cs). rewrite P in Cs.
    destruct Cs as [(? & ? & ? & _)|(_ & -> & P')]; [discriminate|].
    exists 0%nat, [], st'. cbn [repeat ds_run ds_step]. rewrite E. auto.
  - destruct (final_inv H c XL VC d0 ttl now acc out st I) as (o & st' & E & I' & Cs). rewrite P in Cs.
    destruct Cs as [(y & rest' & Eq & -> & P')|(? & _)]; [|discriminate]. injection Eq as <- <-.
    destruct (IH _ _ _ I' P') as (n & outs & st2 & R & P2 & Fo).
    exists (S n), (Plain x :: outs), st2. split; [|split; [exact P2|constructor; eauto]].
    change (repeat (DFinal now) (S (S n))) with (DFinal now :: repeat (DFinal now) (S n)).
    cbn [ds_run ds_step]. rewrite E. cbn [ds_step]. cbn [ds_run ds_step] in R. rewrite R. reflexivity.
Qed.
Lemma iter_done now : forall k acc out st, inv acc out st -> ds_phase st = DIter ->
  length (ds_queue st) = k ->
  exists n outs st', ds_run H c ttl (repeat (DFinal now) (S n)) st = (outs ++ [Stop], st') /\
    ds_phase st' = DDone /\ Forall (fun o => exists q, o = Plain q) outs.
Proof.
  induction k as [|k IH]; intros acc out st I P K.
  - exfalso. pose proof I as [(pts & ss & out0 & _ & _ & _ & _ & _ & _ & Ph)]. rewrite P in Ph.
    destruct Ph as (_ & _ & _ & _ & Ne). destruct (ds_queue st); [congruence|discriminate].
  - destruct (final_inv H c XL VC d0 ttl now acc out st I) as (o & st' & E & I' & Cs). rewrite P in Cs.
    destruct Cs as [(Q & _)|[(q & -> & P' & Qq)|[(q & rest & -> & P')|[-> P']]]].
    + rewrite Q in K. discriminate.
    + destruct (IH _ _ st' I' P') as (n & outs & st2 & R & P2 & Fo); [rewrite Qq in K; cbn in K; lia|].
      exists (S n), (Plain q :: outs), st2. split; [|split; [exact P2|constructor; eauto]].
      change (repeat (DFinal now) (S (S n))) with (DFinal now :: repeat (DFinal now) (S n)).
      cbn [ds_run ds_step]. rewrite E. cbn [ds_step]. cbn [ds_run ds_step] in R. rewrite R. reflexivity.
    + destruct (tail_done now rest _ _ st' I' P') as (n & outs & st2 & R & P2 & Fo).
      exists (S n), (Plain q :: outs), st2. split; [|split; [exact P2|constructor; eauto]].
      change (repeat (DFinal now) (S (S n))) with (DFinal now :: repeat (DFinal now) (S n)).
      cbn [ds_run ds_step]. rewrite E. cbn [ds_step]. cbn [ds_run ds_step] in R. rewrite R. reflexivity.
    + exists 0%nat, [], st'. cbn [repeat ds_run ds_step]. rewrite E. auto.
Qed.
Lemma open_done now acc out st : inv acc out st -> ds_phase st = DOpen ->
  fst (ds_prologue c now ttl st) = None -> ds_queue (snd (ds_prologue c now ttl st)) <> [] ->
  exists n outs st', ds_run H c ttl (repeat (DFinal now) (S n)) st = (outs ++ [Stop], st') /\
    ds_phase st' = DDone /\ Forall (fun o => exists q, o = Plain q) outs.
Proof.
  intros I P Pr Qn.
  destruct (final_inv H c XL VC d0 ttl now acc out st I) as (o & st' & E & I' & Cs). rewrite P in Cs.
  destruct Cs as [(e & Pe & _)|(_ & [(Q & _)|[(q & -> & P')|[-> P']]])]; [congruence|congruence| |].
  - assert (G : exists n outs st2, ds_run H c ttl (repeat (DFinal now) (S n)) st' = (outs ++ [Stop], st2) /\
      ds_phase st2 = DDone /\ Forall (fun o => exists q, o = Plain q) outs).
    { destruct P' as [P'|[rest P']]; [eapply iter_done; eauto|eapply tail_done; eauto]. }
    destruct G as (n & outs & st2 & R & P2 & Fo).
    exists (S n), (Plain q :: outs), st2. split; [|split; [exact P2|constructor; eauto]].
    change (repeat (DFinal now) (S (S n))) with (DFinal now :: repeat (DFinal now) (S n)).
    cbn [ds_run ds_step]. rewrite E. cbn [ds_step]. cbn [ds_run ds_step] in R. rewrite R. reflexivity.
  - exists 0%nat, [], st'. cbn [repeat ds_run ds_step]. rewrite E. auto.
Qed.
End Dec.

(** ** Refused packets leave no trace: any state, any configuration *)
Lemma digest_nil fuel st : ds_digest H c fuel [] st = (Done, st).
Proof.
  destruct fuel; cbn [ds_digest]; [reflexivity|].
  replace (take bid []) with (@nil byte) by (rewrite take_firstn; now rewrite firstn_nil). reflexivity.
Qed.
Lemma digest_refused : forall fuel data st i b rest st', (length data <= fuel)%nat -> blen data mod ps = 0 ->
  ds_digest H c fuel data st = (Refused i b rest, st') ->
  exists good, data = good ++ i ++ b ++ rest /\ blen good mod ps = 0 /\ blen i = bid /\ blen b = bs /\
    forall fuel', (length good <= fuel')%nat -> ds_digest H c fuel' good st = (Done, st').
Proof.
  induction fuel as [|fuel IH]; intros data st i b rest st' Lf M E.
  - destruct data; [|cbn in Lf; lia]. cbn in E. discriminate.
  - destruct data as [|y ys]; [rewrite digest_nil in E; discriminate|].
    assert (Ne : y :: ys <> []) by discriminate.
    destruct (first_packet H c XL VC VI _ Ne M) as (i0 & b0 & rest0 & E0 & Li & Lb & Mr & Ti & Di & Tb & Db).
    pose proof (bid_pos c VI) as Bp.
    assert (exists z zs, i0 = z :: zs) as (z & zs & Ez).
    { destruct i0 as [|z zs]; [rewrite (@blen_nil byte) in Li; lia|eauto]. }
    assert (Lr : (length rest0 <= fuel)%nat).
    { apply (f_equal (@length byte)) in E0. rewrite Ez, !app_length in E0. cbn [length] in E0, Lf. lia. }
    assert (Step : forall f x, ds_digest H c (S f) (i0 ++ b0 ++ x) st =
      match test_next_block_id H c (snd (ds_session st)) i0 b0 [] with
      | Err InvalidBlockID => (Refused i0 b0 x, st)
      | Err e => (Raised e, st)
      | Ok _ =>
        match transform H c Decryption (ds_first st) (ds_session st) b0 with
        | Err e => (Raised e, st)
        | Ok (pt, ss) => ds_digest H c f x
          {| ds_queue := ds_queue st ++ [pt]; ds_trim := ds_trim st;
             ds_streaming := ds_streaming st; ds_session := ss; ds_first := false;
             ds_iterating := ds_iterating st; ds_phase := ds_phase st |}
        end
      end).
    { intros f x. cbn [ds_digest]. rewrite take_app, drop_app, (take_app bs), (drop_app bs) by assumption.
      rewrite Ez. reflexivity. }
    rewrite E0, Step in E.
    destruct (test_next_block_id _ _ _ _ _ _) as [u|e] eqn:Tn.
    + destruct (transform _ _ _ _ _ _) as [[pt ss]|e] eqn:Tr; [|discriminate].
      destruct (IH _ _ _ _ _ _ Lr Mr E) as (good & Eg & Mg & Lgi & Lgb & Fg).
      exists (i0 ++ b0 ++ good). rewrite E0, Eg, <- !app_assoc. split; [reflexivity|]. split.
      { rewrite !blen_app, Li, Lb. unfold packetsize. rewrite N.add_assoc.
        rewrite <- (N.mul_1_l (bid + bs)) at 1. rewrite N.add_comm, N.mod_add by lia. exact Mg. }
      split; [exact Lgi|]. split; [exact Lgb|].
      intros fuel' Lf'. destruct fuel' as [|f']; [rewrite Ez in Lf'; cbn in Lf'; lia|].
      rewrite Step. apply Fg. rewrite Ez, !app_length in Lf'. cbn [length] in Lf'. lia.
    + assert (e = InvalidBlockID) by (destruct e; try discriminate; reflexivity). subst e.
      injection E as <- <- <- <-. exists []. split; [exact E0|].
      split; [rewrite (@blen_nil byte); apply N.mod_0_l; unfold packetsize; lia|].
      split; [exact Li|]. split; [exact Lb|]. intros fuel' _. apply digest_nil.
Qed.

Lemma feed_refused data st i b rest st' : ds_feed H c data st = (Refused i b rest, st') ->
  exists good, data = good ++ i ++ b ++ rest /\ blen i = bid /\ blen b = bs /\
    ((good = [] /\ st' = st) \/ (good <> [] /\ ds_feed H c good st = (Done, st'))).
Proof.
  unfold ds_feed. destruct ((blen data =? 0) || negb (blen data mod ps =? 0)) eqn:B; [discriminate|].
  apply Bool.orb_false_iff in B as [_ B]. apply Bool.negb_false_iff, N.eqb_eq in B.
  destruct (ds_phase st); try discriminate. intros E.
  destruct (digest_refused _ _ _ _ _ _ _ (Nat.le_refl _) B E) as (good & Eg & Mg & Li & Lb & Fg).
  exists good. split; [exact Eg|]. split; [exact Li|]. split; [exact Lb|].
  destruct good as [|y g].
  - left. split; [reflexivity|]. specialize (Fg 0%nat (Nat.le_refl _)). cbn in Fg. injection Fg as <-. reflexivity.
  - right. split; [discriminate|]. rewrite Mg. destruct (N.eqb_spec (blen (y :: g)) 0) as [Z|_].
    { unfold blen in Z. cbn in Z. lia. }
    cbn [orb negb N.eqb]. apply Fg. reflexivity.
Qed.

Lemma kept_run ttl : forall ops st outs st', ds_run H c ttl ops st = (outs, st') ->
  ds_run H c ttl (map fst (kept ops outs)) st = (map snd (kept ops outs), st').
Proof.
  induction ops as [|o ops IH]; intros st outs st' R.
  - cbn in R. injection R as <- <-. reflexivity.
  - cbn [ds_run] in R. destruct (ds_step H c ttl o st) as [o' st1] eqn:E.
    destruct (ds_run H c ttl ops st1) as [outs1 st2] eqn:R1. injection R as <- <-.
    specialize (IH _ _ _ R1). cbn [kept]. destruct (refused_first o o') eqn:F.
    + destruct o as [p|?| |?|?]; try discriminate. destruct o' as [| | | | |i b rest|]; try discriminate.
      cbn [refused_first] in F. apply N.eqb_eq in F. cbn [ds_step] in E.
      destruct (feed_refused _ _ _ _ _ _ E) as (good & Eg & _ & _ & [[_ ->]|[Ng _]]); [exact IH|].
      exfalso. apply Ng. apply blen_0. rewrite Eg, !blen_app in F. lia.
    + cbn [map fst snd ds_run]. rewrite E, IH. reflexivity.
Qed.

(** ** Time-to-live *)
Lemma digest_frame : forall fuel data st o st', ds_digest H c fuel data st = (o, st') ->
  ds_streaming st' = ds_streaming st /\ ds_iterating st' = ds_iterating st /\ ds_phase st' = ds_phase st /\
  (exists l, ds_queue st' = ds_queue st ++ l) /\ released [o] = [].
Proof.
  induction fuel as [|fuel IH]; intros data st o st' E.
  - cbn in E. injection E as <- <-. repeat split; auto. exists []. now rewrite app_nil_r.
  - cbn [ds_digest] in E. destruct (take bid data).
    { injection E as <- <-. repeat split; auto. exists []. now rewrite app_nil_r. }
    destruct (test_next_block_id _ _ _ _ _ _) as [u|e].
    + destruct (transform _ _ _ _ _ _) as [[pt ss]|e].
      * destruct (IH _ _ _ _ E) as (A1 & A2 & A3 & (l' & A4) & A5). cbn in *. repeat split; auto.
        exists (pt :: l'). rewrite A4, <- app_assoc. reflexivity.
      * injection E as <- <-. repeat split; auto. exists []. now rewrite app_nil_r.
    + destruct e; injection E as <- <-; repeat split; auto; exists []; now rewrite app_nil_r.
Qed.

Lemma late_run ttl ts : forall ops st outs st',
  ds_streaming st = false -> ds_iterating st = false -> (ds_phase st = DOpen \/ ds_phase st = DFailed) ->
  (exists q l, ds_queue st = q :: l /\ take (c_timestamp_bytes c) q = ts) ->
  (forall o now, In o ops -> moment o = Some now ->
     exists n, test_timestamp (c_clock c) now ts ttl BigEndian = Err (TimestampExpired n)) ->
  ds_run H c ttl ops st = (outs, st') -> released outs = [].
Proof.
  induction ops as [|o ops IH]; intros st outs st' S J P Q Late R.
  - cbn in R. injection R as <- <-. reflexivity.
  - cbn [ds_run] in R. destruct (ds_step H c ttl o st) as [o' st1] eqn:E.
    destruct (ds_run H c ttl ops st1) as [outs1 st2] eqn:R1. injection R as <- <-.
    assert (Pro : forall now st, (exists n, test_timestamp (c_clock c) now ts ttl BigEndian = Err (TimestampExpired n)) ->
       ds_streaming st = false -> (exists q l, ds_queue st = q :: l /\ take (c_timestamp_bytes c) q = ts) ->
       exists n, ds_prologue c now ttl st = (Some (TimestampExpired n), ds_set_queue st (ds_trim st) false (ds_queue st))).
    { intros now st0 (n & Tn) S0 (q & l & Eq & Et). unfold ds_prologue. rewrite S0, Eq, Et, Tn. eauto. }
    assert (G : released [o'] = [] /\ ds_streaming st1 = false /\ ds_iterating st1 = false /\
       (ds_phase st1 = DOpen \/ ds_phase st1 = DFailed) /\
       (exists q l, ds_queue st1 = q :: l /\ take (c_timestamp_bytes c) q = ts)).
    { assert (Fin : forall now, (exists n, test_timestamp (c_clock c) now ts ttl BigEndian = Err (TimestampExpired n)) ->
        ds_finalize H c now ttl st = (o', st1) ->
        released [o'] = [] /\ ds_streaming st1 = false /\ ds_iterating st1 = false /\
       (ds_phase st1 = DOpen \/ ds_phase st1 = DFailed) /\
       (exists q l, ds_queue st1 = q :: l /\ take (c_timestamp_bytes c) q = ts)).
      { intros now Tn Ef. unfold ds_finalize in Ef. destruct P as [P|P]; rewrite P in Ef.
        2:{ injection Ef as <- <-. repeat split; auto. }
        destruct (ds_session st) as [b s]. destruct (finalize H c b s) as [[t s']|e].
        2:{ injection Ef as <- <-. cbn. repeat split; auto. }
        match type of Ef with context [ds_prologue c now ttl ?s0] => set (st0 := s0) in Ef end.
        destruct (Pro now st0 Tn S Q) as (n & Ep). rewrite Ep in Ef. injection Ef as <- <-. cbn.
        repeat split; auto. }
      destruct o as [d|now| |now|now]; cbn [ds_step] in E.
      - unfold ds_feed in E. destruct (_ || _); [injection E as <- <-; repeat split; auto|].
        destruct P as [P|P]; rewrite P in E; [|injection E as <- <-; repeat split; auto].
        destruct (digest_frame _ _ _ _ _ E) as (A1 & A2 & A3 & (l & A4) & A5).
        rewrite A1, A2, A3, P. repeat split; auto.
        destruct Q as (q & l0 & Eq & Et). exists q, (l0 ++ l). rewrite A4, Eq. auto.
      - destruct (Pro now st (Late _ _ (or_introl eq_refl) eq_refl) S Q) as (n & Ep).
        unfold ds_next in E. rewrite Ep in E. injection E as <- <-. cbn. repeat split; auto.
      - unfold ds_more in E. rewrite J in E. injection E as <- <-. repeat split; auto.
      - exact (Fin now (Late _ _ (or_introl eq_refl) eq_refl) E).
      - destruct P as [P|P]; rewrite P in E; [|injection E as <- <-; repeat split; auto].
        exact (Fin now (Late _ _ (or_introl eq_refl) eq_refl) E). }
    destruct G as (G1 & G2 & G3 & G4 & G5). rewrite released_cons, G1. cbn [app].
    eapply IH; [exact G2|exact G3|exact G4|exact G5| |exact R1].
    intros o2 now J2. apply Late. now right.
Qed.

End Streams.

(** ** Block IDs bind *)
Section Ids.
Variable H : hasher.
Variable c : cfg.
Hypothesis XL : forall m n, blen (h_digest H m n) = n.
Hypothesis VC : valid_cfg H c.

(** The running digest is squeezed from everything absorbed so far. *)
Definition cur_of (st : session) : Prop :=
  exists n, s_cur (snd st) = take (h_block_size H) (h_digest H (b_mac (fst st)) n) /\
            rate H <= n.
Lemma update_cur st x : cur_of (update_mac H st x).
Proof.
  destruct st as [b s]. exists (rate H). cbn. split; [|lia].
  rewrite take_all; [reflexivity|]. rewrite XL. unfold rate. lia.
Qed.
Lemma transform_cur first st ct pt st1 :
  transform H c Decryption first st ct = Ok (pt, st1) -> cur_of st1.
Proof.
  destruct st as [b s]. unfold transform. destruct (c_type c); [|destruct first].
  - unfold shake_decipher. destruct (s_finalized s); [discriminate|]. cbv zeta. intros E.
    apply bind_ok in E as (? & _ & E). apply bind_ok in E as (? & _ & E). apply Ok_inj in E.
    apply pair_equal_spec in E as [_ <-]. apply update_cur.
  - unfold dual_first_decipher. intros E. apply bind_ok in E as (? & _ & E).
    apply bind_ok in E as (? & _ & E). destruct (s_finalized s); [discriminate|]. cbv zeta in E.
    destruct (keystream_send _ _ _) as [k b']. apply bind_ok in E as (? & _ & E). apply Ok_inj in E.
    apply pair_equal_spec in E as [_ <-]. apply update_cur.
  - unfold dual_decipher. destruct (s_finalized s); [discriminate|]. cbv zeta.
    destruct (keystream_send _ _ _) as [k b']. intros E. apply bind_ok in E as (? & _ & E).
    apply Ok_inj in E. apply pair_equal_spec in E as [_ <-]. apply update_cur.
Qed.
Lemma blocks_cur : forall cts first st pts st1, cur_of st ->
  transform_blocks H c Decryption first st cts = Ok (pts, st1) -> cur_of st1.
Proof.
  induction cts as [|x xs IH]; intros first st pts st1 C T; cbn [transform_blocks] in T.
  - apply Ok_inj in T. apply pair_equal_spec in T as [_ <-]. exact C.
  - apply bind_ok in T as ([o s1] & E1 & T). apply bind_ok in T as ([os s2] & E2 & T).
    apply Ok_inj in T. apply pair_equal_spec in T as [_ <-].
    eapply IH; [|exact E2]. eapply transform_cur; exact E1.
Qed.

Lemma blocks_same cts d d' pts d1 : live H c d -> core d = core d' -> full c cts ->
  transform_blocks H c Decryption true d cts = Ok (pts, d1) ->
  exists d1', transform_blocks H c Decryption true d' cts = Ok (pts, d1') /\ core d1 = core d1' /\
    fixed d1' = fixed d' /\ live H c d1'.
Proof.
  intros L C F T.
  destruct (blocks_dec_enc H c XL VC cts true d d L eq_refl F) as (A & a1 & a2 & A1 & A2 & A3 & _ & A5 & A6 & _).
  destruct (blocks_dec_enc H c XL VC cts true d d' L C F) as (B & b1 & b2 & B1 & B2 & B3 & _ & B5 & B6 & _ & B8).
  rewrite T in A1. apply Ok_inj in A1. apply pair_equal_spec in A1 as [<- <-].
  destruct (blocks_enc_dec H c XL VC B true d d L eq_refl B3) as (X & x1 & x2 & X1 & X2 & _).
  rewrite B2 in X1. apply Ok_inj in X1. apply pair_equal_spec in X1 as [<- <-].
  rewrite T in X2. apply Ok_inj in X2. apply pair_equal_spec in X2 as [-> <-].
  rewrite A2 in B2. apply Ok_inj in B2. apply pair_equal_spec in B2 as [_ <-].
  exists b2. split; [exact B1|]. split; [congruence|]. split; [exact B8|].
  eapply live_core; [exact B5|]. exact B6.
Qed.

Lemma ds_new_session ks salt aad iv e d rsalt : started H c ks salt aad iv e d ->
  exists st, ds_new H c ks rsalt salt aad iv = Ok st /\ ds_session st = d /\ cur_of (ds_session st).
Proof.
  intros St. pose proof (st_denter _ _ _ _ _ _ _ _ St rsalt) as E. unfold ds_new.
  apply bind_ok in E as (b & E1 & E). rewrite E1. cbn [bind].
  apply bind_ok in E as (b' & E2 & E). rewrite E2. cbn [bind].
  apply bind_ok in E as (sh & E3 & E). rewrite E3. cbn [bind].
  apply bind_ok in E as (sh' & E4 & E). rewrite E4. cbn [bind].
  assert (C : s_cur (snd d) = s_cur sh /\ b_mac (fst d) = b_mac b').
  { unfold for_decryption in E4. unfold junction in E.
    destruct (s_mode sh); [discriminate|]. destruct (b_iv_is_fresh b'); [discriminate|]. apply Ok_inj in E4. subst sh'.
    apply bind_ok in E as (b2 & E5 & E). unfold register_shmac in E5. destruct (b_registered b'); [discriminate|].
    apply Ok_inj in E5. subst b2. cbn in E.
    repeat match type of E with context [match ?x with _ => _ end] => destruct x; cbn in E; try discriminate end.
    apply Ok_inj in E. subst d. split; reflexivity. }
  rewrite E. cbn [bind]. eexists. split; [reflexivity|]. cbn [ds_session]. split; [reflexivity|].
  exists (primer_key_bytes H c). destruct C as [-> ->].
  unfold make_shmac in E3. destruct (b_mode b'); [|discriminate].
  cbv zeta in E3. apply bind_ok in E3 as (pm & _ & E3). apply Ok_inj in E3. subst sh.
  cbn. split; [reflexivity|]. unfold primer_key_bytes. lia.
Qed.

Lemma id_after_hash ks salt aad iv body block size baad i :
  blen salt = c_salt_bytes c -> blen iv = c_iv_bytes c -> blen aad < 2 ^ 32 ->
  blen body mod c_blocksize c = 0 ->
  id_after H c ks salt aad iv body block size baad = Ok i ->
  exists f x n payload,
    absorbed H c ks salt aad iv body = Ok x /\ kdf_factory H c (c_block_id_kdf c) = Ok f /\
    rate H <= n /\
    block_id_payload (take (h_block_size H) (h_digest H x n)) (blen i) baad block = Ok payload /\
    i = h_digest H (f ++ payload) (blen i) /\
    c_min_block_id_bytes c <= blen i <= c_max_block_id_bytes c.
Proof.
  intros Ls Lv La Mb E.
  pose proof (blocksize_pos H c VC) as Bp. pose proof (batch_full _ _ Bp Mb) as Fb.
  destruct (sessions_start H c XL VC ks salt aad iv Ls Lv La) as (e & d & St).
  destruct (ds_new_session _ _ _ _ _ _ salt St) as (st & N & S & C0).
  unfold id_after in E. rewrite N in E. cbn [bind] in E. rewrite S in E. rewrite S in C0.
  apply bind_ok in E as ([pts [b1 s1]] & T & E).
  pose proof (live_core _ _ _ _ (st_core _ _ _ _ _ _ _ _ St) (st_live _ _ _ _ _ _ _ _ St)) as Ld.
  destruct (st_absorbed _ _ _ _ _ _ _ _ St body) as (d0 & C & Ab).
  destruct (blocks_same _ d d0 _ _ Ld (eq_sym C) Fb T) as ([b2 s2] & T2 & C2 & _).
  destruct (blocks_same _ d d _ _ Ld eq_refl Fb T) as ([b3 s3] & T3 & C3 & F3 & L3).
  rewrite T in T3. apply Ok_inj in T3. apply pair_equal_spec in T3 as [_ X]. injection X as <- <-.
  rewrite T2 in Ab. cbn [bind] in Ab.
  pose proof (blocks_cur _ _ _ _ _ C0 T) as (n & C4 & C5). cbn [fst snd] in C4.
  assert (Eb : b_mac b1 = b_mac b2) by (unfold core in C2; cbn [fst snd] in C2; congruence).
  assert (Mo : s_mode s1 = Some Decryption).
  { rewrite <- (st_dmode _ _ _ _ _ _ _ _ St). unfold fixed in F3. cbn [fst snd] in F3. congruence. }
  unfold next_block_id in E.
  apply bind_ok in E as (u & E5 & E). apply bind_ok in E as (f & E6 & E).
  apply bind_ok in E as (dg & E7 & E). apply bind_ok in E as (pl & E8 & E). apply Ok_inj in E.
  unfold get_block_id_mac in E7. rewrite Mo, (lv_open _ _ _ L3 : s_finalized s1 = false) in E7.
  apply Ok_inj in E7. subst dg.
  assert (Li : blen i = size_or size (c_block_id_bytes c)) by (rewrite <- E; apply XL).
  exists f, (b_mac b1), n, pl. split; [congruence|]. split; [exact E6|]. split; [exact C5|].
  rewrite <- C4, Li. split; [exact E8|]. split; [congruence|].
  unfold test_block_id_size in E5.
  destruct (N.ltb_spec (size_or size (c_block_id_bytes c)) (c_min_block_id_bytes c)); [discriminate|].
  destruct (N.ltb_spec (c_max_block_id_bytes c) (size_or size (c_block_id_bytes c))); [discriminate|]. lia.
Qed.

(** What a receiver has accepted are the IDs it computes. *)
Lemma accepts_id_after ks salt aad iv e d : started H c ks salt aad iv e d ->
  forall P1 i b P2 pts d2, accepts H c true d (P1 ++ (i, b) :: P2) pts d2 ->
  id_after H c ks salt aad iv (concat (map snd P1)) b None [] = Ok i.
Proof.
  intros St P1 i b P2 pts d2 A.
  destruct (ds_new_session _ _ _ _ _ _ salt St) as (st & N & S & _).
  unfold id_after. rewrite N. cbn [bind]. rewrite S.
  assert (G : forall P1 f d pts d2, accepts H c f d (P1 ++ (i, b) :: P2) pts d2 ->
    exists p1 d1, transform_blocks H c Decryption f d (map snd P1) = Ok (p1, d1) /\
      full c (map snd P1) /\ next_block_id H c (snd d1) b None [] = Ok i).
  { clear. induction P1 as [|[i0 b0] P1 IH]; intros f d pts d2 A; cbn [app] in A; inversion A; subst.
    - exists [], d. split; [reflexivity|]. split; [constructor|assumption].
    - match goal with X : accepts _ _ false _ (P1 ++ _) _ _ |- _ => destruct (IH _ _ _ _ X) as (p1 & d1' & T & F & Nx) end.
      exists (pt :: p1), d1'. cbn [map snd transform_blocks]. 
      match goal with X : transform _ _ _ _ _ _ = Ok _ |- _ => rewrite X end. cbn [bind]. rewrite T. cbn [bind].
      split; [reflexivity|]. split; [constructor; assumption|exact Nx]. }
  destruct (G _ _ _ _ _ A) as (p1 & [b1 s1] & T & F & Nx).
  rewrite batch_blocks; [|exact (blocksize_pos H c VC)|exact F]. rewrite T. exact Nx.
Qed.
End Ids.
