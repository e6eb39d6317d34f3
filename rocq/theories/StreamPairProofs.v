(** * The two streams together *)
From Coq Require Import ZArith.
From Verif Require Import Base BaseFacts CanonModel CanonSpec PermModel ClockModel GentoolsModel
  GentoolsSpec GentoolsProofs CipherModel CipherSpec CipherProofs SessionProofs BindingProofs
  StreamModel StreamSpec StreamProofs StreamOpenProofs.
Local Open Scope N_scope.

Section Streams.
Variable H : hasher.
Variable c : cfg.
Hypothesis XL : forall m n, blen (h_digest H m n) = n.
Hypothesis VC : valid_cfg H c.
Hypothesis VI : valid_ids c.
Local Notation bs := (c_blocksize c).
Local Notation ih := (inner_header_bytes c).
Local Notation minq := (min_stream_queue c).

Lemma accepts_det f d o p1 d1 : accepts H c f d o p1 d1 -> forall p2 d2,
  accepts H c f d o p2 d2 -> p1 = p2 /\ d1 = d2.
Proof.
  induction 1 as [f d|f d i ct pt d1 out pts d2 A1 A2 A3 A4 A5 IH]; intros p2 d2' B.
  - inversion B; subst. auto.
  - inversion B as [|? ? ? ? pt' d1' ? pts' ? B1 B2 B3 B4 B5]; subst. rewrite A4 in B4. apply Ok_inj in B4. injection B4 as <- <-.
    destruct (IH _ _ B5) as [-> ->]. auto.
Qed.
Lemma accepts_ids f d o1 p1 d1 : accepts H c f d o1 p1 d1 -> forall o2 p2 d2,
  accepts H c f d o2 p2 d2 -> map snd o1 = map snd o2 -> o1 = o2.
Proof.
  induction 1 as [f d|f d i ct pt d1 out pts d2 A1 A2 A3 A4 A5 IH]; intros o2 p2 d2' B E.
  - destruct o2; [reflexivity|discriminate].
  - inversion B as [|? ? i' ct' pt' d1' out' pts' ? B1 B2 B3 B4 B5]; subst; [discriminate|].
    cbn [map snd] in E. injection E as <- E. rewrite A3 in B3. apply Ok_inj in B3. subst i'.
    rewrite A4 in B4. apply Ok_inj in B4. injection B4 as <- <-.
    now rewrite (IH _ _ _ B5 E).
Qed.
Lemma accepts_app f d o1 o2 p d2 : accepts H c f d (o1 ++ o2) p d2 ->
  exists p1 p2 d1, p = p1 ++ p2 /\ accepts H c f d o1 p1 d1 /\
    accepts H c (match o1 with [] => f | _ => false end) d1 o2 p2 d2.
Proof.
  revert f d p. induction o1 as [|[i ct] o1 IH]; intros f d p A; cbn [app] in A.
  - exists [], p, d. split; [reflexivity|]. split; [constructor|exact A].
  - inversion A as [|? ? ? ? pt d1 ? pts ? B1 B2 B3 B4 B5]; subst.
    destruct (IH _ _ _ B5) as (p1 & p2 & dd & -> & A1 & A2).
    exists (pt :: p1), p2, dd. split; [reflexivity|]. split; [econstructor; eauto|].
    destruct o1; exact A2.
Qed.
Lemma accepts_len f d o p d1 : accepts H c f d o p d1 -> length o = length p.
Proof. induction 1; cbn; congruence. Qed.

(** ** Opening the two streams *)
Section Pair.
Variables (ks : kdfs) (r : coins) (salt : option bytes) (aad : bytes).
Hypothesis VR : valid_coins c r.
Hypothesis VS : valid_salt c salt.
Hypothesis VA : blen aad < 2 ^ 32.
Local Notation s := (choose_salt salt (r_salt r)).
Local Notation v := (r_iv r).
Variables (e d : session).
Hypothesis St : started H c ks s aad v e d.

Lemma cs_new_ok : exists start st0,
  start_padding c (r_now r) (r_siv r) = Ok start /\ blen start = ih /\
  cs_new H c ks r salt aad = Ok st0 /\ cs_phase st0 = Open /\
  enc_inv H c e d start (r_extra r) [] [] st0.
Proof.
  destruct (pad_ok c r [] (frame_pos H c VC) VR) as (p & ts & en & _ & _ & Hs & _ & _ & _ & Lh & _).
  pose proof (st_eenter _ _ _ _ _ _ _ _ St r salt eq_refl eq_refl) as E.
  unfold cs_new. rewrite Hs. cbn [bind].
  apply bind_ok in E as (b & E1 & E). rewrite E1. cbn [bind].
  apply bind_ok in E as (b' & E2 & E). rewrite E2. cbn [bind].
  apply bind_ok in E as (sh & E3 & E). rewrite E3. cbn [bind].
  apply bind_ok in E as (sh' & E4 & E). rewrite E4. cbn [bind]. rewrite E. cbn [bind].
  eexists _, _. split; [reflexivity|]. split; [exact Lh|]. split; [reflexivity|].
  split; [reflexivity|]. constructor. exists [], e. split; [constructor|]. split; [reflexivity|].
  split; [exact (st_live _ _ _ _ _ _ _ _ St)|]. split; [reflexivity|]. split; [reflexivity|].
  split. { exists d. split; [constructor|]. split; [exact (st_core _ _ _ _ _ _ _ _ St)|reflexivity]. }
  split; [reflexivity|]. cbn [cs_phase cs_session cs_count cs_buffer]. split; [reflexivity|].
  split; [reflexivity|]. exists [], (ts ++ r_siv r). split; [reflexivity|]. split; [constructor|].
  cbn [concat app]. reflexivity.
Qed.

Lemma ds_new_ok rsalt : exists st0,
  ds_new H c ks rsalt s aad v = Ok st0 /\ ds_phase st0 = DOpen /\ ds_streaming st0 = false /\
  ds_iterating st0 = false /\ ds_queue st0 = [] /\ dec_inv H c d [] [] st0.
Proof.
  pose proof (st_denter _ _ _ _ _ _ _ _ St rsalt) as E. unfold ds_new.
  apply bind_ok in E as (b & E1 & E). rewrite E1. cbn [bind].
  apply bind_ok in E as (b' & E2 & E). rewrite E2. cbn [bind].
  apply bind_ok in E as (sh & E3 & E). rewrite E3. cbn [bind].
  apply bind_ok in E as (sh' & E4 & E). rewrite E4. cbn [bind]. rewrite E. cbn [bind].
  eexists. split; [reflexivity|]. do 4 (split; [reflexivity|]). constructor. exists [], d, [].
  split; [constructor|]. split; [constructor|].
  split; [exact (live_core _ _ _ _ (st_core _ _ _ _ _ _ _ _ St) (st_live _ _ _ _ _ _ _ _ St))|].
  split; [reflexivity|]. split.
  { constructor; cbn.
    - constructor; cbn [tl concat app]; auto; try lia.
      + rewrite N.sub_diag. reflexivity.
      + constructor.
      + intros []. reflexivity.
    - auto.
    - discriminate. }
  split; [reflexivity|]. cbn. auto.
Qed.

(** ** The encrypting side *)
Variable start : bytes.
Hypothesis Hstart : start_padding c (r_now r) (r_siv r) = Ok start.
Hypothesis Lstart : blen start = ih.
Local Notation einv := (enc_inv H c e d start (r_extra r)).

Lemma closed_encrypt data out st : einv data out st -> cs_phase st = Closed ->
  exists tag, result_of (snd (cs_session st)) = Ok tag /\ blen tag = c_shmac_bytes c /\
    bytes_encrypt H c ks r data salt aad = Ok (tag ++ s ++ v ++ concat (map snd out)).
Proof.
  intros [(pbs & ss & Fp & T & L & X & First & Ac & Ln & Ph)] P. rewrite P in Ph.
  destruct Ph as (_ & (end_ & Ee & Ep) & s' & Fi & Es & Rs).
  exists (tag_of H c (b_mac (fst ss))). rewrite Es. split; [exact Rs|].
  split; [apply (blen_tag H c XL VC)|].
  assert (Hp : pad_plaintext c (r_now r) (r_siv r) (r_extra r) data = Ok (start ++ data ++ end_)).
  { unfold pad_plaintext. rewrite Hstart, Ee. reflexivity. }
  assert (Ne : start ++ data ++ end_ <> []).
  { destruct (pad_whole H c XL VC r data VR) as (p & Hp' & Ne & _). rewrite Hp in Hp'.
    apply Ok_inj in Hp'. now subst p. }
  rewrite (st_encrypt _ _ _ _ _ _ _ _ St r data salt _ eq_refl eq_refl Hp).
  rewrite combine_nonempty by (apply batch_nonempty; [apply (blocksize_pos H c VC)|exact Ne]).
  rewrite <- Ep, T. destruct ss as [b1 s1]. cbn [bind fst snd] in *. rewrite Fi. cbn [bind].
  unfold fixed in X. cbn [fst snd] in X.
  assert (Q : b_salt b1 = s /\ b_iv b1 = v).
  { rewrite <- (st_esalt _ _ _ _ _ _ _ _ St), <- (st_eiv _ _ _ _ _ _ _ _ St). split; congruence. }
  destruct Q as [-> ->]. reflexivity.
Qed.

(** Each step of finalizing brings the end nearer. *)
Lemma closes data out st : einv data out st -> cs_phase st <> Open ->
  exists n outs st', cs_run H c (r_extra r) (repeat EFinal (S n)) st = (outs ++ [Stop], st') /\
    cs_phase st' = Closed /\ length outs = n.
Proof.
  intros I NP. destruct (cs_phase st) eqn:P; [congruence| |].
  - remember (length (cs_buffer st)) as k eqn:K. revert out st I P K NP.
    induction k as [|k IH]; intros out st I P K NP.
    + assert (Eb : cs_buffer st = []) by (destruct (cs_buffer st); [reflexivity|discriminate]).
      destruct (flush_inv H c XL VC VI e d start r (st_emode _ _ _ _ _ _ _ _ St)
        (st_dmode _ _ _ _ _ _ _ _ St) VR Lstart data out st I P) as (o & st' & E & _ & Q).
      assert (o = Stop /\ cs_phase st' = Closed) as [-> P'].
      { destruct Q as [(i & b & ->)|Q]; [|exact Q]. unfold cs_flush in E. rewrite Eb in E.
        destruct (cs_session st). destruct (finalize _ _ _ _) as [[]|]; discriminate. }
      exists 0%nat, [], st'. cbn [repeat cs_run cs_step]. unfold cs_finalize. rewrite P, E. auto.
    + destruct (flush_inv H c XL VC VI e d start r (st_emode _ _ _ _ _ _ _ _ St)
        (st_dmode _ _ _ _ _ _ _ _ St) VR Lstart data out st I P) as (o & st' & E & I' & Q).
      destruct (cs_buffer st) as [|x rest] eqn:Eb; [discriminate|].
      assert (Q2 : cs_phase st' = Finalizing /\ cs_buffer st' = rest).
      { unfold cs_flush, cs_pull in E. rewrite Eb in E.
        destruct (transform _ _ _ _ _ _) as [[ct s']|].
        - destruct (next_block_id _ _ _ _ _ _); injection E as <- <-; cbn; auto.
        - injection E as <- <-. destruct Q as [(? & ? & ?)|[? ?]]; discriminate. }
      destruct Q2 as [P' B'].
      destruct (IH _ st' I' P') as (n & outs & st2 & R & P2 & Ln); [rewrite B'; cbn in K; lia|congruence|].
      exists (S n), (o :: outs), st2. split; [|split; [exact P2|cbn; now rewrite Ln]].
      change (repeat EFinal (S (S n))) with (EFinal :: repeat EFinal (S n)).
      cbn [cs_run cs_step]. unfold cs_finalize at 1. rewrite P, E. cbn [cs_step]. rewrite R. reflexivity.
  - exists 0%nat, [], st. cbn [repeat cs_run cs_step]. unfold cs_finalize. rewrite P. auto.
Qed.

(** ** The decrypting side *)
Lemma depad_index (data end_ x : bytes) : end_padding c (blen data) (r_extra r) = Ok end_ ->
  0 < blen x -> (exists p q : bytes, p ++ x = q ++ end_) -> depadding_end_index c x = blen end_.
Proof.
  intros Ee Lx (p & q & Eq).
  destruct (pad_ok c r data (frame_pos H c VC) VR) as (pd & ts & en & _ & _ & _ & Ee' & _ & _ & _ & Le & Se).
  rewrite Ee in Ee'. apply Ok_inj in Ee'. subst en.
  pose proof (frame_pos H c VC) as Fp.
  pose proof (padding_size_bounds c (blen data) Fp) as B.
  assert (S1 : sentinel_bytes c = 1) by (apply sentinel_bytes_1; split; [exact Fp|apply (vc_frame _ _ VC)]).
  rewrite S1 in Se. specialize (Se ltac:(lia)).
  unfold depadding_end_index. rewrite S1.
  assert (Lx1 : last_n 1 x = last_n 1 end_).
  { rewrite <- (last_n_suffix 1 p x), Eq by lia. apply last_n_suffix; lia. }
  rewrite Lx1, Se, Le. destruct (N.eq_dec (padding_size c (blen data)) (padding_frame c)) as [Ef|Nf].
  - rewrite Ef, N.mod_same by lia. reflexivity.
  - rewrite N.mod_small by lia. destruct (N.eqb_spec (padding_size c (blen data)) 0); [lia|reflexivity].
Qed.

Lemma end_bound (data end_ : bytes) : end_padding c (blen data) (r_extra r) = Ok end_ ->
  0 < blen end_ <= minq * bs.
Proof.
  intros Ee. destruct (pad_ok c r data (frame_pos H c VC) VR) as (pd & ts & en & _ & _ & _ & Ee' & _ & _ & _ & Le & _).
  rewrite Ee in Ee'. apply Ok_inj in Ee'. subst en.
  pose proof (padding_size_bounds c (blen data) (frame_pos H c VC)) as B. unfold padding_frame in *. lia.
Qed.

Lemma q_nonneg pts out trim queue : qinv c pts out trim queue -> trim = 0 ->
  out ++ concat queue = drop ih (concat pts).
Proof. intros Q ->. pose proof (q_text _ _ _ _ _ Q) as T. now rewrite N.sub_0_r in T. Qed.

Lemma done_text data P st out dst :
  einv data P st -> cs_phase st = Closed -> dec_inv H c d P out dst -> ds_phase dst = DDone ->
  out = data /\ result_of (snd (ds_session dst)) = result_of (snd (cs_session st)).
Proof.
  intros [(pbs & ss & Fp & T & L & X & First & (ds & Ac & Cd & Fd) & Ln & Ph)] Pc
         [(pts & ss' & out0 & Ac' & Fp' & L' & X' & CI & F & Ph')] Pd.
  rewrite Pc in Ph. rewrite Pd in Ph'. destruct (accepts_det _ _ _ _ _ Ac _ _ Ac') as [-> ->].
  destruct Ph as (_ & (end_ & Ee & Ep) & s1 & Fi & Es & Rs).
  destruct Ph' as ((s2 & Fi2 & Es2 & Rs2) & Tz & Sm & Le & init & lst & t & Qe & -> & Et).
  split.
  2:{ rewrite Es, Es2. cbn [snd]. rewrite Rs, Rs2. do 2 f_equal. unfold core in Cd. congruence. }
  rewrite app_nil_r in Et. subst t.
  pose proof (q_nonneg _ _ _ _ (ci_queue _ _ _ _ CI) Tz) as Qt.
  assert (Cp : concat pts = start ++ data ++ end_).
  { rewrite Ep. apply batch_concat. apply (blocksize_pos H c VC). }
  rewrite Cp, <- Lstart, drop_app in Qt by reflexivity.
  pose proof (end_bound data end_ Ee) as Be.
  assert (Ll : 0 < blen lst).
  { pose proof (q_head _ _ _ _ _ (ci_queue _ _ _ _ CI)) as Hh. pose proof (q_tail _ _ _ _ _ (ci_queue _ _ _ _ CI)) as Ht.
    rewrite Qe in Hh, Ht. destruct init as [|y init]; cbn [app tl] in *; [lia|].
    apply full_app in Ht as [_ Ht]. inversion Ht; subst. pose proof (blocksize_pos H c VC). lia. }
  assert (Di : depadding_end_index c lst = blen end_).
  { apply (depad_index data); auto. exists (out0 ++ concat init), data. rewrite <- Qt, Qe.
    rewrite concat_app. cbn [concat]. now rewrite app_nil_r, <- app_assoc. }
  rewrite Di.
  assert (Lq : blen end_ <= blen (concat (ds_queue dst))).
  { pose proof (q_kept _ _ _ _ _ (ci_queue _ _ _ _ CI)) as K. destruct out0 as [|y o0].
    - cbn [app] in Qt. rewrite Qt, blen_app. lia.
    - destruct (K ltac:(discriminate)) as [Kf Kg]. rewrite (full_len _ _ Kf). nia. }
  assert (G : forall (a q : bytes) n, n <= blen q -> a ++ but_last_n n q = but_last_n n (a ++ q)).
  { intros a q n Lqn. unfold but_last_n. rewrite blen_app, !take_firstn, firstn_app.
    replace (N.to_nat (blen a + blen q - n) - length a)%nat with (N.to_nat (blen q - n)) by (unfold blen in *; lia).
    f_equal. symmetry. apply firstn_all2. unfold blen in *. lia. }
  rewrite G by exact Lq. rewrite Qt. now apply but_last_n_app.
Qed.

(** What was released before the end is the beginning of the plaintext. *)
Lemma open_prefix data P1 P2 st out dst :
  einv data (P1 ++ P2) st -> dec_inv H c d P1 out dst -> ds_phase dst = DOpen ->
  prefix out data.
Proof.
  intros [(pbs & ss & Fp & T & L & X & First & (ds & Ac & Cd & Fd) & Ln & Ph)]
         [(pts & ss' & out0 & Ac' & Fp' & L' & X' & CI & F & Ph')] Pd.
  rewrite Pd in Ph'. destruct Ph' as [_ ->].
  destruct (accepts_app _ _ _ _ _ _ Ac) as (p1 & p2 & dd & -> & A1 & A2).
  destruct (accepts_det _ _ _ _ _ A1 _ _ Ac') as [-> ->].
  assert (Q : exists all, (start ++ data ++ all = concat pts ++ concat p2 ++ concat (cs_buffer st)) /\
     blen all <= minq * bs).
  { destruct (cs_phase st).
    - destruct Ph as (_ & _ & init & lst & Eb & _ & Et). exists []. rewrite app_nil_r.
      split; [|rewrite (@blen_nil byte); lia]. rewrite <- Et, concat_app, <- app_assoc. reflexivity.
    - destruct Ph as (_ & end_ & Ee & Eb). exists end_. split; [|apply (end_bound data end_ Ee)].
      rewrite <- (batch_concat bs (start ++ data ++ end_)) by apply (blocksize_pos H c VC).
      rewrite <- Eb, !concat_app, <- app_assoc. reflexivity.
    - destruct Ph as (Eb0 & (end_ & Ee & Eb) & _). exists end_. split; [|apply (end_bound data end_ Ee)].
      rewrite <- (batch_concat bs (start ++ data ++ end_)) by apply (blocksize_pos H c VC).
      rewrite <- Eb, Eb0, !concat_app. cbn [concat]. now rewrite app_nil_r. }
  destruct Q as (all & Ea & La).
  destruct out0 as [|y o0] eqn:Eo; [exists data; reflexivity|]. rewrite <- Eo in *.
  assert (Ne : out0 <> []) by (rewrite Eo; discriminate).
  assert (Tz : ds_trim dst = 0).
  { destruct (N.eq_dec (ds_trim dst) 0) as [|Nz]; [assumption|].
    pose proof (q_none _ _ _ _ _ (ci_queue _ _ _ _ CI) Nz). congruence. }
  pose proof (q_nonneg _ _ _ _ (ci_queue _ _ _ _ CI) Tz) as Qt.
  pose proof (q_have _ _ _ _ _ (ci_queue _ _ _ _ CI)) as Qh. rewrite Tz, N.sub_0_r in Qh.
  destruct (q_kept _ _ _ _ _ (ci_queue _ _ _ _ CI) Ne) as [Kf Kg].
  pose proof (full_len _ _ Kf) as Lq.
  assert (Ed : data ++ all = out0 ++ concat (ds_queue dst) ++ concat p2 ++ concat (cs_buffer st)).
  { rewrite app_assoc, Qt. rewrite <- (drop_app (blen start) start (data ++ all)) by reflexivity.
    rewrite Ea, Lstart. now apply drop_app_le. }
  assert (Lo : blen out0 <= blen data).
  { pose proof (f_equal (@blen byte) Ed) as Le. rewrite !blen_app in Le. nia. }
  exists (drop (blen out0) data).
  rewrite <- (take_drop (blen out0) data) at 1. f_equal.
  rewrite <- (take_app_le (blen out0) data all) by exact Lo. rewrite Ed. now apply take_app.
Qed.

End Pair.
End Streams.
