From Coq Require Import ZArith.
From Verif Require Import Base BaseFacts CanonModel CanonSpec CanonProofs PermModel PermSpec
  PermProofs ClockModel ClockProofs GentoolsModel GentoolsProofs CipherModel CipherSpec
  CipherProofs SessionProofs.
Local Open Scope N_scope.

Section Binding.
Variable H : hasher.
Variable c : cfg.
Hypothesis XL : forall m n, blen (h_digest H m n) = n.
Hypothesis VC : valid_cfg H c.

(** What one block adds to the hash: a fixed number of bytes, with the
    ciphertext block at a fixed place. *)
Definition piece_at (first : bool) : N * N :=
  match c_type c, first with
  | ShakePermute, _ => (c_blocksize c, rate H)
  | DualOutput, true => (rate H + embedded_capacity_bytes H c, rate H + 2 * rate H)
  | DualOutput, false => (embedded_capacity_bytes H c, 2 * rate H)
  end.

Lemma slice_mid {A} i n (a x b : list A) : blen a = i -> blen x = n ->
  slice i (i + n) (a ++ x ++ b) = x.
Proof.
  intros La Lx. unfold slice. rewrite app_assoc, take_app by (rewrite blen_app; lia).
  now rewrite drop_app.
Qed.

Lemma transform_piece first st ct : live H c st -> blen ct = c_blocksize c ->
  exists pt st1 piece, transform H c Decryption first st ct = Ok (pt, st1) /\
    b_mac (fst st1) = b_mac (fst st) ++ piece /\
    blen piece = snd (piece_at first) /\
    slice (fst (piece_at first)) (fst (piece_at first) + c_blocksize c) piece = ct /\
    live H c st1.
Proof.
  intros L Lx.
  destruct (proj2 (transform_lockstep H c XL VC first) st st ct L eq_refl Lx)
    as (pt & st1 & st1' & T1 & T2 & Lp & E1 & L1 & _).
  exists pt, st1'. 
  assert (L1' : live H c st1') by (eapply live_core; eauto).
  assert (Q : exists piece, b_mac (fst st1') = b_mac (fst st) ++ piece /\
    blen piece = snd (piece_at first) /\
    slice (fst (piece_at first)) (fst (piece_at first) + c_blocksize c) piece = ct);
    [|destruct Q as (piece & Q1 & Q2 & Q3); exists piece; auto 10].
  clear T2 E1 L1 st1 L1'. destruct st as [b s].
  pose proof (lv_open _ _ _ L) as Lo. pose proof (lv_cur _ _ _ L) as Lc. cbn [fst snd] in *.
  unfold transform in T1. unfold piece_at.
  destruct (c_type c) eqn:T.
  - unfold shake_decipher in T1. rewrite Lo in T1. cbv zeta in T1.
    apply bind_ok in T1 as (x & _ & T1). apply bind_ok in T1 as (p & Hp & T1).
    apply Ok_inj in T1. apply pair_equal_spec in T1 as [-> <-]. rewrite update_mac_mac. cbn [fst snd].
    exists (pt ++ ct ++ slice (2 * c_blocksize c) (rate H) (s_cur s)). split; [reflexivity|].
    assert (Hbs : 2 * c_blocksize c + 32 <= rate H).
    { pose proof (vc_checked _ _ VC) as K. unfold check_config in K. rewrite T in K.
      unfold check_shake_config in K.
      repeat match type of K with (if ?x then _ else _) = _ => destruct x eqn:?; [discriminate|] end. lia. }
    split; [|apply slice_mid; assumption].
    rewrite !blen_app, blen_slice by lia. lia.
  - destruct (dual_facts H c XL VC T) as (Fc & Fs & Fb & Fr & Fi & Fh).
    destruct first.
    + unfold dual_first_decipher in T1. apply bind_ok in T1 as (m & _ & T1).
      apply bind_ok in T1 as (hd & Hhd & T1). rewrite Lo in T1. cbv zeta in T1.
      pose proof (dual_key_len H XL) as KL.
      match type of T1 with context [keystream_send H ?b0 ?k0] =>
        specialize (KL b0 k0);
        assert (KM : b_mac (snd (keystream_send H b0 k0)) = b_mac b0) by reflexivity;
        destruct (keystream_send H b0 k0) as [key b1] end.
      cbn [fst snd set_mac set_hashes b_mac] in KL, KM.
      apply bind_ok in T1 as (body & Hb & T1). apply Ok_inj in T1. apply pair_equal_spec in T1 as [_ <-].
      rewrite update_mac_mac. cbn [fst snd]. rewrite KM.
      set (h := hd ++ take (inner_header_bytes c) ct ++ drop (2 * inner_header_bytes c) (s_cur s)).
      exists ((h ++ left_capacity H c key) ++ ct ++ right_capacity H c key).
      apply z_to_bytes_ok in Hhd as (_ & Lhd & _).
      assert (Lh : blen h = rate H).
      { unfold h. rewrite !blen_app, blen_take, blen_drop, Lhd. lia. }
      assert (Ll : blen (left_capacity H c key) = embedded_capacity_bytes H c)
        by (unfold left_capacity; rewrite blen_take; lia).
      assert (Lr : blen (right_capacity H c key) = embedded_capacity_bytes H c)
        by (unfold right_capacity; rewrite blen_last_n; lia).
      split; [unfold h; now rewrite <- !app_assoc|].
      split; [rewrite !blen_app; lia|]. apply slice_mid; [rewrite blen_app; lia|assumption].
    + unfold dual_decipher in T1. rewrite Lo in T1. 
      pose proof (dual_key_len H XL b (s_cur s ++ s_prev s)) as KL.
      assert (KM : b_mac (snd (keystream_send H b (s_cur s ++ s_prev s))) = b_mac b) by reflexivity.
      destruct (keystream_send H b (s_cur s ++ s_prev s)) as [key b1]. cbn [fst snd] in *.
      apply bind_ok in T1 as (p & _ & T1). apply Ok_inj in T1. apply pair_equal_spec in T1 as [_ <-].
      rewrite update_mac_mac. cbn [fst snd]. rewrite KM.
      exists (left_capacity H c key ++ ct ++ right_capacity H c key).
      assert (Ll : blen (left_capacity H c key) = embedded_capacity_bytes H c)
        by (unfold left_capacity; rewrite blen_take; lia).
      assert (Lr : blen (right_capacity H c key) = embedded_capacity_bytes H c)
        by (unfold right_capacity; rewrite blen_last_n; lia).
      split; [reflexivity|].
      split; [rewrite !blen_app; lia|]. now apply slice_mid.
Qed.

Lemma blocks_mac : forall cts first st, live H c st -> full c cts ->
  exists pts st1 suffix, transform_blocks H c Decryption first st cts = Ok (pts, st1) /\
    b_mac (fst st1) = b_mac (fst st) ++ suffix.
Proof.
  induction cts as [|x xs IH]; intros first st L F.
  - exists [], st, []. cbn. now rewrite app_nil_r.
  - inversion F; subst. destruct (transform_piece first st x L) as (pt & st1 & piece & T & M & _ & _ & L1); [assumption|].
    destruct (IH false st1 L1) as (pts & st2 & suf & R & M2); [assumption|].
    exists (pt :: pts), st2, (piece ++ suf). cbn [transform_blocks]. rewrite T. cbn [bind].
    rewrite R. cbn [bind]. split; [reflexivity|]. rewrite M2, M. now rewrite app_assoc.
Qed.

Lemma blocks_inj : forall c1 c2 first st p1 p2 st1 st2, live H c st -> full c c1 -> full c c2 ->
  transform_blocks H c Decryption first st c1 = Ok (p1, st1) ->
  transform_blocks H c Decryption first st c2 = Ok (p2, st2) ->
  (exists t1 t2, b_mac (fst st1) ++ t1 = b_mac (fst st2) ++ t2) -> length c1 = length c2 ->
  c1 = c2.
Proof.
  induction c1 as [|x c1 IH]; intros [|y c2] first st p1 p2 st1 st2 L F1 F2 T1 T2 E Ln;
    try discriminate; [reflexivity|].
  inversion F1 as [|? ? Fx F1']; inversion F2 as [|? ? Fy F2']; subst.
  cbn [transform_blocks] in T1, T2.
  destruct (transform_piece first st x L Fx) as (px & sx & gx & Tx & Mx & Lgx & Sx & Lx).
  destruct (transform_piece first st y L Fy) as (py & sy & gy & Ty & My & Lgy & Sy & Ly).
  rewrite Tx in T1. cbn [bind] in T1. rewrite Ty in T2. cbn [bind] in T2.
  destruct (blocks_mac c1 false sx Lx F1') as (q1 & s1 & u1 & R1 & N1).
  destruct (blocks_mac c2 false sy Ly F2') as (q2 & s2 & u2 & R2 & N2).
  rewrite R1 in T1. rewrite R2 in T2. cbn [bind] in T1, T2.
  apply Ok_inj in T1, T2. injection T1 as <- <-. injection T2 as <- <-.
  destruct E as (t1 & t2 & E).
  assert (E' := E). rewrite N1, N2, Mx, My, <- !app_assoc in E'.
  apply app_inv_head in E'. apply app_inj_len in E' as [Eg _]; [|unfold blen in *; lia].
  assert (Exy : x = y) by congruence. clear Sx Sy. subst y.
  assert (sx = sy) by congruence. subst sy.
  f_equal. eapply (IH c2 false sx); eauto; cbn in Ln; lia.
Qed.

Lemma blocks_mac_len : forall cts first st pts st1, live H c st -> full c cts ->
  transform_blocks H c Decryption first st cts = Ok (pts, st1) ->
  blen (b_mac (fst st1)) = blen (b_mac (fst st)) +
    match cts with [] => 0 | _ :: r => snd (piece_at first) + blen r * snd (piece_at false) end.
Proof.
  induction cts as [|x xs IH]; intros first st pts st1 L F T.
  - cbn in T. apply Ok_inj in T. injection T as <- <-. lia.
  - inversion F; subst. cbn [transform_blocks] in T.
    destruct (transform_piece first st x L) as (pt & s1 & piece & Tx & M & Lg & _ & L1); [assumption|].
    rewrite Tx in T. cbn [bind] in T. apply bind_ok in T as ([ps s2] & T & X).
    apply Ok_inj in X. injection X as <- <-.
    rewrite (IH false s1 ps s2 L1) by assumption. rewrite M, blen_app, Lg.
    destruct xs; [rewrite (@blen_nil bytes); lia|]. rewrite blen_cons. lia.
Qed.

Lemma piece_pos first : 0 < snd (piece_at first).
Proof.
  pose proof (vc_rate _ _ VC). fold (rate H) in *. unfold piece_at.
  destruct (c_type c), first; cbn [snd]; lia.
Qed.

(** ** The session's beginning *)
Lemma make_cipher_shmac key ks : make_cipher H c key = Ok ks ->
  exists f ek, kdf_factory H c (c_shmac_kdf c) = Ok f /\
    encode_key key (rate H) (kc_pad (c_shmac_kdf c)) = Ok ek /\
    kd_shmac ks = f ++ ek /\ 64 <= blen key.
Proof.
  unfold make_cipher. destruct (N.ltb_spec (blen key) MIN_KEY_BYTES) as [|G]; [discriminate|].
  intros E. apply bind_ok in E as (m & Hm & E). unfold keyed_kdf in Hm.
  apply bind_ok in Hm as (f & Hf & Hm). apply bind_ok in Hm as (ek & Hek & Hm). apply Ok_inj in Hm.
  exists f, ek. split; [exact Hf|]. split; [exact Hek|]. unfold MIN_KEY_BYTES in G. split; [|exact G].
  destruct (c_type c).
  - apply Ok_inj in E. subst ks. cbn. congruence.
  - apply bind_ok in E as (l & _ & E). apply bind_ok in E as (r & _ & E). apply Ok_inj in E.
    subst ks. cbn. congruence.
Qed.

Lemma make_bundle_mac ks osalt aad oiv rsalt riv b :
  make_bundle H c ks osalt aad oiv rsalt riv = Ok b ->
  exists summary k p,
    canonical_pack [b_salt b; aad; b_iv b] 1 [x00] 4 = Ok summary /\
    b_mac b = kd_shmac ks ++ (summary ++ repeat p k) ++
       concat (repeat (kc_pad (c_shmac_kdf c)) (N.to_nat (kc_offset_amount (c_shmac_kdf c)))) /\
    b_mode b = None /\ b_salt b = choose_salt osalt rsalt /\ b_iv b = fst (choose_iv oiv riv) /\
    fullblock_ljust summary (rate H) (kc_pad (c_shmac_kdf c)) = Ok (summary ++ repeat p k).
Proof.
  unfold make_bundle. destruct (choose_iv oiv riv) as [v fresh].
  destruct (negb _); [discriminate|]. destruct (negb _); [discriminate|].
  intros E. apply bind_ok in E as (summary & Hs & E). apply bind_ok in E as (mac & Hm & E).
  unfold new_session_copy in Hm. apply bind_ok in Hm as (pd & Hpd & Hm). apply Ok_inj in Hm.
  assert (Hpd' := Hpd). apply fullblock_ljust_ok in Hpd as (p & k & Hp & _ & -> & _).
  destruct (c_type c).
  - apply Ok_inj in E. subst b mac. cbn. exists summary, k, p. auto 10.
  - apply bind_ok in E as (l & _ & E). apply bind_ok in E as (r & _ & E). apply Ok_inj in E.
    subst b mac. cbn. exists summary, k, p. auto 10.
Qed.

Lemma layout_prefix_inj (i1 i2 : list bytes) x1 x2 t1 t2 :
  canonical_pack i1 1 [x00] 4 = Ok x1 -> canonical_pack i2 1 [x00] 4 = Ok x2 ->
  length i1 = length i2 -> x1 ++ t1 = x2 ++ t2 -> i1 = i2 /\ x1 = x2.
Proof.
  intros P1 P2 Ln E.
  assert (Q1 := P1). assert (Q2 := P2).
  apply canonical_pack_layout in P1 as (p1 & k1 & b1 & Ep1 & _ & (s1 & n1 & y1 & S1 & N1 & _ & F1 & X1) & _ & _ & K1 & _).
  apply canonical_pack_layout in P2 as (p2 & k2 & b2 & Ep2 & _ & (s2 & n2 & y2 & S2 & N2 & _ & F2 & X2) & _ & _ & K2 & _).
  assert (k1 = 0%nat) by lia. assert (k2 = 0%nat) by lia. subst k1 k2.
  cbn [repeat] in X1, X2. rewrite app_nil_r in X1, X2. subst x1 x2.
  cbn [app] in E. injection E as Es E. rewrite <- !app_assoc in E.
  apply app_inj_len in E as [-> E]; [|unfold blen in *; lia].
  assert (Ln' : length (b1 :: [p1] :: i1) = length (b2 :: [p2] :: i2)) by (cbn [length]; congruence).
  destruct (framed_inj 4 _ _ _ _ _ _ Ln' F1 F2 E) as (Ei & -> & _).
  injection Ei as _ _ ->. split; [reflexivity|]. congruence.
Qed.

Lemma ljust_same_length d1 d2 bs pad x1 x2 : length d1 = length d2 ->
  fullblock_ljust d1 bs pad = Ok x1 -> fullblock_ljust d2 bs pad = Ok x2 -> length x1 = length x2.
Proof.
  intros L E1 E2. apply fullblock_ljust_ok in E1 as (p1 & k1 & _ & N0 & -> & K1 & M1). apply fullblock_ljust_ok in E2 as (p2 & k2 & _ & _ & -> & K2 & M2).
  rewrite blen_app, blen_repeat in M1, M2. rewrite !app_length, !repeat_length. unfold blen in *. rewrite <- L in M2 |- *. set (n := N.of_nat (length d1)) in *.
  apply N.mod_divide in M1, M2; try lia. destruct M1 as (a1 & M1), M2 as (a2 & M2).
  destruct (N.lt_trichotomy a1 a2) as [T|[T|T]]; [|subst; lia|].
  - assert ((a1 + 1) * bs <= a2 * bs) by (apply N.mul_le_mono_r; lia). lia.
  - assert ((a2 + 1) * bs <= a1 * bs) by (apply N.mul_le_mono_r; lia). lia.
Qed.
Lemma batch_loop_same_length n f : forall (x y : bytes), length x = length y ->
  length (batch_loop f n x) = length (batch_loop f n y).
Proof.
  induction f as [|f IH]; intros x y L; [reflexivity|]. cbn [batch_loop].
  assert (Lt : length (take n x) = length (take n y)) by (pose proof (blen_take n x); pose proof (blen_take n y); unfold blen in *; lia).
  assert (Ld : length (drop n x) = length (drop n y)) by (pose proof (blen_drop n x); pose proof (blen_drop n y); unfold blen in *; lia).
  destruct (take n x), (take n y); try discriminate Lt; [reflexivity|]. cbn [length]. now rewrite (IH _ _ Ld).
Qed.
Lemma batch_same_length n (x y : bytes) : length x = length y -> length (batch x n) = length (batch y n).
Proof. intros L. unfold batch. rewrite L. now apply batch_loop_same_length. Qed.

Lemma absorbed_inj key1 ks1 s1 aad1 v1 body1 key2 ks2 s2 aad2 v2 body2 x :
  make_cipher H c key1 = Ok ks1 -> make_cipher H c key2 = Ok ks2 ->
  length s1 = length s2 -> comparable key1 aad1 v1 body1 key2 aad2 v2 body2 ->
  s1 <> [] -> s2 <> [] ->
  blen body1 mod c_blocksize c = 0 -> blen body2 mod c_blocksize c = 0 ->
  absorbed H c ks1 s1 aad1 v1 body1 = Ok x -> absorbed H c ks2 s2 aad2 v2 body2 = Ok x ->
  key1 = key2 /\ s1 = s2 /\ aad1 = aad2 /\ v1 = v2 /\ body1 = body2.
Proof.
  intros K1 K2 Ls Lk Ne1 Ne2 M1 M2 A1 A2.
  pose proof (blocksize_pos H c VC) as Bp.
  assert (B1 := A1). assert (B2 := A2).
  unfold absorbed in B1, B2.
  apply bind_ok in B1 as (b1 & MB1 & B1). apply bind_ok in B2 as (b2 & MB2 & B2).
  assert (U1 := MB1). assert (U2 := MB2).
  apply make_bundle_mac in U1 as (sum1 & k1 & p1 & P1 & Mac1 & Mo1 & Sa1 & Iv1 & Pd1).
  apply make_bundle_mac in U2 as (sum2 & k2 & p2 & P2 & Mac2 & Mo2 & Sa2 & Iv2 & Pd2).
  rewrite choose_some in Sa1, Sa2 by assumption. cbn [choose_iv fst] in Iv1, Iv2.
  rewrite Sa1, Iv1 in P1. rewrite Sa2, Iv2 in P2.
  unfold set_run_mode in B1, B2. rewrite Mo1 in B1. rewrite Mo2 in B2. cbn [bind] in B1, B2.
  set (b1' := {| b_salt := b_salt b1 |}) in B1. set (b2' := {| b_salt := b_salt b2 |}) in B2.
  apply bind_ok in B1 as (sh1 & MS1 & B1). apply bind_ok in B2 as (sh2 & MS2 & B2).
  destruct (make_shmac_total H c XL VC b1') as (q1 & Q1 & _ & _ & L1); [discriminate|].
  destruct (make_shmac_total H c XL VC b2') as (q2 & Q2 & _ & _ & L2); [discriminate|].
  rewrite Q1 in MS1. apply Ok_inj in MS1. subst q1. rewrite Q2 in MS2. apply Ok_inj in MS2. subst q2.
  apply bind_ok in B1 as ([pt1 [e1 f1]] & T1 & B1). apply bind_ok in B2 as ([pt2 [e2 f2]] & T2 & B2).
  apply Ok_inj in B1, B2. subst x.
  pose proof (batch_full _ _ Bp M1) as F1. pose proof (batch_full _ _ Bp M2) as F2.
  destruct (blocks_mac _ true (b1', sh1) L1 F1) as (r1 & g1 & suf1 & R1 & N1).
  destruct (blocks_mac _ true (b2', sh2) L2 F2) as (r2 & g2 & suf2 & R2 & N2).
  rewrite T1 in R1. apply Ok_inj in R1. injection R1 as <- <-.
  rewrite T2 in R2. apply Ok_inj in R2. injection R2 as <- <-. cbn [fst] in N1, N2.
  change (b_mac b1') with (b_mac b1) in N1. change (b_mac b2') with (b_mac b2) in N2.
  destruct (make_cipher_shmac _ _ K1) as (f & ek1 & Hf & Hek1 & Ek1 & _).
  destruct (make_cipher_shmac _ _ K2) as (f' & ek2 & Hf' & Hek2 & Ek2 & _).
  rewrite Hf in Hf'. apply Ok_inj in Hf'. subst f'.
  assert (E : b_mac b1 ++ suf1 = b_mac b2 ++ suf2) by congruence.
  assert (Le : length ek1 = length ek2).
  { destruct Lk as [Lk|(La & Lv & Lb)].
    - pose proof (encode_key_length _ _ _ _ Hek1). pose proof (encode_key_length _ _ _ _ Hek2).
      unfold blen in *. rewrite Lk in *. lia.
    - assert (Lsum : length sum1 = length sum2).
      { refine (pack_same_length _ _ _ _ _ _ _ _ _ P1 P2). cbn [map]. unfold blen. now rewrite Ls, La, Lv. }
      assert (Lpad : length (sum1 ++ repeat p1 k1) = length (sum2 ++ repeat p2 k2)).
      { apply (ljust_same_length _ _ _ _ _ _ Lsum Pd1 Pd2). }
      assert (Lm : blen (b_mac b1) = blen (b_mac b2)).
      { pose proof (blocks_mac_len _ _ _ _ _ L1 F1 T1) as G1. pose proof (blocks_mac_len _ _ _ _ _ L2 F2 T2) as G2. cbn [fst] in G1, G2.
        change (b_mac b1') with (b_mac b1) in G1. change (b_mac b2') with (b_mac b2) in G2.
        assert (Ln : length (batch body1 (c_blocksize c)) = length (batch body2 (c_blocksize c))).
        { apply batch_same_length. exact Lb. }
        rewrite B2, G1 in G2.
        destruct (batch body1 (c_blocksize c)) as [|x l], (batch body2 (c_blocksize c)) as [|y m]; try discriminate Ln; [lia|].
        injection Ln as Ln. unfold blen in *. rewrite Ln in G2. lia. }
      rewrite Mac1, Mac2, Ek1, Ek2 in Lm. unfold blen in Lm. rewrite !app_length in Lm, Lpad. rewrite !app_length in Lm. lia. }
  rewrite Mac1, Mac2, Ek1, Ek2, <- !app_assoc in E.
  apply app_inv_head in E.
  apply app_inj_len in E as [Ee E]; [|exact Le].
  subst ek2. destruct (encode_key_inj _ _ _ _ _ _ (proj2 (vc_rate _ _ VC)) Hek1 Hek2) as [-> _].
  assert (ks1 = ks2) by congruence. subst ks2.
  destruct (layout_prefix_inj _ _ _ _ _ _ P1 P2 eq_refl E) as [Ei _].
  injection Ei as Es Ea Ev. subst s2 aad2 v2.
  repeat (split; [reflexivity|]).
  assert (b1 = b2) by congruence. subst b2.
  assert (sh1 = sh2) by (change b2' with b1' in Q2; congruence). subst sh2.
  change b2' with b1' in T2.
  assert (Ln : length (batch body1 (c_blocksize c)) = length (batch body2 (c_blocksize c))).
  { pose proof (blocks_mac_len _ _ _ _ _ L1 F1 T1) as G1.
    pose proof (blocks_mac_len _ _ _ _ _ L1 F2 T2) as G2. cbn [fst] in G1, G2.
    rewrite B2, G1 in G2. pose proof (piece_pos true). pose proof (piece_pos false).
    destruct (batch body1 (c_blocksize c)) as [|x l], (batch body2 (c_blocksize c)) as [|y m];
      cbn [length]; unfold blen in *; nia. }
  assert (Eb : batch body1 (c_blocksize c) = batch body2 (c_blocksize c)).
  { eapply (blocks_inj _ _ true (b1', sh1)); eauto. exists [], []. cbn [fst]. now rewrite !app_nil_r. }
  apply (f_equal (@concat byte)) in Eb. rewrite !batch_concat in Eb by assumption. auto 10.
Qed.

(** ** Block IDs *)
Lemma block_id_payload_inj d1 z1 a1 x1 d2 z2 a2 x2 p :
  blen d1 = blen d2 ->
  block_id_payload d1 z1 a1 x1 = Ok p -> block_id_payload d2 z2 a2 x2 = Ok p ->
  d1 = d2 /\ z1 = z2 /\ a1 = a2 /\ x1 = x2.
Proof.
  intros L P1 P2. unfold block_id_payload in *.
  apply bind_ok in P1 as (s1 & S1 & P1). apply bind_ok in P1 as (l1 & A1 & P1). apply bind_ok in P1 as (m1 & B1 & P1).
  apply bind_ok in P2 as (s2 & S2 & P2). apply bind_ok in P2 as (l2 & A2 & P2). apply bind_ok in P2 as (m2 & B2 & P2).
  apply Ok_inj in P1, P2. subst p.
  pose proof (to_bytes_be_len _ _ _ S1). pose proof (to_bytes_be_len _ _ _ S2).
  pose proof (to_bytes_be_len _ _ _ A1). pose proof (to_bytes_be_len _ _ _ A2).
  pose proof (to_bytes_be_len _ _ _ B1). pose proof (to_bytes_be_len _ _ _ B2).
  apply app_inj_len in P2 as [-> P2]; [|unfold blen in *; lia].
  apply app_inj_len in P2 as [-> P2]; [|unfold blen in *; lia].
  apply app_inj_len in P2 as [-> P2]; [|unfold blen in *; lia].
  assert (z1 = z2) by (rewrite <- (to_bytes_be_int _ _ _ S1); apply (to_bytes_be_int _ _ _ S2)).
  assert (La : blen a1 = blen a2) by (rewrite <- (to_bytes_be_int _ _ _ A1); apply (to_bytes_be_int _ _ _ A2)).
  apply app_inj_len in P2 as [-> P2]; [|unfold blen in *; lia].
  apply app_inj_len in P2 as [_ ->]; [|unfold blen in *; lia]. auto.
Qed.

End Binding.
