From Coq Require Import ZArith.
From Verif Require Import Base BaseFacts CanonModel CanonSpec CanonProofs PermModel PermSpec
  PermProofs ClockModel ClockProofs GentoolsModel GentoolsProofs CipherModel CipherSpec.
Local Open Scope N_scope.

Lemma last_n_app {A} n (l m : list A) : 0 < n -> blen m = n -> last_n n (l ++ m) = m.
Proof.
  intros Hn Hm. unfold last_n. destruct (N.eqb_spec n 0) as [|_]; [lia|].
  apply drop_app. rewrite blen_app. lia.
Qed.
Lemma blen_last_n {A} n (l : list A) : 0 < n -> n <= blen l -> blen (last_n n l) = n.
Proof.
  intros Hn Hl. unfold last_n. destruct (N.eqb_spec n 0) as [|_]; [lia|].
  rewrite blen_drop. lia.
Qed.
Lemma last_n_last_n {A} n m (l : list A) : 0 < n -> n <= m -> m <= blen l ->
  last_n n (last_n m l) = last_n n l.
Proof.
  intros Hn Hm Hl. unfold last_n.
  destruct (N.eqb_spec n 0) as [|_]; [lia|]. destruct (N.eqb_spec m 0) as [|_]; [lia|].
  rewrite blen_drop, !drop_skipn, <- skipn_add. f_equal. lia.
Qed.
Lemma last_n_suffix {A} n (p l : list A) : 0 < n -> n <= blen l -> last_n n (p ++ l) = last_n n l.
Proof.
  intros Hn Hl. rewrite <- (take_drop (blen l - n) l) at 1. rewrite app_assoc.
  assert (E : blen (drop (blen l - n) l) = n) by (rewrite blen_drop; lia).
  rewrite last_n_app by assumption.
  unfold last_n. destruct (N.eqb_spec n 0) as [|_]; [lia|reflexivity].
Qed.
Lemma but_last_n_app {A} n (l m : list A) : blen m = n -> but_last_n n (l ++ m) = l.
Proof. intros Hm. unfold but_last_n. rewrite blen_app. apply take_app. lia. Qed.
Lemma blen_slice {A} i j (l : list A) : j <= blen l -> blen (slice i j l) = j - i.
Proof. intros H. unfold slice. rewrite blen_drop, blen_take. lia. Qed.

Lemma be_z_inv n l : blen l = n -> z_to_bytes n BigEndian (be_z l) = Ok l.
Proof.
  intros <-. unfold z_to_bytes, be_z.
  replace (Z.of_N (be_int l) <? 0)%Z with false by lia.
  rewrite N2Z.id. apply to_bytes_be_be_int.
Qed.
Lemma zlen_blen {A} (l : list A) : zlen l = Z.of_N (blen l).
Proof. unfold zlen, blen. lia. Qed.
Lemma z_dom n v : in_domain (Z.of_N n) v ->
  exists l, z_to_bytes n BigEndian v = Ok l /\ blen l = n /\ be_z l = v.
Proof.
  intros D. destruct (z_to_bytes_fit n BigEndian v D) as [l E]. exists l.
  split; [exact E|]. apply z_to_bytes_ok in E as (R & L & _). split; [exact L|]. exact R.
Qed.
Lemma be_z_dom n l : blen l = n -> in_domain (Z.of_N n) (be_z l).
Proof. intros H. apply be_z_domain. rewrite zlen_blen. lia. Qed.

Lemma xor_key n key data : blen key = n -> blen data = n ->
  exists out, z_to_bytes n BigEndian (Z.lxor (be_z key) (be_z data)) = Ok out /\ blen out = n /\
    z_to_bytes n BigEndian (Z.lxor (be_z key) (be_z out)) = Ok data.
Proof.
  intros Hk Hd.
  destruct (z_dom n (Z.lxor (be_z key) (be_z data))) as (out & E & L & V).
  { apply lxor_domain; [lia|now apply be_z_dom|now apply be_z_dom]. }
  exists out. split; [exact E|]. split; [exact L|].
  rewrite V, <- Z.lxor_assoc, Z.lxor_nilpotent, Z.lxor_0_l. now apply be_z_inv.
Qed.

(** ** Padding *)
Section Padding.
Variable c : cfg.

Lemma start_padding_ok now siv x : start_padding c now siv = Ok x ->
  exists ts, make_timestamp (c_clock c) now (c_timestamp_bytes c) BigEndian = Ok ts /\
    x = ts ++ siv /\ blen ts = c_timestamp_bytes c.
Proof.
  unfold start_padding. intros H. apply bind_ok in H as (ts & Hts & H). apply Ok_inj in H.
  exists ts. split; [exact Hts|]. split; [congruence|].
  apply z_to_bytes_ok in Hts. apply Hts.
Qed.

Definition padding_size (size : N) : N :=
  padding_frame c - (inner_header_bytes c + size) mod padding_frame c.

Lemma padding_size_bounds size : 0 < padding_frame c -> 1 <= padding_size size <= padding_frame c.
Proof.
  intros H. unfold padding_size.
  pose proof (N.mod_lt (inner_header_bytes c + size) (padding_frame c) ltac:(lia)). lia.
Qed.

Lemma sentinel_fits : 0 < padding_frame c -> padding_frame c < 256 ^ sentinel_bytes c
  \/ padding_frame c = 256 /\ sentinel_bytes c = 1.
Proof.
  intros H. unfold sentinel_bytes.
  pose proof (ceil_div_mul_ge (padding_frame c) 256 ltac:(lia)) as G.
  set (k := ceil_div (padding_frame c) 256) in *. clearbody k.
  assert (Hk : k = 1 \/ 2 <= k) by lia. destruct Hk as [->|Hk].
  - destruct (N.eq_dec (padding_frame c) 256); [now right|left]. rewrite N.pow_1_r. lia.
  - left. apply N.le_lt_trans with (256 * k); [assumption|].
    clear -Hk. induction k as [|k IH] using N.peano_ind; [lia|].
    destruct (N.eq_dec k 1) as [->|]; [reflexivity|].
    rewrite N.pow_succ_r'. specialize (IH ltac:(lia)). lia.
Qed.

Lemma data_measurements_ok size : 0 < padding_frame c ->
  exists sentinel, data_measurements c size = Ok (padding_size size, sentinel) /\
    blen sentinel = sentinel_bytes c /\
    be_int sentinel = padding_size size mod padding_frame c.
Proof.
  intros H. unfold data_measurements. destruct (N.eqb_spec (padding_frame c) 0) as [|_]; [lia|].
  cbv zeta. fold (padding_size size).
  pose proof (N.mod_lt (padding_size size) (padding_frame c) ltac:(lia)) as L.
  assert (F : padding_size size mod padding_frame c < 256 ^ sentinel_bytes c).
  { destruct (sentinel_fits H) as [S|[S1 S2]]; [lia|]. rewrite S2, N.pow_1_r. lia. }
  rewrite (to_bytes_be_fit _ _ F). cbn [bind].
  eexists. split; [reflexivity|].
  split; [rewrite blen_be_enc; lia|]. rewrite be_int_be_enc, N2Nat.id. now apply N.mod_small.
Qed.

Lemma sentinel_bytes_pos : 0 < padding_frame c -> 0 < sentinel_bytes c.
Proof.
  intros H. unfold sentinel_bytes.
  pose proof (ceil_div_mul_ge (padding_frame c) 256 ltac:(lia)). lia.
Qed.
Lemma sentinel_bytes_1 : 0 < padding_frame c <= 256 -> sentinel_bytes c = 1.
Proof. intros H. unfold sentinel_bytes. apply ceil_div_small. lia. Qed.

Lemma end_padding_ok size extra : 0 < padding_frame c -> blen extra = padding_frame c ->
  exists end_, end_padding c size extra = Ok end_ /\ blen end_ = padding_size size /\
    (sentinel_bytes c <= padding_size size ->
     be_int (last_n (sentinel_bytes c) end_) = padding_size size mod padding_frame c).
Proof.
  intros H He. unfold end_padding.
  destruct (data_measurements_ok size H) as (sentinel & -> & Ls & Vs). cbn [bind].
  pose proof (padding_size_bounds size H) as B. pose proof (sentinel_bytes_pos H) as P.
  eexists. split; [reflexivity|].
  split. { apply blen_last_n; [lia|]. rewrite blen_app. lia. }
  intros G. rewrite last_n_last_n; [|lia|lia|rewrite blen_app; lia].
  rewrite last_n_app by assumption. exact Vs.
Qed.

Lemma padded_total size : 0 < padding_frame c ->
  (inner_header_bytes c + size + padding_size size) mod padding_frame c = 0.
Proof.
  intros H. unfold padding_size.
  set (a := inner_header_bytes c + size). set (f := padding_frame c) in *.
  pose proof (N.div_mod a f ltac:(lia)) as D. pose proof (N.mod_lt a f ltac:(lia)) as L.
  replace (a + (f - a mod f)) with ((a / f + 1) * f) by nia. apply N.mod_mul. lia.
Qed.

Lemma test_timestamp_opened ck t0 t1 size ts limit (data : bytes) :
  make_timestamp ck t0 size BigEndian = Ok ts ->
  (_ <- test_timestamp ck t1 ts limit BigEndian ;; Ok data) = opened ck t0 t1 limit data.
Proof.
  intros H. apply z_to_bytes_ok in H as (R & _ & _).
  destruct limit as [l|]; [|reflexivity]. unfold test_timestamp, opened, delta. rewrite R.
  set (age := (clock_time ck t1 - clock_time ck t0)%Z).
  destruct (Z.leb_spec age l).
  - replace (age >? l)%Z with false by lia. reflexivity.
  - replace (age >? l)%Z with true by lia. reflexivity.
Qed.

Lemma pad_ok r data : 0 < padding_frame c -> valid_coins c r ->
  exists padded ts end_,
    pad_plaintext c (r_now r) (r_siv r) (r_extra r) data = Ok padded /\
    padded = (ts ++ r_siv r) ++ data ++ end_ /\
    start_padding c (r_now r) (r_siv r) = Ok (ts ++ r_siv r) /\
    end_padding c (blen data) (r_extra r) = Ok end_ /\
    make_timestamp (c_clock c) (r_now r) (c_timestamp_bytes c) BigEndian = Ok ts /\
    blen ts = c_timestamp_bytes c /\ blen (ts ++ r_siv r) = inner_header_bytes c /\
    blen end_ = padding_size (blen data) /\
    (sentinel_bytes c <= padding_size (blen data) ->
     be_int (last_n (sentinel_bytes c) end_) = padding_size (blen data) mod padding_frame c).
Proof.
  intros H V. unfold pad_plaintext, start_padding.
  destruct (z_to_bytes_fit (c_timestamp_bytes c) BigEndian _ (vr_now _ _ V)) as [ts Hts].
  fold (make_timestamp (c_clock c) (r_now r) (c_timestamp_bytes c) BigEndian) in Hts.
  rewrite Hts. cbn [bind].
  destruct (end_padding_ok (blen data) (r_extra r) H (vr_extra _ _ V)) as (e & He & Le & Se).
  rewrite He. cbn [bind].
  assert (Lts : blen ts = c_timestamp_bytes c) by (apply z_to_bytes_ok in Hts; apply Hts).
  exists ((ts ++ r_siv r) ++ data ++ e), ts, e.
  repeat (split; [first [reflexivity|assumption]|]).
  split. { rewrite blen_app, Lts, (vr_siv _ _ V). reflexivity. }
  split; assumption.
Qed.

Lemma depad_of now now' ts siv data end_ limit :
  0 < padding_frame c ->
  make_timestamp (c_clock c) now (c_timestamp_bytes c) BigEndian = Ok ts ->
  blen ts = c_timestamp_bytes c -> blen (ts ++ siv) = inner_header_bytes c ->
  blen end_ = padding_size (blen data) ->
  sentinel_bytes c <= padding_size (blen data) ->
  be_int (last_n (sentinel_bytes c) end_) = padding_size (blen data) mod padding_frame c ->
  depad_plaintext c now' ((ts ++ siv) ++ data ++ end_) limit
  = opened (c_clock c) now now' limit data.
Proof.
  intros H Hts Lts Lh Le Hs Vs. unfold depad_plaintext.
  pose proof (sentinel_bytes_pos H) as P. pose proof (padding_size_bounds (blen data) H) as B.
  assert (I : depadding_end_index c ((ts ++ siv) ++ data ++ end_) = padding_size (blen data)).
  { unfold depadding_end_index. rewrite app_assoc, last_n_suffix by lia. rewrite Vs.
    destruct (N.eq_dec (padding_size (blen data)) (padding_frame c)) as [E|N].
    - rewrite E, N.mod_same by lia. reflexivity.
    - rewrite N.mod_small by lia.
      destruct (N.eqb_spec (padding_size (blen data)) 0); [lia|reflexivity]. }
  rewrite I, <- (app_assoc ts siv), take_app by assumption.
  rewrite (app_assoc ts siv), app_assoc, but_last_n_app by assumption.
  rewrite drop_app by assumption.
  eapply test_timestamp_opened. exact Hts.
Qed.

Lemma pad_depad r data padded now' limit :
  0 < padding_frame c -> valid_coins c r ->
  sentinel_bytes c <= padding_size (blen data) ->
  pad_plaintext c (r_now r) (r_siv r) (r_extra r) data = Ok padded ->
  depad_plaintext c now' padded limit = opened (c_clock c) (r_now r) now' limit data.
Proof.
  intros H V Hs Hp.
  destruct (pad_ok r data H V) as (p & ts & e & Hp' & -> & _ & _ & Hts & Lts & Lh & Le & Se).
  rewrite Hp in Hp'. apply Ok_inj in Hp'. subst padded.
  apply depad_of; auto.
Qed.

End Padding.

(** ** Lockstep of enciphering and deciphering *)
Section Lockstep.
Variable H : hasher.
Variable c : cfg.
Hypothesis XL : forall m n, blen (h_digest H m n) = n.
Hypothesis VC : valid_cfg H c.

Definition perm_size : N :=
  match c_type c with ShakePermute => c_blocksize c | DualOutput => inner_header_bytes c end.

Record live (st : session) : Prop := {
  lv_open : s_finalized (snd st) = false;
  lv_cur : blen (s_cur (snd st)) = rate H;
  lv_prev : blen (s_prev (snd st)) = rate H;
  lv_perm : wf_chain (s_perm (snd st));
  lv_size : cc_size (ch_config (s_perm (snd st))) = Z.of_N perm_size;
}.

(** What the two directions share. *)
Definition core (st : session) :=
  (b_mac (fst st), b_left (fst st), b_right (fst st),
   s_prev (snd st), s_cur (snd st), s_perm (snd st), s_finalized (snd st)).
(** What processing a block leaves alone. *)
Definition fixed (st : session) :=
  (b_salt (fst st), b_aad (fst st), b_iv (fst st), b_iv_is_fresh (fst st),
   b_mode (fst st), b_registered (fst st),
   s_mode (snd st), s_result (snd st), s_perm (snd st), s_finalized (snd st)).

Lemma update_mac_core st st' x : core st = core st' -> core (update_mac H st x) = core (update_mac H st' x).
Proof.
  destruct st as [[] []], st' as [[] []]. cbn. unfold core. cbn. now intros [= -> -> -> -> -> -> ->].
Qed.
Lemma update_mac_fixed st x : fixed (update_mac H st x) = fixed st.
Proof. destruct st as [[] []]. reflexivity. Qed.
Lemma update_mac_live st x : live st -> live (update_mac H st x).
Proof.
  destruct st as [[] []]. intros []. cbn in *. constructor; cbn; auto.
Qed.
Lemma update_mac_mac st x : b_mac (fst (update_mac H st x)) = b_mac (fst st) ++ x.
Proof. destruct st as [[] []]. reflexivity. Qed.
Lemma live_core st st' : core st = core st' -> live st -> live st'.
Proof.
  intros E [A B C D F]. destruct st as [[] []], st' as [[] []]. unfold core in E. cbn in E.
  injection E as -> -> -> -> -> -> ->. constructor; assumption.
Qed.

(** Two directions in lockstep on one block. *)
Definition lockstep (enc dec : session -> bytes -> result (bytes * session)) : Prop :=
  (forall st st' block, live st -> core st = core st' -> blen block = c_blocksize c ->
     exists ct st1 st1', enc st block = Ok (ct, st1) /\ dec st' ct = Ok (block, st1') /\
       blen ct = c_blocksize c /\ core st1 = core st1' /\ live st1 /\
       fixed st1 = fixed st /\ fixed st1' = fixed st') /\
  (forall st st' ct, live st -> core st = core st' -> blen ct = c_blocksize c ->
     exists block st1 st1', dec st' ct = Ok (block, st1') /\ enc st block = Ok (ct, st1) /\
       blen block = c_blocksize c /\ core st1 = core st1' /\ live st1 /\
       fixed st1 = fixed st /\ fixed st1' = fixed st').

Lemma shake_lockstep : c_type c = ShakePermute -> lockstep (shake_encipher H c) (shake_decipher H c).
Proof.
  intros T.
  assert (Hbs : 2 * c_blocksize c + 32 <= rate H).
  { pose proof (vc_checked _ _ VC) as K. unfold check_config in K. rewrite T in K.
    unfold check_shake_config in K.
    repeat match type of K with (if ?x then _ else _) = _ => destruct x eqn:?; [discriminate|] end. lia. }
  split; intros [b s] [b' s'] x L E Lx;
    pose proof (lv_cur _ L) as Lc; pose proof (lv_open _ L) as Lo;
    pose proof (chain_uncapped_inverse _ (lv_perm _ L)) as [I1 I2];
    pose proof (lv_size _ L) as Ls; cbn [snd] in *;
    assert (E' := E); unfold core in E'; cbn [fst snd] in E'; injection E' as Em El Er Ep Ec Eh Ef;
    unfold perm_size in Ls; rewrite T in Ls; rewrite Ls in I1, I2;
    unfold shake_encipher, shake_decipher; rewrite <- Ef, Lo, <- Ec, <- Eh; cbv zeta;
    set (bs := c_blocksize c) in *;
    pose proof (blen_slice 0 bs (s_cur s) ltac:(lia)) as B1;
    pose proof (blen_slice bs (2 * bs) (s_cur s) ltac:(lia)) as B2;
    replace (bs - 0) with bs in B1 by lia; replace (2 * bs - bs) with bs in B2 by lia;
    set (ik := slice 0 bs (s_cur s)) in *; set (ok := slice bs (2 * bs) (s_cur s)) in *;
    pose proof (be_z_dom _ _ B1) as D1; pose proof (be_z_dom _ _ B2) as D2;
    pose proof (be_z_dom _ _ Lx) as Dx.
  - destruct (I1 (Z.lxor (be_z ik) (be_z x))) as (w & P & Dw & Q).
    { apply lxor_domain; [lia|assumption|assumption]. }
    rewrite P. cbn [bind].
    destruct (z_dom bs (Z.lxor (be_z ok) w)) as (ct & Ect & Lct & Vct).
    { apply lxor_domain; [lia|assumption|assumption]. }
    rewrite Ect. cbn [bind]. exists ct.
    eexists _, _. split; [reflexivity|].
    rewrite Vct, <- Z.lxor_assoc, Z.lxor_nilpotent, Z.lxor_0_l, Q. cbn [bind].
    rewrite <- Z.lxor_assoc, Z.lxor_nilpotent, Z.lxor_0_l, be_z_inv by assumption. cbn [bind].
    split; [reflexivity|]. split; [exact Lct|].
    split; [apply update_mac_core; exact E|]. split; [apply update_mac_live; exact L|].
    split; apply update_mac_fixed.
  - destruct (I2 (Z.lxor (be_z ok) (be_z x))) as (w & P & Dw & Q).
    { apply lxor_domain; [lia|assumption|assumption]. }
    rewrite P. cbn [bind].
    destruct (z_dom bs (Z.lxor (be_z ik) w)) as (pt & Ept & Lpt & Vpt).
    { apply lxor_domain; [lia|assumption|assumption]. }
    rewrite Ept. cbn [bind]. exists pt.
    eexists _, _. split; [reflexivity|].
    rewrite Vpt, <- Z.lxor_assoc, Z.lxor_nilpotent, Z.lxor_0_l, Q. cbn [bind].
    rewrite <- Z.lxor_assoc, Z.lxor_nilpotent, Z.lxor_0_l, be_z_inv by assumption. cbn [bind].
    split; [reflexivity|]. split; [exact Lpt|].
    split; [apply update_mac_core; exact E|]. split; [apply update_mac_live; exact L|].
    split; apply update_mac_fixed.
Qed.

(** *** Dual output *)
Lemma dual_facts : c_type c = DualOutput ->
  0 < embedded_capacity_bytes H c /\ 2 * rate H = 2 * embedded_capacity_bytes H c + c_blocksize c /\
  inner_header_bytes c <= c_blocksize c /\ 2 * inner_header_bytes c <= rate H /\
  0 < inner_header_bytes c /\
  2 * (inner_header_bytes c / 2) = inner_header_bytes c.
Proof.
  intros T.
  pose proof (vc_checked _ _ VC) as K. unfold check_config in K. rewrite T in K.
  unfold check_dual_config in K.
  repeat match type of K with (if ?x then _ else _) = _ => destruct x eqn:?; [discriminate|] end.
  assert (E1 : N.Even (inner_header_bytes c)) by (apply N.even_spec; destruct (N.even (inner_header_bytes c)); auto).
  assert (E2 : N.Even (c_blocksize c)) by (apply N.even_spec; destruct (N.even (c_blocksize c)); auto).
  destruct E1 as [i Ei], E2 as [j Ej].
  destruct (vc_perm _ _ VC) as (k & m & P). rewrite T in P.
  apply make_chain_config_ok in P as (p & _ & _ & _ & _ & Pos & _).
  unfold embedded_capacity_bytes in *.
  assert (D : (2 * rate H - c_blocksize c) / 2 = rate H - j).
  { replace (2 * rate H - c_blocksize c) with ((rate H - j) * 2) by lia. apply N.div_mul. lia. }
  assert (D2 : inner_header_bytes c / 2 = i).
  { rewrite Ei, N.mul_comm. apply N.div_mul. lia. }
  rewrite D, D2. repeat split; lia.
Qed.

Lemma blen_trim {A} n (l : list A) : 0 < n -> 2 * n <= blen l ->
  blen (drop n (but_last_n n l)) = blen l - 2 * n.
Proof.
  intros Hn Hl. unfold but_last_n. rewrite blen_drop, blen_take. lia.
Qed.

Lemma keystream_core b b' x :
  (b_mac b, b_left b, b_right b) = (b_mac b', b_left b', b_right b') ->
  fst (keystream_send H b x) = fst (keystream_send H b' x) /\
  let k := snd (keystream_send H b x) in let k' := snd (keystream_send H b' x) in
  (b_mac k, b_left k, b_right k) = (b_mac k', b_left k', b_right k').
Proof. destruct b, b'. cbn. now intros [= -> -> ->]. Qed.

Lemma dual_key_len b x : blen (fst (keystream_send H b x)) = 2 * rate H.
Proof. unfold keystream_send. cbn [fst]. rewrite blen_app, !XL. lia. Qed.

Lemma dual_lockstep : c_type c = DualOutput -> lockstep (dual_encipher H c) (dual_decipher H c).
Proof.
  intros T. destruct (dual_facts T) as (Fc & Fs & _).
  split; intros [b s] [b' s'] x L E Lx;
    pose proof (lv_open _ L) as Lo; cbn [snd] in *;
    assert (E' := E); unfold core in E'; cbn [fst snd] in E'; injection E' as Em El Er Ep Ec Eh Ef;
    unfold dual_encipher, dual_decipher; rewrite <- Ef, Lo, <- Ec, <- Ep;
    destruct (keystream_core b b' (s_cur s ++ s_prev s)) as [K1 K2]; [congruence| |congruence|];
    pose proof (dual_key_len b (s_cur s ++ s_prev s)) as KL;
    destruct (keystream_send H b (s_cur s ++ s_prev s)) as [key b1] eqn:Kb;
    destruct (keystream_send H b' (s_cur s ++ s_prev s)) as [key' b1'] eqn:Kb';
    cbn [fst snd] in *; subst key';
    assert (Lk : blen (embedded_key H c key) = c_blocksize c)
      by (unfold embedded_key, trim; destruct (N.eqb_spec (embedded_capacity_bytes H c) 0); [lia|];
          rewrite blen_trim; lia);
    destruct (xor_key _ _ _ Lk Lx) as (y & Ey & Ly & Ey');
    rewrite Ey; cbn [bind]; exists y; eexists _, _; (split; [reflexivity|]);
    rewrite Ey'; cbn [bind]; (split; [reflexivity|]); (split; [exact Ly|]);
    (split; [apply update_mac_core; unfold core; cbn [fst snd]; cbv zeta in K2; injection K2 as -> -> ->; congruence|]);
    (split; [apply update_mac_live; destruct L; constructor; assumption|]);
    rewrite !update_mac_fixed; unfold keystream_send in Kb, Kb'; injection Kb as _ <-; injection Kb' as _ <-;
    split; reflexivity.
Qed.

Lemma dual_first_lockstep : c_type c = DualOutput ->
  lockstep (dual_first_encipher H c) (dual_first_decipher H c).
Proof.
  intros T. destruct (dual_facts T) as (Fc & Fs & Fb & _ & Fi & Fh).
  split; intros [b s] [b' s'] x L E Lx;
    pose proof (lv_open _ L) as Lo;
    pose proof (chain_inverse _ (lv_perm _ L)) as [I1 I2];
    pose proof (lv_size _ L) as Ls; cbn [snd] in *;
    assert (E' := E); unfold core in E'; cbn [fst snd] in E'; injection E' as Em El Er Ep Ec Eh Ef;
    unfold perm_size in Ls; rewrite T in Ls; rewrite Ls in I1, I2;
    unfold dual_first_encipher, dual_first_decipher; rewrite <- Ef, Lo, <- Ec, <- Eh, <- Em;
    set (ih := inner_header_bytes c) in *;
    assert (Lt : blen (take ih x) = ih) by (rewrite blen_take; lia);
    assert (Ld : blen (drop ih x) = first_content_bytes c) by (rewrite blen_drop; unfold first_content_bytes; lia);
    pose proof (be_z_dom _ _ Lt) as Dt.
  - destruct (I1 _ Dt) as (w & P & Dw & Q). rewrite P. cbn [bind].
    destruct (z_dom ih w Dw) as (mh & Emh & Lmh & Vmh). rewrite Emh. cbn [bind].
    set (mac := b_mac b ++ take ih x ++ mh ++ drop (2 * ih) (s_cur s)).
    destruct (keystream_core (set_mac b mac) (set_mac b' mac) (h_digest H mac (2 * rate H))) as [K1 K2];
      [cbn; congruence|].
    pose proof (dual_key_len (set_mac b mac) (h_digest H mac (2 * rate H))) as KL.
    destruct (keystream_send H (set_mac b mac) (h_digest H mac (2 * rate H))) as [key b1] eqn:Kb.
    destruct (keystream_send H (set_mac b' mac) (h_digest H mac (2 * rate H))) as [key' b1'] eqn:Kb'.
    cbn [fst snd] in *. subst key'.
    assert (Lk : blen (first_key H c key) = first_content_bytes c).
    { unfold first_key, trim. fold ih.
      destruct (N.eqb_spec (embedded_capacity_bytes H c + ih / 2) 0); [lia|].
      unfold first_content_bytes. fold ih. rewrite blen_trim; lia. }
    destruct (xor_key _ _ _ Lk Ld) as (y & Ey & Ly & Ey').
    rewrite Ey. cbn [bind]. exists (mh ++ y). eexists _, _. split; [reflexivity|].
    rewrite !(take_app ih mh y Lmh), !(drop_app ih mh y Lmh), Vmh, Q. cbn [bind].
    rewrite (be_z_inv ih (take ih x) Lt). cbn [bind]. fold mac. rewrite Kb', Ey'. cbn [bind].
    split; [now rewrite take_drop|].
    split; [rewrite blen_app, Lmh, Ly; unfold first_content_bytes; fold ih; lia|].
    split; [apply update_mac_core; unfold core; cbn [fst snd]; cbv zeta in K2; injection K2 as -> -> ->; congruence|].
    split; [apply update_mac_live; destruct L; constructor; assumption|].
    rewrite !update_mac_fixed. unfold keystream_send in Kb, Kb'. injection Kb as _ <-. injection Kb' as _ <-.
    split; reflexivity.
  - destruct (I2 _ Dt) as (w & P & Dw & Q). rewrite P. cbn [bind].
    destruct (z_dom ih w Dw) as (hd & Ehd & Lhd & Vhd). rewrite Ehd. cbn [bind].
    set (mac := b_mac b ++ hd ++ take ih x ++ drop (2 * ih) (s_cur s)).
    destruct (keystream_core (set_mac b mac) (set_mac b' mac) (h_digest H mac (2 * rate H))) as [K1 K2];
      [cbn; congruence|].
    pose proof (dual_key_len (set_mac b mac) (h_digest H mac (2 * rate H))) as KL.
    destruct (keystream_send H (set_mac b mac) (h_digest H mac (2 * rate H))) as [key b1] eqn:Kb.
    destruct (keystream_send H (set_mac b' mac) (h_digest H mac (2 * rate H))) as [key' b1'] eqn:Kb'.
    cbn [fst snd] in *. subst key'.
    assert (Lk : blen (first_key H c key) = first_content_bytes c).
    { unfold first_key, trim. fold ih.
      destruct (N.eqb_spec (embedded_capacity_bytes H c + ih / 2) 0); [lia|].
      unfold first_content_bytes. fold ih. rewrite blen_trim; lia. }
    destruct (xor_key _ _ _ Lk Ld) as (y & Ey & Ly & Ey').
    rewrite Ey. cbn [bind]. exists (hd ++ y). eexists _, _. split; [reflexivity|].
    rewrite !(take_app ih hd y Lhd), !(drop_app ih hd y Lhd), Vhd, Q. cbn [bind].
    rewrite (be_z_inv ih (take ih x) Lt). cbn [bind]. fold mac. rewrite Kb, Ey'. cbn [bind].
    rewrite take_drop.
    split; [reflexivity|].
    split; [rewrite blen_app, Lhd, Ly; unfold first_content_bytes; fold ih; lia|].
    split; [apply update_mac_core; unfold core; cbn [fst snd]; cbv zeta in K2; injection K2 as -> -> ->; congruence|].
    split; [apply update_mac_live; destruct L; constructor; assumption|].
    rewrite !update_mac_fixed. unfold keystream_send in Kb, Kb'. injection Kb as _ <-. injection Kb' as _ <-.
    split; reflexivity.
Qed.

Lemma transform_lockstep first :
  lockstep (transform H c Encryption first) (transform H c Decryption first).
Proof.
  unfold transform. destruct (c_type c) eqn:T.
  - now apply shake_lockstep.
  - destruct first; [now apply dual_first_lockstep|now apply dual_lockstep].
Qed.

Definition full (bs : list bytes) : Prop := Forall (fun b => blen b = c_blocksize c) bs.

Lemma blocks_enc_dec : forall blocks first st st', live st -> core st = core st' -> full blocks ->
  exists cts st1 st1',
    transform_blocks H c Encryption first st blocks = Ok (cts, st1) /\
    transform_blocks H c Decryption first st' cts = Ok (blocks, st1') /\
    full cts /\ length cts = length blocks /\ core st1 = core st1' /\ live st1 /\
    fixed st1 = fixed st /\ fixed st1' = fixed st'.
Proof.
  induction blocks as [|x xs IH]; intros first st st' L E F.
  - exists [], st, st'. cbn. repeat (split; [first [reflexivity|assumption|constructor]|]). split; reflexivity.
  - inversion F as [|? ? Fx Fxs]; subst.
    destruct (proj1 (transform_lockstep first) st st' x L E Fx)
      as (ct & st1 & st1' & T1 & T2 & Lc & E1 & L1 & X1 & X1').
    destruct (IH false st1 st1' L1 E1 Fxs)
      as (cts & st2 & st2' & R1 & R2 & Fc & Ln & E2 & L2 & X2 & X2').
    exists (ct :: cts), st2, st2'. cbn [transform_blocks].
    rewrite T1. cbn [bind]. rewrite R1. cbn [bind]. rewrite T2. cbn [bind]. rewrite R2. cbn [bind].
    split; [reflexivity|]. split; [reflexivity|]. split; [constructor; assumption|].
    split; [cbn; congruence|]. split; [assumption|]. split; [assumption|]. split; congruence.
Qed.

Lemma blocks_dec_enc : forall cts first st st', live st -> core st = core st' -> full cts ->
  exists blocks st1 st1',
    transform_blocks H c Decryption first st' cts = Ok (blocks, st1') /\
    transform_blocks H c Encryption first st blocks = Ok (cts, st1) /\
    full blocks /\ length blocks = length cts /\ core st1 = core st1' /\ live st1 /\
    fixed st1 = fixed st /\ fixed st1' = fixed st'.
Proof.
  induction cts as [|x xs IH]; intros first st st' L E F.
  - exists [], st, st'. cbn. repeat (split; [first [reflexivity|assumption|constructor]|]). split; reflexivity.
  - inversion F as [|? ? Fx Fxs]; subst.
    destruct (proj2 (transform_lockstep first) st st' x L E Fx)
      as (pt & st1 & st1' & T1 & T2 & Lc & E1 & L1 & X1 & X1').
    destruct (IH false st1 st1' L1 E1 Fxs)
      as (pts & st2 & st2' & R1 & R2 & Fc & Ln & E2 & L2 & X2 & X2').
    exists (pt :: pts), st2, st2'. cbn [transform_blocks].
    rewrite T1. cbn [bind]. rewrite R1. cbn [bind]. rewrite T2. cbn [bind]. rewrite R2. cbn [bind].
    split; [reflexivity|]. split; [reflexivity|]. split; [constructor; assumption|].
    split; [cbn; congruence|]. split; [assumption|]. split; [assumption|]. split; congruence.
Qed.

End Lockstep.
