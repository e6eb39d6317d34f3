From Coq Require Import ZArith.
From Verif Require Import Base BaseFacts CanonModel CanonSpec CanonProofs PermModel PermSpec
  PermProofs ClockModel ClockProofs GentoolsModel GentoolsProofs CipherModel CipherSpec CipherProofs.
Local Open Scope N_scope.

Section Session.
Variable H : hasher.
Variable c : cfg.
Hypothesis XL : forall m n, blen (h_digest H m n) = n.
Hypothesis VC : valid_cfg H c.

Lemma blocksize_pos : 0 < c_blocksize c.
Proof.
  pose proof (vc_checked _ _ VC) as K. unfold check_config in K.
  destruct (c_type c); [unfold check_shake_config in K|unfold check_dual_config in K];
    repeat match type of K with (if ?x then _ else _) = _ => destruct x eqn:?; [discriminate|] end; lia.
Qed.
Lemma frame_pos : 0 < padding_frame c.
Proof. pose proof blocksize_pos. unfold padding_frame, min_stream_queue. nia. Qed.
Lemma frame_blocks : padding_frame c mod c_blocksize c = 0.
Proof. unfold padding_frame. rewrite N.mul_comm. apply N.mod_mul. pose proof blocksize_pos. lia. Qed.

Definition mkb s aad v fresh mode reg mac l r : bundle :=
  {| b_salt := s; b_aad := aad; b_iv := v; b_iv_is_fresh := fresh; b_mode := mode;
     b_registered := reg; b_mac := mac; b_left := l; b_right := r |}.

Lemma new_session_total k kdf summary : (exists p, kc_pad k = [p]) ->
  exists x, new_session_copy H k kdf summary = Ok x.
Proof.
  intros [p Hp]. unfold new_session_copy. rewrite Hp.
  pose proof (vc_rate _ _ VC) as R.
  unfold fullblock_ljust, rate. destruct (N.eqb_spec (h_block_size H) 0); [lia|].
  unfold ljust. cbn [bind]. eexists. reflexivity.
Qed.

Lemma summary_total (s aad v : bytes) : blen s = c_salt_bytes c -> blen v = c_iv_bytes c -> blen aad < 2 ^ 32 ->
  exists x, canonical_pack [s; aad; v] 1 [x00] 4 = Ok x.
Proof.
  intros Hs Hv Ha. apply canonical_pack_total.
  pose proof (vc_salt _ _ VC). pose proof (vc_iv _ _ VC).
  change (2 ^ 32) with 4294967296 in *.
  unfold fits. change (256 ^ 4) with 4294967296.
  split; [lia|]. split; [lia|]. split; [vm_compute; reflexivity|].
  repeat constructor; lia.
Qed.

Lemma make_shmac_total b : b_mode b <> None ->
  exists sh, make_shmac H c b = Ok sh /\ s_mode sh = None /\ s_result sh = None /\ live H c (b, sh).
Proof.
  intros Hm. unfold make_shmac. destruct (b_mode b); [|congruence].
  destruct (vc_perm _ _ VC) as (k & mult & P).
  pose proof (make_chain_config_ok _ _ _ _ P) as (p & _ & _ & _ & Esz & Pos & _ & _ & _ & _ & EK & _).
  set (sz := Z.of_N _) in *.
  assert (Kp : (0 < cc_key_size (c_perm c))%Z) by (rewrite EK; destruct k; lia).
  pose proof (vc_rate _ _ VC) as R. fold (rate H) in R.
  set (primer := h_digest H (b_mac b) (primer_key_bytes H c)).
  assert (Lp : blen primer = rate H * (1 + ceil_div (permutation_key_bytes c) (rate H))) by (unfold primer; rewrite XL; reflexivity).
  pose proof (ceil_div_mul_ge (permutation_key_bytes c) (rate H) ltac:(lia)) as G.
  assert (Lk : zlen (last_n (permutation_key_bytes c) primer) = cc_key_size (c_perm c)).
  { rewrite zlen_blen, blen_last_n; unfold permutation_key_bytes in *; [lia|lia|]. lia. }
  destruct (make_chain_wf _ _ _ _ _ P Lk) as (s & E & W & C & _).
  rewrite E. cbn [bind]. eexists. split; [reflexivity|]. cbn [s_mode s_result].
  split; [reflexivity|]. split; [reflexivity|].
  assert (Lt : blen (take (rate H) primer) = rate H) by (rewrite blen_take; lia).
  constructor; cbn [snd s_finalized s_cur s_prev s_perm]; auto.
  rewrite C, Esz. reflexivity.
Qed.

Lemma make_shmac_mac b b' sh : b_mac b = b_mac b' -> b_mode b' <> None ->
  make_shmac H c b = Ok sh -> make_shmac H c b' = Ok sh.
Proof.
  unfold make_shmac. intros E. rewrite E. destruct (b_mode b), (b_mode b'); congruence.
Qed.

Lemma session_ok ks (s aad v : bytes) :
  blen s = c_salt_bytes c -> blen v = c_iv_bytes c -> blen aad < 2 ^ 32 ->
  exists mac l r sh,
    s_mode sh = None /\ s_result sh = None /\
    (forall fresh reg, live H c (mkb s aad v fresh (Some Sync) reg mac l r, sh)) /\
    (forall mode, mode <> None -> forall fresh reg, make_shmac H c (mkb s aad v fresh mode reg mac l r) = Ok sh) /\
    (forall osalt oiv rsalt riv,
       choose_salt osalt rsalt = s -> fst (choose_iv oiv riv) = v ->
       make_bundle H c ks osalt aad oiv rsalt riv
       = Ok (mkb s aad v (snd (choose_iv oiv riv)) None false mac l r)).
Proof.
  intros Hs Hv Ha.
  destruct (summary_total s aad v Hs Hv Ha) as [summary Hsum].
  destruct (new_session_total (c_shmac_kdf c) (kd_shmac ks) summary) as [mac Hmac];
    [apply (vc_pads _ _ VC); cbn; auto|].
  destruct (new_session_total (c_left_kdf c) (kd_left ks) summary) as [l Hl];
    [apply (vc_pads _ _ VC); cbn; auto|].
  destruct (new_session_total (c_right_kdf c) (kd_right ks) summary) as [r Hr];
    [apply (vc_pads _ _ VC); cbn; auto|].
  set (l' := match c_type c with ShakePermute => [] | DualOutput => l end).
  set (r' := match c_type c with ShakePermute => [] | DualOutput => r end).
  destruct (make_shmac_total (mkb s aad v true (Some Sync) true mac l' r')) as (sh & Esh & M1 & M2 & L);
    [discriminate|].
  exists mac, l', r', sh. split; [exact M1|]. split; [exact M2|].
  split. { intros fresh reg. refine (live_core _ _ _ _ _ L). reflexivity. }
  split. { intros mode Hm fresh reg. eapply make_shmac_mac; [| |exact Esh]; [reflexivity|exact Hm]. }
  intros osalt oiv rsalt riv Es Ev. unfold make_bundle. rewrite Es.
  destruct (choose_iv oiv riv) as [v' fresh]. cbn [fst snd] in *. subst v'.
  rewrite Hs, Hv, !N.eqb_refl. cbn [negb]. rewrite Hsum. cbn [bind]. rewrite Hmac. cbn [bind].
  unfold l', r'. destruct (c_type c); [reflexivity|]. rewrite Hl. cbn [bind]. rewrite Hr. cbn [bind].
  reflexivity.
Qed.

Lemma tag_of_result x : shmac_result H c x = tag_of H c x.
Proof.
  unfold shmac_result, tag_of, last_n, rate. pose proof (vc_tag _ _ VC).
  destruct (N.eqb_spec (c_shmac_bytes c) 0); [lia|]. now rewrite XL.
Qed.
Lemma blen_tag x : blen (tag_of H c x) = c_shmac_bytes c.
Proof. unfold tag_of. rewrite blen_drop, XL. pose proof (vc_tag _ _ VC). lia. Qed.

(** The two sessions started from one key, salt, associated data and IV. *)
Record started (ks : kdfs) (s aad v : bytes) (e d : session) : Prop := {
  st_live : live H c e;
  st_core : core e = core d;
  st_emode : s_mode (snd e) = Some Encryption;
  st_dmode : s_mode (snd d) = Some Decryption;
  st_esalt : b_salt (fst e) = s;
  st_eiv : b_iv (fst e) = v;
  st_seal : forall padded, seal H c ks s aad v padded =
    (' (blocks, (b, s')) <- combine_streams H c Encryption e (batch padded (c_blocksize c)) ;;
     ' (tag, _) <- finalize H c b s' ;;
     Ok (tag ++ s ++ v ++ concat blocks));
  st_open : forall rsalt now data limit tag body,
    parse_ciphertext c data = Ok {| ct_shmac := tag; ct_salt := s; ct_iv := v; ct_body := body |} ->
    bytes_decrypt H c ks rsalt now data aad limit =
    (' (blocks, (b, s')) <- combine_streams H c Decryption d (batch body (c_blocksize c)) ;;
     ' (_, s') <- finalize H c b s' ;;
     _ <- test_shmac s' tag ;;
     depad_plaintext c now (concat blocks) limit);
  st_encrypt : forall r data salt padded,
    choose_salt salt (r_salt r) = s -> r_iv r = v ->
    pad_plaintext c (r_now r) (r_siv r) (r_extra r) data = Ok padded ->
    bytes_encrypt H c ks r data salt aad =
    (' (blocks, (b, s')) <- combine_streams H c Encryption e (batch padded (c_blocksize c)) ;;
     ' (tag, _) <- finalize H c b s' ;;
     Ok (tag ++ b_salt b ++ b_iv b ++ concat blocks));
  st_absorbed : forall body, exists d0, core d0 = core d /\
    absorbed H c ks s aad v body =
    (' (_, (b, _)) <- transform_blocks H c Decryption true d0 (batch body (c_blocksize c)) ;;
     Ok (b_mac b));
  st_eenter : forall r salt, choose_salt salt (r_salt r) = s -> r_iv r = v ->
    (b <- make_bundle H c ks salt aad None (r_salt r) (r_iv r) ;;
     b <- set_run_mode Sync b ;;
     sh <- make_shmac H c b ;;
     sh <- for_encryption b sh ;;
     junction Encryption Sync (b, sh)) = Ok e;
  st_denter : forall rsalt,
    (b <- make_bundle H c ks (Some s) aad (Some v) rsalt [] ;;
     b <- set_run_mode Sync b ;;
     sh <- make_shmac H c b ;;
     sh <- for_decryption b sh ;;
     junction Decryption Sync (b, sh)) = Ok d;
  st_eresult : s_result (snd e) = None;
  st_dresult : s_result (snd d) = None;
}.

Lemma choose_some s r : s <> [] -> choose_salt (Some s) r = s.
Proof. destruct s; [congruence|reflexivity]. Qed.
Lemma salt_nonempty (s : bytes) : blen s = c_salt_bytes c -> s <> [].
Proof. intros E ->. pose proof (vc_salt _ _ VC). rewrite (@blen_nil byte) in E. lia. Qed.

Lemma sessions_start ks (s aad v : bytes) :
  blen s = c_salt_bytes c -> blen v = c_iv_bytes c -> blen aad < 2 ^ 32 ->
  exists e d, started ks s aad v e d.
Proof.
  intros Hs Hv Ha.
  destruct (session_ok ks s aad v Hs Hv Ha) as (mac & l & r & sh & M1 & M2 & L & MS & MB).
  pose proof (salt_nonempty s Hs) as Ne.
  exists (mkb s aad v true (Some Sync) true mac l r, set_cipher_mode sh Encryption),
         (mkb s aad v false (Some Sync) true mac l r, set_cipher_mode sh Decryption).
  constructor.
  - destruct (L true true). constructor; assumption.
  - reflexivity.
  - reflexivity.
  - reflexivity.
  - reflexivity.
  - reflexivity.
  - intros padded. unfold seal. rewrite (MB (Some s) None [] v); [|now apply choose_some|reflexivity].
    cbn [bind]. unfold set_run_mode at 1. cbn [mkb b_mode]. cbn [bind].
    fold (mkb s aad v true (Some Sync) false mac l r). cbn [snd choose_iv].
    change {| b_salt := _ |} with (mkb s aad v true (Some Sync) false mac l r).
    rewrite MS by discriminate. cbn [bind].
    unfold for_encryption. rewrite M1. cbn [mkb b_iv_is_fresh negb bind].
    unfold junction, register_shmac. cbn [b_registered bind].
    unfold check_modes. cbn [set_cipher_mode s_mode mode_eqb b_mode run_mode_eqb bind]. reflexivity.
  - intros rsalt now data limit tag body Hp. unfold bytes_decrypt. rewrite Hp. cbn [bind ct_salt ct_iv ct_body ct_shmac].
    rewrite (MB (Some s) (Some v) rsalt []); [|now apply choose_some|reflexivity].
    cbn [bind]. unfold set_run_mode at 1. cbn [mkb b_mode]. cbn [bind snd choose_iv].
    change {| b_salt := _ |} with (mkb s aad v false (Some Sync) false mac l r).
    rewrite MS by discriminate. cbn [bind].
    unfold for_decryption. rewrite M1. cbn [mkb b_iv_is_fresh bind].
    unfold junction, register_shmac. cbn [b_registered bind].
    unfold check_modes. cbn [set_cipher_mode s_mode mode_eqb b_mode run_mode_eqb bind]. reflexivity.
  - intros rc data salt padded Es Ev Hp. unfold bytes_encrypt.
    rewrite (MB salt None (r_salt rc) (r_iv rc)); [|exact Es|exact Ev].
    cbn [bind]. unfold set_run_mode at 1. cbn [mkb b_mode]. cbn [bind snd choose_iv].
    change {| b_salt := _ |} with (mkb s aad v true (Some Sync) false mac l r).
    rewrite MS by discriminate. cbn [bind].
    unfold for_encryption. rewrite M1. cbn [mkb b_iv_is_fresh negb bind]. rewrite Hp. cbn [bind].
    unfold junction, register_shmac. cbn [b_registered bind].
    unfold check_modes. cbn [set_cipher_mode s_mode mode_eqb b_mode run_mode_eqb bind]. reflexivity.
  - intros body. exists (mkb s aad v false (Some Sync) false mac l r, sh).
    split; [reflexivity|]. unfold absorbed.
    rewrite (MB (Some s) (Some v) s v); [|now apply choose_some|reflexivity].
    cbn [bind]. unfold set_run_mode at 1. cbn [mkb b_mode]. cbn [bind snd choose_iv].
    change {| b_salt := _ |} with (mkb s aad v false (Some Sync) false mac l r).
    rewrite MS by discriminate. cbn [bind]. reflexivity.
  - intros rc salt Es Ev. rewrite (MB salt None (r_salt rc) (r_iv rc)); [|exact Es|exact Ev].
    cbn [bind]. unfold set_run_mode at 1. cbn [mkb b_mode]. cbn [bind snd choose_iv].
    change {| b_salt := _ |} with (mkb s aad v true (Some Sync) false mac l r).
    rewrite MS by discriminate. cbn [bind].
    unfold for_encryption. rewrite M1. cbn [mkb b_iv_is_fresh negb bind].
    unfold junction, register_shmac. cbn [b_registered bind].
    unfold check_modes. cbn [set_cipher_mode s_mode mode_eqb b_mode run_mode_eqb bind]. reflexivity.
  - intros rsalt. rewrite (MB (Some s) (Some v) rsalt []); [|now apply choose_some|reflexivity].
    cbn [bind]. unfold set_run_mode at 1. cbn [mkb b_mode]. cbn [bind snd choose_iv].
    change {| b_salt := _ |} with (mkb s aad v false (Some Sync) false mac l r).
    rewrite MS by discriminate. cbn [bind].
    unfold for_decryption. rewrite M1. cbn [mkb b_iv_is_fresh bind].
    unfold junction, register_shmac. cbn [b_registered bind].
    unfold check_modes. cbn [set_cipher_mode s_mode mode_eqb b_mode run_mode_eqb bind]. reflexivity.
  - exact M2.
  - exact M2.
Qed.

Lemma combine_nonempty m st blocks : blocks <> [] ->
  combine_streams H c m st blocks = transform_blocks H c m true st blocks.
Proof. unfold combine_streams. destruct (c_type c), blocks; congruence. Qed.

Lemma batch_nonempty x n : 0 < n -> x <> [] -> batch x n <> [].
Proof. intros Hn Hx. rewrite batch_step by assumption. discriminate. Qed.

(** Sealing whole blocks always works, and is undone by opening. *)
Lemma seal_opens ks s aad v e d padded :
  started ks s aad v e d -> padded <> [] -> blen padded mod c_blocksize c = 0 ->
  exists blocks e1 d1,
    transform_blocks H c Encryption true e (batch padded (c_blocksize c)) = Ok (blocks, e1) /\
    transform_blocks H c Decryption true d blocks = Ok (batch padded (c_blocksize c), d1) /\
    full c blocks /\ length blocks = length (batch padded (c_blocksize c)) /\
    core e1 = core d1 /\ live H c e1 /\ fixed e1 = fixed e /\ fixed d1 = fixed d /\
    seal H c ks s aad v padded = Ok (tag_of H c (b_mac (fst e1)) ++ s ++ v ++ concat blocks).
Proof.
  intros St Hne Hm. pose proof blocksize_pos as Bp.
  pose proof (batch_full _ _ Bp Hm) as F.
  destruct (blocks_enc_dec H c XL VC _ true e d (st_live _ _ _ _ _ _ St) (st_core _ _ _ _ _ _ St) F)
    as (blocks & e1 & d1 & T1 & T2 & Fb & Ln & E1 & L1 & X1 & X2).
  exists blocks, e1, d1. repeat (split; [assumption|]).
  rewrite (st_seal _ _ _ _ _ _ St), combine_nonempty by now apply batch_nonempty.
  rewrite T1. destruct e1 as [b1 s1]. cbn [bind]. unfold finalize.
  pose proof (lv_open _ _ _ L1) as Lo. cbn [snd] in Lo. rewrite Lo. cbn [bind fst].
  rewrite tag_of_result. reflexivity.
Qed.

(** Opening whole blocks always comes down to comparing tags. *)
Lemma opening ks s aad v e d rsalt now data limit tag body :
  started ks s aad v e d ->
  parse_ciphertext c data = Ok {| ct_shmac := tag; ct_salt := s; ct_iv := v; ct_body := body |} ->
  body <> [] -> blen body mod c_blocksize c = 0 ->
  exists padded e1 d1,
    transform_blocks H c Decryption true d (batch body (c_blocksize c)) = Ok (batch padded (c_blocksize c), d1) /\
    transform_blocks H c Encryption true e (batch padded (c_blocksize c)) = Ok (batch body (c_blocksize c), e1) /\
    blen padded = blen body /\
    core e1 = core d1 /\ live H c e1 /\ fixed d1 = fixed d /\
    absorbed H c ks s aad v body = Ok (b_mac (fst d1)) /\
    seal H c ks s aad v padded = Ok (tag_of H c (b_mac (fst d1)) ++ s ++ v ++ body) /\
    bytes_decrypt H c ks rsalt now data aad limit =
      (if bytes_eqb tag (tag_of H c (b_mac (fst d1))) then depad_plaintext c now padded limit
       else Err InvalidSHMAC).
Proof.
  intros St Hp Hne Hm. pose proof blocksize_pos as Bp.
  pose proof (batch_full _ _ Bp Hm) as F.
  destruct (blocks_dec_enc H c XL VC _ true e d (st_live _ _ _ _ _ _ St) (st_core _ _ _ _ _ _ St) F)
    as (blocks & e1 & d1 & T1 & T2 & Fb & Ln & E1 & L1 & X1 & X2).
  assert (Eb : batch (concat blocks) (c_blocksize c) = blocks) by now apply batch_blocks.
  assert (Lb : forall l, full c l -> blen (concat l) = N.of_nat (length l) * c_blocksize c).
  { clear. induction l as [|x l IH]; intros F; [reflexivity|]. inversion F; subst. cbn [concat length].
    rewrite blen_app, IH by assumption. lia. }
  assert (Hl : blen (concat blocks) = blen body).
  { rewrite Lb by assumption. rewrite Ln, <- Lb by assumption. now rewrite batch_concat. }
  assert (Pne : concat blocks <> []).
  { intros E. rewrite E, (@blen_nil byte) in Hl. apply Hne. apply blen_0. lia. }
  exists (concat blocks), e1, d1. rewrite !Eb.
  split; [exact T1|]. split; [exact T2|]. split; [exact Hl|]. split; [exact E1|].
  split; [exact L1|]. split; [exact X2|].
  split.
  { destruct (st_absorbed _ _ _ _ _ _ St body) as (d0 & Ed0 & ->).
    assert (L0 : live H c e) by apply (st_live _ _ _ _ _ _ St).
    assert (C0 : core e = core d0) by (rewrite Ed0; apply (st_core _ _ _ _ _ _ St)).
    destruct (blocks_dec_enc H c XL VC _ true e d0 L0 C0 F)
      as (blocks' & e1' & d1' & T1' & T2' & _ & Ln' & E1' & _).
    assert (Q : exists y, core y = core d1 /\ transform_blocks H c Decryption true d0 (batch body (c_blocksize c)) = Ok (blocks', y)).
    { exists d1'. split; [|exact T1'].
      (* decipher from [e]'s twin: both runs re-encipher to the same state *)
      destruct (blocks_enc_dec H c XL VC blocks true e d0 L0 C0 Fb) as (cts & e2 & d2 & A1 & A2 & _ & _ & A3 & _).
      rewrite T2 in A1. apply Ok_inj in A1. injection A1 as <- <-.
      rewrite T1' in A2. apply Ok_inj in A2. injection A2 as -> ->. congruence. }
    destruct Q as (y & Ey & ->). destruct y as [b2 s2]. cbn [bind]. f_equal.
    unfold core in Ey. cbn [fst] in Ey. congruence. }
  assert (Md : b_mac (fst e1) = b_mac (fst d1)) by (unfold core in E1; congruence).
  split.
  { rewrite (st_seal _ _ _ _ _ _ St), combine_nonempty by now apply batch_nonempty.
    rewrite Eb, T2. destruct e1 as [b1 s1]. cbn [bind]. unfold finalize.
    pose proof (lv_open _ _ _ L1) as Lo. cbn [snd] in Lo. rewrite Lo. cbn [bind fst] in *.
    rewrite tag_of_result, Md. now rewrite batch_concat. }
  rewrite (st_open _ _ _ _ _ _ St rsalt now data limit tag body Hp), combine_nonempty by now apply batch_nonempty.
  rewrite T1. destruct d1 as [b1 s1]. cbn [bind]. unfold finalize.
  pose proof (live_core _ _ _ _ E1 L1) as Ld. pose proof (lv_open _ _ _ Ld) as Lo. cbn [snd] in Lo.
  rewrite Lo. cbn [bind fst] in *.
  unfold test_shmac, result_of. cbn [s_result bind]. rewrite tag_of_result.
  destruct (bytes_eqb tag (tag_of H c (b_mac b1))); reflexivity.
Qed.

(** ** Parsing *)
Lemma parse_parts tag s v body :
  blen tag = c_shmac_bytes c -> blen s = c_salt_bytes c -> blen v = c_iv_bytes c ->
  body <> [] -> blen body mod c_blocksize c = 0 ->
  parse_ciphertext c (tag ++ s ++ v ++ body)
  = Ok {| ct_shmac := tag; ct_salt := s; ct_iv := v; ct_body := body |}.
Proof.
  intros Ht Hs Hv Hne Hm. unfold parse_ciphertext.
  assert (0 < blen body) by (destruct body; [congruence|rewrite blen_cons; lia]).
  replace (Z.of_N (blen (tag ++ s ++ v ++ body)) - Z.of_N (header_bytes c))%Z with (Z.of_N (blen body))
    by (rewrite !blen_app; unfold header_bytes; lia).
  replace (Z.of_N (blen body) <=? 0)%Z with false by lia.
  rewrite <- N2Z.inj_mod, Hm. cbn [orb negb Z.eqb Z.of_N].
  rewrite (take_app _ tag) by assumption. rewrite (drop_app _ tag) by assumption.
  rewrite (take_app _ s) by assumption. rewrite (drop_app _ s) by assumption.
  rewrite (take_app _ v) by assumption. rewrite (drop_app _ v) by assumption. reflexivity.
Qed.

Lemma parse_ok data d : parse_ciphertext c data = Ok d ->
  data = ct_shmac d ++ ct_salt d ++ ct_iv d ++ ct_body d /\
  blen (ct_shmac d) = c_shmac_bytes c /\ blen (ct_salt d) = c_salt_bytes c /\
  blen (ct_iv d) = c_iv_bytes c /\ ct_body d <> [] /\ blen (ct_body d) mod c_blocksize c = 0.
Proof.
  unfold parse_ciphertext. destruct (_ || _)%bool eqn:E; [discriminate|].
  intros X. apply Ok_inj in X. subst d. cbn [ct_shmac ct_salt ct_iv ct_body].
  apply Bool.orb_false_iff in E as [E1 E2]. apply Bool.negb_false_iff in E2.
  pose proof blocksize_pos as Bp. unfold header_bytes in *.
  split; [now rewrite !take_drop|].
  rewrite !blen_take, !blen_drop.
  split; [lia|]. split; [lia|]. split; [lia|].
  split.
  - intros X. apply (f_equal blen) in X. rewrite !blen_drop, (@blen_nil byte) in X. lia.
  - apply Z.eqb_eq in E2.
    replace (blen data - c_shmac_bytes c - c_salt_bytes c - c_iv_bytes c)
      with (Z.to_N (Z.of_N (blen data) - Z.of_N (c_shmac_bytes c + c_salt_bytes c + c_iv_bytes c))) by lia.
    apply N2Z.inj. rewrite N2Z.inj_mod, Z2N.id by lia. exact E2.
Qed.

Lemma parse_err data : (forall tag s v body,
    data = tag ++ s ++ v ++ body -> blen tag = c_shmac_bytes c -> blen s = c_salt_bytes c ->
    blen v = c_iv_bytes c -> body <> [] -> blen body mod c_blocksize c = 0 -> False) ->
  parse_ciphertext c data = Err InvalidCiphertextSize.
Proof.
  intros Hn. destruct (parse_ciphertext c data) as [d|e] eqn:E.
  - exfalso. apply parse_ok in E as (A & B & C & D & F & G). eapply Hn; eauto.
  - unfold parse_ciphertext in E. destruct (_ || _)%bool in E; congruence.
Qed.

(** ** Round trip *)
Lemma pad_whole r data : valid_coins c r ->
  exists padded, pad_plaintext c (r_now r) (r_siv r) (r_extra r) data = Ok padded /\
    padded <> [] /\ blen padded mod padding_frame c = 0 /\ blen padded mod c_blocksize c = 0 /\
    blen padded = inner_header_bytes c + blen data + padding_size c (blen data) /\
    forall now' limit, depad_plaintext c now' padded limit = opened (c_clock c) (r_now r) now' limit data.
Proof.
  intros V. pose proof frame_pos as Fp. pose proof blocksize_pos as Bp.
  destruct (pad_ok c r data Fp V) as (p & ts & e & Hp & Ep & _ & _ & Hts & Lts & Lh & Le & Se).
  exists p. split; [exact Hp|].
  assert (Lp : blen p = inner_header_bytes c + blen data + padding_size c (blen data)).
  { rewrite Ep, blen_app, Lh, blen_app, Le. lia. }
  pose proof (padding_size_bounds c (blen data) Fp) as B.
  assert (M : blen p mod padding_frame c = 0) by (rewrite Lp; apply padded_total; assumption).
  split. { intros E. rewrite E, (@blen_nil byte) in Lp. lia. }
  split; [exact M|]. split.
  { apply N.mod_divide in M as [k K]; [|lia]. rewrite K. unfold padding_frame.
    rewrite (N.mul_comm (c_blocksize c)), N.mul_assoc. apply N.mod_mul. lia. }
  split; [exact Lp|].
  intros now' limit. eapply pad_depad; [exact Fp|exact V| |exact Hp].
  rewrite sentinel_bytes_1; [lia|]. split; [exact Fp|apply (vc_frame _ _ VC)].
Qed.

Lemma choose_salt_len salt r : valid_coins c r -> valid_salt c salt ->
  blen (choose_salt salt (r_salt r)) = c_salt_bytes c.
Proof.
  intros V S. destruct salt as [s|]; [|apply (vr_salt _ _ V)]. cbn [valid_salt] in S.
  rewrite choose_some by now apply salt_nonempty. exact S.
Qed.

Lemma encrypt_shape ks r data salt aad :
  valid_coins c r -> valid_salt c salt -> blen aad < 2 ^ 32 ->
  exists padded body x,
    pad_plaintext c (r_now r) (r_siv r) (r_extra r) data = Ok padded /\
    blen body = blen padded /\ body <> [] /\ blen body mod c_blocksize c = 0 /\
    absorbed H c ks (choose_salt salt (r_salt r)) aad (r_iv r) body = Ok x /\
    bytes_encrypt H c ks r data salt aad
      = Ok (tag_of H c x ++ choose_salt salt (r_salt r) ++ r_iv r ++ body) /\
    seal H c ks (choose_salt salt (r_salt r)) aad (r_iv r) padded
      = bytes_encrypt H c ks r data salt aad /\
    (forall rsalt now tag limit,
      blen tag = c_shmac_bytes c ->
      bytes_decrypt H c ks rsalt now (tag ++ choose_salt salt (r_salt r) ++ r_iv r ++ body) aad limit =
      if bytes_eqb tag (tag_of H c x) then opened (c_clock c) (r_now r) now limit data
      else Err InvalidSHMAC).
Proof.
  intros V S A. pose proof blocksize_pos as Bp.
  destruct (pad_whole r data V) as (padded & Hp & Ne & _ & Mb & _ & D).
  pose proof (choose_salt_len salt r V S) as Ls. set (s := choose_salt salt (r_salt r)) in *.
  pose proof (vr_iv _ _ V) as Lv.
  destruct (sessions_start ks s aad (r_iv r) Ls Lv A) as (e & d & St).
  destruct (seal_opens ks s aad (r_iv r) e d padded St Ne Mb)
    as (blocks & e1 & d1 & T1 & T2 & Fb & Ln & E1 & L1 & X1 & X2 & Sl).
  assert (Eb : batch (concat blocks) (c_blocksize c) = blocks) by now apply batch_blocks.
  assert (Lb : forall l, full c l -> blen (concat l) = N.of_nat (length l) * c_blocksize c).
  { clear. induction l as [|x l IH]; intros F; [reflexivity|]. inversion F; subst. cbn [concat length].
    rewrite blen_app, IH by assumption. lia. }
  assert (Lbody : blen (concat blocks) = blen padded).
  { rewrite Lb by assumption. rewrite Ln, <- Lb by now apply batch_full. now rewrite batch_concat. }
  assert (Hne : concat blocks <> []).
  { intros E. rewrite E, (@blen_nil byte) in Lbody. apply Ne, blen_0. lia. }
  assert (Md : b_mac (fst e1) = b_mac (fst d1)) by (unfold core in E1; congruence).
  exists padded, (concat blocks), (b_mac (fst d1)).
  split; [exact Hp|]. split; [exact Lbody|]. split; [exact Hne|]. split; [now rewrite Lbody|].
  assert (P0 : forall tag, blen tag = c_shmac_bytes c -> forall rsalt now limit, exists padded' e1' d1',
     _) by (intros tag Lt rsalt now limit;
     exact (opening ks s aad (r_iv r) e d rsalt now _ limit tag (concat blocks) St
       (parse_parts tag s (r_iv r) (concat blocks) Lt Ls Lv Hne ltac:(now rewrite Lbody)) Hne ltac:(now rewrite Lbody))).
  split.
  { destruct (P0 (tag_of H c []) (blen_tag _) [] 0%Z None) as (p' & e1' & d1' & O1 & O2 & O3 & O4 & O5 & O6 & O7 & _).
    rewrite O7. f_equal. rewrite Eb, T2 in O1. apply Ok_inj in O1. injection O1 as _ <-. reflexivity. }
  assert (Enc : bytes_encrypt H c ks r data salt aad = Ok (tag_of H c (b_mac (fst d1)) ++ s ++ r_iv r ++ concat blocks)).
  { rewrite (st_encrypt _ _ _ _ _ _ St r data salt padded eq_refl eq_refl Hp).
    rewrite combine_nonempty by now apply batch_nonempty. rewrite T1.
    destruct e1 as [b1 s1]. cbn [bind]. unfold finalize.
    pose proof (lv_open _ _ _ L1) as Lo. cbn [snd] in Lo. rewrite Lo. cbn [bind fst] in *.
    rewrite tag_of_result, Md.
    assert (Q : b_salt b1 = s /\ b_iv b1 = r_iv r).
    { unfold fixed in X1. cbn [fst snd] in X1. rewrite <- (st_esalt _ _ _ _ _ _ St), <- (st_eiv _ _ _ _ _ _ St). split; congruence. }
    destruct Q as [-> ->]. reflexivity. }
  split; [exact Enc|]. split; [rewrite Enc, Sl, Md; reflexivity|].
  intros rsalt now tag limit Lt.
  destruct (P0 tag Lt rsalt now limit) as (p' & e1' & d1' & O1 & O2 & O3 & O4 & O5 & O6 & O7 & _ & O8).
  rewrite O8. rewrite Eb, T2 in O1. apply Ok_inj in O1. injection O1 as O1 <-.
  apply (f_equal (@concat byte)) in O1. rewrite !batch_concat in O1 by assumption. subst p'.
  rewrite D. reflexivity.
Qed.

(** ** Opening anything *)
Lemma decrypt_shape ks rsalt now data aad limit : blen aad < 2 ^ 32 ->
  parse_ciphertext c data = Err InvalidCiphertextSize /\
    bytes_decrypt H c ks rsalt now data aad limit = Err InvalidCiphertextSize \/
  exists tag s v body padded x,
    data = tag ++ s ++ v ++ body /\
    blen tag = c_shmac_bytes c /\ blen s = c_salt_bytes c /\ blen v = c_iv_bytes c /\
    body <> [] /\ blen body mod c_blocksize c = 0 /\ blen padded = blen body /\
    absorbed H c ks s aad v body = Ok x /\
    seal H c ks s aad v padded = Ok (tag_of H c x ++ s ++ v ++ body) /\
    bytes_decrypt H c ks rsalt now data aad limit =
      if bytes_eqb tag (tag_of H c x) then depad_plaintext c now padded limit else Err InvalidSHMAC.
Proof.
  intros A. destruct (parse_ciphertext c data) as [d|e] eqn:P.
  - right. destruct (parse_ok _ _ P) as (Ed & Lt & Ls & Lv & Ne & M).
    destruct (sessions_start ks _ aad _ Ls Lv A) as (es & ds & St).
    destruct d as [tag s v body]. cbn [ct_shmac ct_salt ct_iv ct_body] in *.
    destruct (opening ks s aad v es ds rsalt now data limit tag body St P Ne M)
      as (padded & e1 & d1 & _ & _ & Lp & _ & _ & _ & Ab & Se & De).
    exists tag, s, v, body, padded, (b_mac (fst d1)). repeat (split; [assumption|]). exact De.
  - left. assert (e = InvalidCiphertextSize).
    { unfold parse_ciphertext in P. destruct (_ || _)%bool in P; congruence. }
    subst e. split; [reflexivity|]. unfold bytes_decrypt. rewrite P. reflexivity.
Qed.

End Session.
