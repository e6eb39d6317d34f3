From Coq Require Import ZArith Decimal DecimalN.
From Verif Require Import Base BaseFacts CanonModel CanonSpec CanonProofs PermModel PermSpec PermProofs ClockModel ClockProofs
  CipherModel CipherSpec CipherProofs ShippedProofs DomainsModel DomainsSpec DomainsProofs ConfigModel ConfigSpec.
Import ListNotations.
Local Open Scope N_scope.

(** ** Decimal text *)
Definition is_digit (b : byte) : Prop := 48 <= bval b <= 57.
Lemma digits_digit u : Forall is_digit (digits u).
Proof. induction u; cbn [digits]; constructor; auto; split; vm_compute; discriminate. Qed.
Lemma digits_inj u : forall v, digits u = digits v -> u = v.
Proof.
  induction u; destruct v; cbn [digits]; intros E; try discriminate E; [reflexivity|..];
    injection E as E; f_equal; auto.
Qed.
Lemma digits_not_nil n : digits (N.to_uint n) <> [].
Proof.
  intros E. assert (N.to_uint n = Decimal.Nil) by now apply digits_inj.
  assert (N.of_uint (N.to_uint n) = 0) as F by now rewrite H.
  rewrite DecimalN.Unsigned.of_to in F. subst n. discriminate H.
Qed.
Lemma str_int_inj a b : str_int a = str_int b -> a = b.
Proof.
  unfold str_int. intros E.
  assert (M : forall u v, x2d :: u = digits v -> False).
  { intros u v F. pose proof (digits_digit v) as D. rewrite <- F in D. inversion D as [|? ? D1]; subst.
    destruct D1 as [D1 _]. vm_compute in D1. congruence. }
  destruct (Z.ltb_spec a 0), (Z.ltb_spec b 0).
  - injection E as E. apply digits_inj, DecimalN.Unsigned.to_uint_inj in E. lia.
  - exfalso. eapply M. exact E.
  - exfalso. eapply M. symmetry. exact E.
  - apply digits_inj, DecimalN.Unsigned.to_uint_inj in E. lia.
Qed.

(** Texts of numbers and None: no comma, no parenthesis. *)
Definition clean (l : bytes) : Prop := ~ In x2c l /\ ~ In x29 l.
Lemma digit_clean l : Forall is_digit l -> clean l.
Proof.
  intros F. split; intros I; eapply Forall_forall in I; eauto; destruct I as [I J]; vm_compute in I, J; congruence.
Qed.
Lemma str_opt_clean x : clean (str_opt x).
Proof.
  destruct x as [z|]; cbn [str_opt].
  - unfold str_int. destruct (z <? 0)%Z.
    + destruct (digit_clean _ (digits_digit (N.to_uint (Z.to_N (- z))))) as [A B].
      split; cbn [In]; intros [C|C]; try discriminate C; auto.
    + apply digit_clean, digits_digit.
  - split; cbn; intuition discriminate.
Qed.
Lemma str_opt_inj a b : str_opt a = str_opt b -> a = b.
Proof.
  assert (M : forall z, str_int z <> NONE_TEXT).
  { intros z E. unfold str_int in E. destruct (z <? 0)%Z; [discriminate E|].
    pose proof (digits_digit (N.to_uint (Z.to_N z))) as D. rewrite E in D. inversion D as [|? ? D1]; subst.
    destruct D1 as [_ D1]. vm_compute in D1. congruence. }
  destruct a as [a|], b as [b|]; cbn [str_opt]; intros E.
  - f_equal. now apply str_int_inj.
  - destruct (M a E).
  - symmetry in E. destruct (M b E).
  - reflexivity.
Qed.
Lemma split_at (x : byte) a b u v : ~ In x a -> ~ In x b -> a ++ x :: u = b ++ x :: v -> a = b /\ u = v.
Proof.
  revert b. induction a as [|y a IH]; destruct b as [|z b]; cbn; intros A B E.
  - split; congruence.
  - exfalso. apply B. left. congruence.
  - exfalso. apply A. left. congruence.
  - injection E as -> E. destruct (IH b) as [-> ->]; auto.
Qed.
Lemma str_slice_inj s1 s2 : str_slice s1 = str_slice s2 -> s1 = s2.
Proof.
  destruct s1 as [[a1 b1] c1], s2 as [[a2 b2] c2]. unfold str_slice, COMMA. cbn [app]. intros E.
  injection E as E.
  apply split_at in E as [Ea E]; try apply str_opt_clean. injection E as E.
  apply split_at in E as [Eb E]; try apply str_opt_clean. injection E as E.
  apply split_at in E as [Ec _]; try apply str_opt_clean.
  apply str_opt_inj in Ea, Eb, Ec. congruence.
Qed.
Lemma str_key_slice_inj k1 k2 : str_key_slice k1 = str_key_slice k2 -> ks_key_slice k1 = ks_key_slice k2.
Proof.
  unfold str_key_slice. destruct (ks_key_slice k1) as [s1|], (ks_key_slice k2) as [s2|]; intros E.
  - f_equal. now apply str_slice_inj.
  - destruct s1 as [[? ?] ?]. discriminate E.
  - destruct s2 as [[? ?] ?]. discriminate E.
  - reflexivity.
Qed.
Lemma str_sl a b c d : str_slice (sl a b) = str_slice (sl c d) -> a = c /\ b = d.
Proof. intros E. apply str_slice_inj in E. unfold sl in E. split; congruence. Qed.
Lemma str_sl_from a c : str_slice (sl_from a) = str_slice (sl_from c) -> a = c.
Proof. intros E. apply str_slice_inj in E. unfold sl_from in E. congruence. Qed.

Lemma z_to_bytes_inj w a b x : z_to_bytes w BigEndian a = Ok x -> z_to_bytes w BigEndian b = Ok x -> a = b.
Proof.
  unfold z_to_bytes. destruct (Z.ltb_spec a 0); [discriminate|]. destruct (Z.ltb_spec b 0); [discriminate|].
  intros A B. apply to_bytes_be_int in A, B. lia.
Qed.

(** ** The fingerprint *)
Lemma chain_kind_size k size mult p : make_chain_config k size mult = Ok p ->
  (0 < size)%Z /\ cc_key_size p = (size * match k with DefaultChain => 9 | FastChain => 5 end)%Z.
Proof.
  unfold make_chain_config, process_size. destruct (Z.geb_spec 4096 size); cbn [andb]; [|discriminate].
  destruct (Z.gtb_spec size 0); cbn [bind]; [|discriminate]. intros E.
  apply bind_ok in E as (a & _ & E). injection E as <-. cbn [cc_key_size].
  split; [lia|]. destruct k; cbn; lia.
Qed.

Section Binding.
Variable H : hasher.
Variables (s1 s2 : settings) (p1 p2 : chain_config) (m1 m2 : Z).
Hypothesis P1 : make_chain_config (st_permutation s1) (Z.of_N (permutation_size s1)) m1 = Ok p1.
Hypothesis P2 : make_chain_config (st_permutation s2) (Z.of_N (permutation_size s2)) m2 = Ok p2.

Lemma items_bound items :
  metadata_items H s1 p1 = Ok items -> metadata_items H s2 p2 = Ok items ->
  bound s1 = bound s2.
Proof.
  intros E1 E2. unfold metadata_items in E1, E2.
  apply bind_ok in E1 as (ep1 & Ep1 & E1). apply bind_ok in E2 as (ep2 & Ep2 & E2).
  apply bind_ok in E1 as (bs1 & Bs1 & E1). apply bind_ok in E2 as (bs2 & Bs2 & E2).
  apply bind_ok in E1 as (mp1 & Mp1 & E1). apply bind_ok in E2 as (mp2 & Mp2 & E2).
  apply bind_ok in E1 as (pr1 & Pr1 & E1). apply bind_ok in E2 as (pr2 & Pr2 & E2).
  apply bind_ok in E1 as (tv1 & Tv1 & E1). apply bind_ok in E2 as (tv2 & Tv2 & E2).
  apply Ok_inj in E1. apply Ok_inj in E2. rewrite <- E2 in E1. clear E2.
  destruct (chain_kind_size _ _ _ _ P1) as [S1 K1]. destruct (chain_kind_size _ _ _ _ P2) as [S2 K2].
  unfold bound, bound_kdf.
  destruct (st_type s1) eqn:T1, (st_type s2) eqn:T2; cbn [app] in E1;
    try (apply (f_equal (@length bytes)) in E1; cbn in E1; discriminate E1).
  - repeat match type of E1 with _ :: _ = _ :: _ => let X := fresh "Q" in
      assert (X := f_equal (hd []) E1); cbn [hd] in X; apply (f_equal (@tl bytes)) in E1; cbn [tl] in E1 end.
    repeat match goal with
      | Q : str_slice (sl _ _) = str_slice (sl _ _) |- _ => apply str_sl in Q as [? ?]
      | Q : str_slice (sl_from _) = str_slice (sl_from _) |- _ => apply str_sl_from in Q
      | Q : str_int _ = str_int _ |- _ => apply str_int_inj in Q
      | Q : str_key_slice _ = str_key_slice _ |- _ => apply str_key_slice_inj in Q end.
    subst ep2 bs2 mp2.
    pose proof (z_to_bytes_inj _ _ _ _ Ep1 Ep2) as Eep.
    apply to_bytes_be_int in Bs1, Bs2, Mp1, Mp2.
    unfold inner_header_bytes, header_bytes, permutation_key_bytes in *. cbn in *.
    assert (st_permutation s1 = st_permutation s2) as EP.
    { destruct (st_permutation s1), (st_permutation s2); try reflexivity; exfalso; lia. }
    repeat match goal with |- (_, _) = (_, _) => f_equal end; try assumption; try congruence; lia.
  - repeat match type of E1 with _ :: _ = _ :: _ => let X := fresh "Q" in
      assert (X := f_equal (hd []) E1); cbn [hd] in X; apply (f_equal (@tl bytes)) in E1; cbn [tl] in E1 end.
    repeat match goal with
      | Q : str_slice (sl _ _) = str_slice (sl _ _) |- _ => apply str_sl in Q as [? ?]
      | Q : str_slice (sl_from _) = str_slice (sl_from _) |- _ => apply str_sl_from in Q
      | Q : str_int _ = str_int _ |- _ => apply str_int_inj in Q
      | Q : str_key_slice _ = str_key_slice _ |- _ => apply str_key_slice_inj in Q end.
    subst ep2 bs2 mp2.
    pose proof (z_to_bytes_inj _ _ _ _ Ep1 Ep2) as Eep.
    apply to_bytes_be_int in Bs1, Bs2, Mp1, Mp2.
    unfold inner_header_bytes, header_bytes, permutation_key_bytes in *. cbn in *.
    assert (st_permutation s1 = st_permutation s2) as EP.
    { destruct (st_permutation s1), (st_permutation s2); try reflexivity; exfalso; lia. }
    assert (ks_key_slice (st_left_kdf s1) = ks_key_slice (st_left_kdf s2)) by assumption.
    repeat match goal with |- (_, _) = (_, _) => f_equal end; try assumption; try congruence; try lia.
Qed.

Lemma metadata_bound meta :
  packed_metadata H s1 p1 = Ok meta -> packed_metadata H s2 p2 = Ok meta -> bound s1 = bound s2.
Proof.
  intros E1 E2. unfold packed_metadata in *.
  apply bind_ok in E1 as (i1 & I1 & E1). apply bind_ok in E2 as (i2 & I2 & E2).
  destruct (canonical_pack_inj _ _ _ _ _ _ _ _ _ E1 E2) as (<- & _). eapply items_bound; eauto.
Qed.
End Binding.

Lemma make_config_inv H mult s c : make_config H mult s = Ok c ->
  exists perm meta,
    make_chain_config (st_permutation s) (Z.of_N (permutation_size s)) mult = Ok perm /\
    packed_metadata H s perm = Ok meta /\ c = cfg_of s perm meta /\
    prepare_factories H c = Ok tt /\ check_config H c = Ok tt.
Proof.
  unfold make_config. intros E. apply bind_ok in E as (perm & P & E). apply bind_ok in E as (meta & M & E).
  apply bind_ok in E as ([] & F & E). apply bind_ok in E as ([] & K & E). injection E as <-.
  exists perm, meta. auto.
Qed.

(** ** What is not bound *)
Lemma with_unit_config H mult u s c : make_config H mult s = Ok c ->
  exists c2, make_config H mult (with_unit u s) = Ok c2 /\
    (c2 = {| c_type := c_type c; c_config_id := c_config_id c; c_metadata := c_metadata c;
            c_blocksize := c_blocksize c; c_min_padding_blocks := c_min_padding_blocks c;
            c_clock := {| ck_unit := u; ck_epoch := ck_epoch (c_clock c) |};
            c_timestamp_bytes := c_timestamp_bytes c; c_siv_key_bytes := c_siv_key_bytes c;
            c_shmac_bytes := c_shmac_bytes c; c_block_id_bytes := c_block_id_bytes c;
            c_max_block_id_bytes := c_max_block_id_bytes c; c_min_block_id_bytes := c_min_block_id_bytes c;
            c_salt_bytes := c_salt_bytes c; c_iv_bytes := c_iv_bytes c;
            c_block_id_kdf := c_block_id_kdf c; c_shmac_kdf := c_shmac_kdf c;
            c_left_kdf := c_left_kdf c; c_right_kdf := c_right_kdf c; c_perm := c_perm c |}).
Proof.
  intros E. apply make_config_inv in E as (perm & meta & P & M & -> & F & K).
  eexists. split; [|reflexivity].
  unfold make_config.
  change (make_chain_config (st_permutation (with_unit u s)) (Z.of_N (permutation_size (with_unit u s))) mult)
    with (make_chain_config (st_permutation s) (Z.of_N (permutation_size s)) mult).
  rewrite P. cbn [bind].
  change (packed_metadata H (with_unit u s) perm) with (packed_metadata H s perm). rewrite M. cbn [bind].
  change (prepare_factories H (cfg_of (with_unit u s) perm meta)) with (prepare_factories H (cfg_of s perm meta)).
  rewrite F. cbn [bind].
  change (check_config H (cfg_of (with_unit u s) perm meta)) with (check_config H (cfg_of s perm meta)).
  rewrite K. reflexivity.
Qed.

Lemma clock_time_reach u epoch t : (0 <= t <= if float_unit u then 2 ^ 50 else 2 ^ 53)%Z ->
  exists now, clock_time {| ck_unit := u; ck_epoch := epoch |} now = t.
Proof.
  intros T. destruct (reading_reach u t T) as [a R]. exists (epoch + a)%Z.
  unfold clock_time. cbn [ck_unit ck_epoch]. replace (epoch + a - epoch)%Z with a by lia. exact R.
Qed.

Lemma other_unit_ciphertext H mult u s c1 c2 ks r data salt aad :
  make_config H mult s = Ok c1 -> make_config H mult (with_unit u s) = Ok c2 ->
  (0 <= clock_time (c_clock c1) (r_now r) <= if float_unit u then 2 ^ 50 else 2 ^ 53)%Z ->
  exists t, clock_time (c_clock c2) t = clock_time (c_clock c1) (r_now r) /\
    bytes_encrypt H c2 ks (at_time t r) data salt aad = bytes_encrypt H c1 ks r data salt aad.
Proof.
  intros E1 E2 T. destruct (with_unit_config H mult u s c1 E1) as (c2' & E2' & D).
  rewrite E2 in E2'. apply Ok_inj in E2'. rewrite <- E2' in D. clear E2' E1 E2.
  destruct (clock_time_reach u (ck_epoch (c_clock c1)) _ T) as [t Q0].
  exists t.
  assert (Q : clock_time (c_clock c2) t = clock_time (c_clock c1) (r_now r)).
  { rewrite D. cbn [c_clock]. exact Q0. }
  split; [exact Q|].
  unfold bytes_encrypt, pad_plaintext, start_padding, make_timestamp.
  cbn [r_now at_time r_salt r_iv r_siv r_extra]. rewrite Q. rewrite D. reflexivity.
Qed.

(** ** Making configurations *)
Lemma vector_total H r s perm mult :
  an_xof r H -> make_chain_config (st_permutation s) (Z.of_N (permutation_size s)) mult = Ok perm ->
  exists v, test_vector H s perm = Ok v /\ blen v = permutation_size s.
Proof.
  intros X P. unfold test_vector.
  destruct (make_chain_config_ok _ _ _ _ P) as (p & _ & _ & _ & S0 & S1 & _ & _ & _ & _ & K & _).
  destruct (make_chain_wf _ _ _ _ (h_digest H (st_config_id s) (Z.to_N (cc_key_size perm))) P) as (ch & E & W & C & _).
  { unfold zlen. pose proof (xof_len _ _ X (st_config_id s) (Z.to_N (cc_key_size perm))) as L.
    unfold blen in L. rewrite K in *. destruct (st_permutation s); lia. }
  rewrite E. cbn [bind].
  destruct (chain_inverse ch W) as [B _]. rewrite C, S0 in B. destruct (B 0%Z) as (w & -> & D & _).
  { unfold in_domain. lia. }
  cbn [bind]. unfold in_domain in D.
  destruct (z_to_bytes_fit (permutation_size s) BigEndian w) as [v V].
  { lia. }
  exists v. split; [exact V|]. now apply z_to_bytes_ok in V as (_ & L & _).
Qed.

Lemma prepare_total H r c :
  an_xof r H -> 0 < r < 2 ^ 56 -> blen (c_config_id c) < 2 ^ 64 -> blen (c_metadata c) < 2 ^ 64 ->
  (forall k, In k [c_block_id_kdf c; c_shmac_kdf c; c_left_kdf c; c_right_kdf c] -> blen (kc_name k) < 2 ^ 63) ->
  prepare_factories H c = Ok tt.
Proof.
  intros X R I M K. unfold prepare_factories.
  assert (F : forall k, In k [c_block_id_kdf c; c_shmac_kdf c; c_left_kdf c; c_right_kdf c] ->
     exists f, kdf_factory H c k = Ok f) by (intros k J; eapply factory_total; eauto).
  destruct (F (c_block_id_kdf c)) as [f1 ->]; [cbn; auto|].
  destruct (F (c_shmac_kdf c)) as [f2 ->]; [cbn; auto|]. cbn [bind].
  destruct (c_type c); [reflexivity|].
  destruct (F (c_left_kdf c)) as [f3 ->]; [cbn; auto|].
  destruct (F (c_right_kdf c)) as [f4 ->]; [cbn; auto 6|]. reflexivity.
Qed.

(** A list of known length has that many elements. *)
Ltac name_bytes v n L :=
  match n with
  | O => destruct v; [|exfalso; cbn in L; discriminate L]
  | S ?m => let x := fresh "x" in
      destruct v as [|x v]; [exfalso; cbn in L; discriminate L|];
      cbn [length] in L; apply Nat.succ_inj in L; name_bytes v m L
  end.

Lemma slick256_metadata H perm mult :
  like_shake128 H -> make_chain_config FastChain 32 mult = Ok perm ->
  exists meta, packed_metadata H slick256_settings perm = Ok meta /\ blen meta < 1000.
Proof.
  intros X P. destruct (vector_total H 168 slick256_settings perm mult X P) as (v & V & L).
  destruct (make_chain_config_ok _ _ _ _ P) as (p & _ & _ & _ & S0 & S1 & _ & _ & _ & _ & K & _).
  unfold packed_metadata, metadata_items. rewrite V. clear V P.
  unfold primer_key_bytes, permutation_key_bytes, rate. cbn [cfg_of c_perm]. rewrite K, (xof_rate _ _ X). clear K S0 S1 X p.
  change (permutation_size slick256_settings) with 32 in *.
  assert (L' : length v = 32%nat) by (unfold blen in L; lia). clear L.
  name_bytes v 32%nat L'.
  eexists. split; [vm_compute; reflexivity|]. vm_compute. reflexivity.
Qed.
Lemma chunky2048_metadata H perm mult :
  like_shake128 H -> make_chain_config FastChain 20 mult = Ok perm ->
  exists meta, packed_metadata H chunky2048_settings perm = Ok meta /\ blen meta < 1000.
Proof.
  intros X P. destruct (vector_total H 168 chunky2048_settings perm mult X P) as (v & V & L).
  destruct (make_chain_config_ok _ _ _ _ P) as (p & _ & _ & _ & S0 & S1 & _ & _ & _ & _ & K & _).
  unfold packed_metadata, metadata_items. rewrite V. clear V P.
  unfold primer_key_bytes, permutation_key_bytes, embedded_capacity, rate. cbn [cfg_of c_perm]. rewrite K, (xof_rate _ _ X). clear K S0 S1 X p.
  change (permutation_size chunky2048_settings) with 20 in *.
  assert (L' : length v = 20%nat) by (unfold blen in L; lia). clear L.
  name_bytes v 20%nat L'.
  eexists. split; [vm_compute; reflexivity|]. vm_compute. reflexivity.
Qed.

Lemma slick256_made H mult : like_shake128 H ->
  (exists perm, make_chain_config FastChain 32 mult = Ok perm) ->
  exists meta c, make_config H mult slick256_settings = Ok c /\ slick256 meta mult = Ok c /\ blen meta < 2 ^ 63.
Proof.
  intros X [perm P]. destruct (slick256_metadata H perm mult X P) as (meta & M & L).
  assert (L2 : blen meta < 2 ^ 63) by (change (2 ^ 63) with 9223372036854775808; lia).
  exists meta, (cfg_of slick256_settings perm meta).
  assert (E : slick256 meta mult = Ok (cfg_of slick256_settings perm meta)).
  { unfold slick256. rewrite P. reflexivity. }
  split; [|split; [exact E|exact L2]].
  pose proof (slick256_valid H meta mult _ X L2 E) as V.
  unfold make_config. change (permutation_size slick256_settings) with 32.
  change (st_permutation slick256_settings) with FastChain. change (Z.of_N 32) with 32%Z. rewrite P. cbn [bind].
  rewrite M. cbn [bind]. rewrite (prepare_total H 168 _ X); [|split; reflexivity|reflexivity| |].
  - cbn [bind]. rewrite (vc_checked _ _ V). reflexivity.
  - cbn [c_metadata cfg_of]. change (2 ^ 64) with 18446744073709551616. lia.
  - intros k I. cbn in I. destruct I as [<-|[<-|[<-|[<-|[]]]]]; reflexivity.
Qed.
Lemma chunky2048_made H mult : like_shake128 H ->
  (exists perm, make_chain_config FastChain 20 mult = Ok perm) ->
  exists meta c, make_config H mult chunky2048_settings = Ok c /\ chunky2048 meta mult = Ok c /\ blen meta < 2 ^ 63.
Proof.
  intros X [perm P]. destruct (chunky2048_metadata H perm mult X P) as (meta & M & L).
  assert (L2 : blen meta < 2 ^ 63) by (change (2 ^ 63) with 9223372036854775808; lia).
  exists meta, (cfg_of chunky2048_settings perm meta).
  assert (E : chunky2048 meta mult = Ok (cfg_of chunky2048_settings perm meta)).
  { unfold chunky2048. rewrite P. reflexivity. }
  split; [|split; [exact E|exact L2]].
  pose proof (chunky2048_valid H meta mult _ X L2 E) as V.
  unfold make_config. change (permutation_size chunky2048_settings) with 20.
  change (st_permutation chunky2048_settings) with FastChain. change (Z.of_N 20) with 20%Z. rewrite P. cbn [bind].
  rewrite M. cbn [bind]. rewrite (prepare_total H 168 _ X); [|split; reflexivity|reflexivity| |].
  - cbn [bind]. rewrite (vc_checked _ _ V). reflexivity.
  - cbn [c_metadata cfg_of]. change (2 ^ 64) with 18446744073709551616. lia.
  - intros k I. cbn in I. destruct I as [<-|[<-|[<-|[<-|[]]]]]; reflexivity.
Qed.

(** A factory that was made for one name can be made for any other. *)
Lemma factory_other H r c k1 k2 f :
  an_xof r H -> 0 < r < 2 ^ 56 -> kdf_factory H c k1 = Ok f -> blen (kc_name k2) < 2 ^ 63 ->
  exists g, kdf_factory H c k2 = Ok g.
Proof.
  intros X R E K. unfold kdf_factory, encode_constant, hash_bytes, hash_bytes_absorbed in E.
  cbn [bind] in E. apply bind_ok in E as (a & E & _). apply bind_ok in E as (sb & _ & E).
  apply bind_ok in E as (pk & E & _).
  apply canonical_pack_layout in E as (p & kk & blob & _ & (_ & _ & _ & F) & _).
  change (256 ^ INT_BYTES) with (2 ^ 64) in F.
  inversion F as [|? ? F1 F2]; subst. inversion F2 as [|? ? F3 F4]; subst. inversion F4 as [|? ? F5 F6]; subst.
  inversion F6 as [|? ? F7 F8]; subst. eapply factory_total; eauto.
Qed.

Lemma made_valid H r mult s c :
  an_xof r H -> 0 < r < 2 ^ 56 -> make_config H mult s = Ok c ->
  st_blocksize s * (st_min_padding_blocks s + 1) <= 256 ->
  1 <= st_shmac_bytes s <= 2 * r -> 1 <= st_salt_bytes s < 2 ^ 32 -> st_iv_bytes s < 2 ^ 32 ->
  (forall k, In k [st_shmac_kdf s; st_left_kdf s; st_right_kdf s] ->
     (exists p, ks_pad k = [p]) /\ blen (ks_name k) < 2 ^ 63) ->
  valid_cfg H c.
Proof.
  intros X R E F T S0 I K. apply make_config_inv in E as (perm & meta & P & M & -> & PF & C).
  assert (B : exists f, kdf_factory H (cfg_of s perm meta) (c_block_id_kdf (cfg_of s perm meta)) = Ok f).
  { unfold prepare_factories in PF. apply bind_ok in PF as (f & PF & _). eauto. }
  destruct B as [f B].
  constructor.
  - rewrite (xof_rate _ _ X). exact R.
  - exact C.
  - exact F.
  - rewrite (xof_rate _ _ X). exact T.
  - exact S0.
  - exact I.
  - intros k J. cbn in J. destruct J as [<-|[<-|[<-|[]]]]; cbn [kdf_config_of kc_pad]; apply K; cbn; tauto.
  - intros k J. cbn in J. destruct J as [<-|[<-|[<-|[<-|[]]]]];
      try (eapply factory_other; [exact X|exact R|exact B|]; cbn [kdf_config_of kc_name]; apply K; cbn; tauto).
    exists f. exact B.
  - exists (st_permutation s), mult. exact P.
Qed.
