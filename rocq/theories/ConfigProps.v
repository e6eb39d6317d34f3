From Coq Require Import ZArith.
From Verif Require Import Base BaseFacts CanonModel CanonSpec PermModel PermSpec PermProofs ClockModel CipherModel CipherSpec CipherProofs
  SessionProofs BindingProofs ShippedProofs CipherProps DomainsModel DomainsSpec DomainsProofs ConfigModel ConfigSpec ConfigProofs.
Import ListNotations.
Local Open Scope N_scope.

(** C77: configurations of equal fingerprint agree in their type, name, ID, epoch,
    all sizes, the kind of permutation and the KDFs' paddings, hash functions and key
    slices. *)
Theorem C77_fingerprint_binds_partial : forall H m1 s1 c1 m2 s2 c2,
  make_config H m1 s1 = Ok c1 -> make_config H m2 s2 = Ok c2 ->
  c_metadata c1 = c_metadata c2 -> bound s1 = bound s2.
Proof.
  intros H m1 s1 c1 m2 s2 c2 E1 E2 E.
  apply make_config_inv in E1 as (p1 & t1 & P1 & M1 & -> & _). apply make_config_inv in E2 as (p2 & t2 & P2 & M2 & -> & _).
  cbn [c_metadata cfg_of] in E. subst t2. exact (metadata_bound H s1 s2 p1 p2 m1 m2 P1 P2 t1 M1 M2).
Qed.
Print Assumptions C77_fingerprint_binds_partial.

(** C77: so the key derivations of two configurations that differ in any of those, or
    of two KDFs of different names, start from different inputs, or two explicit
    inputs of the hash function collide. *)
Theorem C77_kdfs_apart : forall H r m1 s1 c1 k1 m2 s2 c2 k2 f,
  an_xof r H -> 0 < r < 2 ^ 56 ->
  make_config H m1 s1 = Ok c1 -> make_config H m2 s2 = Ok c2 ->
  kdf_factory H c1 k1 = Ok f -> kdf_factory H c2 k2 = Ok f ->
  bound s1 = bound s2 /\ kc_name k1 = kc_name k2 \/
  exists x y, hashed H (kdf_constant H c1 k1) = Ok x /\ hashed H (kdf_constant H c2 k2) = Ok y /\
    same_digest H (2 * r) x y.
Proof.
  intros H r m1 s1 c1 k1 m2 s2 c2 k2 f X R E1 E2 F1 F2.
  assert (D1 : encode H (kdf_constant H c1 k1) = Ok f) by exact F1.
  assert (D2 : encode H (kdf_constant H c2 k2) = Ok f) by exact F2.
  assert (N1 : forall c k, e_size (kdf_constant H c k) <> 0).
  { intros c k. cbn [kdf_constant e_size]. rewrite (xof_rate _ _ X). lia. }
  destruct (encode_ok H r _ f X (N1 c1 k1) D1) as (x & Hx & Vx & _).
  destruct (encode_ok H r _ f X (N1 c2 k2) D2) as (y & Hy & Vy & _).
  destruct (bytes_eqb x y) eqn:Q.
  - apply bytes_eqb_eq in Q. subst y. left.
    assert (B : h_block_size H < 2 ^ 56) by (rewrite (xof_rate _ _ X); apply R).
    pose proof (hashed_inj H _ _ x B (N1 c1 k1) (N1 c2 k2) Hx Hy) as E.
    assert (Em : c_metadata c1 = c_metadata c2) by exact (f_equal e_aad E).
    split; [exact (C77_fingerprint_binds_partial H m1 s1 c1 m2 s2 c2 E1 E2 Em)|].
    apply (f_equal e_constant) in E. cbn [kdf_constant e_constant] in E. now apply app_inv_tail in E.
  - apply bytes_eqb_neq in Q. right. exists x, y. split; [exact Hx|]. split; [exact Hy|].
    split; [exact Q|]. cbn [kdf_constant e_size] in Vx, Vy. rewrite (xof_rate _ _ X) in Vx, Vy. congruence.
Qed.
Print Assumptions C77_kdfs_apart.

(** C77: the shipped configurations are made for every invertible multiplier, and are
    those of C21 and C22 with a short fingerprint. *)
Theorem C77_slick256_made : forall H mult, like_shake128 H ->
  (exists perm, make_chain_config FastChain 32 mult = Ok perm) ->
  exists meta c, make_config H mult slick256_settings = Ok c /\ slick256 meta mult = Ok c /\ blen meta < 2 ^ 63.
Proof. exact slick256_made. Qed.
Print Assumptions C77_slick256_made.
Theorem C77_chunky2048_made : forall H mult, like_shake128 H ->
  (exists perm, make_chain_config FastChain 20 mult = Ok perm) ->
  exists meta c, make_config H mult chunky2048_settings = Ok c /\ chunky2048 meta mult = Ok c /\ blen meta < 2 ^ 63.
Proof. exact chunky2048_made. Qed.
Print Assumptions C77_chunky2048_made.
(** The two never share a key derivation. *)
Theorem C77_shipped_apart : forall H m1 c1 k1 m2 c2 k2 f,
  like_shake128 H ->
  make_config H m1 slick256_settings = Ok c1 -> make_config H m2 chunky2048_settings = Ok c2 ->
  kdf_factory H c1 k1 = Ok f -> kdf_factory H c2 k2 = Ok f ->
  exists x y, hashed H (kdf_constant H c1 k1) = Ok x /\ hashed H (kdf_constant H c2 k2) = Ok y /\
    same_digest H 336 x y.
Proof.
  intros H m1 c1 k1 m2 c2 k2 f X E1 E2 F1 F2.
  assert (R : 0 < 168 < 2 ^ 56) by (split; reflexivity).
  destruct (C77_kdfs_apart H 168 m1 _ c1 k1 m2 _ c2 k2 f X R E1 E2 F1 F2) as [[B _]|B]; [|exact B].
  exfalso. assert (T := f_equal (fun b => let '(t, _, _, _, _, _, _, _, _, _, _) := b in t) B). discriminate T.
Qed.
Print Assumptions C77_shipped_apart.

(** C77: whatever settings the constructors accept, with one byte of sentinel, a tag
    that fits, a salt, and one byte paddings, encrypting and decrypting works
    (C22 for every such configuration). *)
Theorem C77_accepted_roundtrip : forall H r mult s c ks coins data salt aad,
  an_xof r H -> 0 < r < 2 ^ 56 -> make_config H mult s = Ok c ->
  st_blocksize s * (st_min_padding_blocks s + 1) <= 256 ->
  1 <= st_shmac_bytes s <= 2 * r -> 1 <= st_salt_bytes s < 2 ^ 32 -> st_iv_bytes s < 2 ^ 32 ->
  (forall k, In k [st_shmac_kdf s; st_left_kdf s; st_right_kdf s] ->
     (exists p, ks_pad k = [p]) /\ blen (ks_name k) < 2 ^ 63) ->
  valid_coins c coins -> valid_salt c salt -> blen aad < 2 ^ 32 ->
  exists ct, bytes_encrypt H c ks coins data salt aad = Ok ct /\
    forall rsalt now limit,
      bytes_decrypt H c ks rsalt now ct aad limit = opened (c_clock c) (r_now coins) now limit data.
Proof.
  intros H r mult s c ks co data salt aad X R E F T S0 I K V VS A.
  apply encrypt_decrypt; auto; [exact (xof_len _ _ X)|exact (made_valid H r mult s c X R E F T S0 I K)].
Qed.
Print Assumptions C77_accepted_roundtrip.

(** C77 is false of the time unit, which the fingerprint leaves out: with another
    unit the constructor accepts the same settings, the cipher objects are the same,
    and each ciphertext of the one configuration is, byte for byte, a ciphertext of
    the other made at another time. *)
Theorem C77_time_unit_refuted : forall H mult u s c1,
  make_config H mult s = Ok c1 ->
  exists c2, make_config H mult (with_unit u s) = Ok c2 /\
    ck_unit (c_clock c2) = u /\ c_metadata c2 = c_metadata c1 /\
    (forall key, make_cipher H c2 key = make_cipher H c1 key) /\
    forall ks r data salt aad, (0 <= clock_time (c_clock c1) (r_now r) <= if float_unit u then 2 ^ 50 else 2 ^ 53)%Z ->
      exists t, clock_time (c_clock c2) t = clock_time (c_clock c1) (r_now r) /\
        bytes_encrypt H c2 ks (at_time t r) data salt aad = bytes_encrypt H c1 ks r data salt aad.
Proof.
  intros H mult u s c1 E1. destruct (with_unit_config H mult u s c1 E1) as (c2 & E2 & D).
  exists c2. split; [exact E2|]. split; [now rewrite D|]. split; [now rewrite D|].
  split; [intros key; rewrite D; reflexivity|].
  intros ks r data salt aad T. exact (other_unit_ciphertext H mult u s c1 c2 ks r data salt aad E1 E2 T).
Qed.
Print Assumptions C77_time_unit_refuted.

(** A configuration whose measurements do not fit together is refused with ValueError. *)
Theorem C77_checks_raise_value_errors : forall H c e, check_config H c = Err e -> e = ValueErr.
Proof.
  intros H c e. unfold check_config, check_shake_config, check_dual_config. destruct (c_type c);
    repeat match goal with |- context [if ?b then _ else _] => destruct b end; congruence.
Qed.
Print Assumptions C77_checks_raise_value_errors.

(** Exactly these measures are accepted, of what the checks look at: [rate] is the block size of
    the hasher. *)
Theorem C77_accepted_measures : forall H c, check_config H c = Ok tt <-> accepted_measures H c.
Proof.
  intros H c. unfold check_config, accepted_measures, check_shake_config, check_dual_config, remainder_check,
    embedded_capacity_bytes, rate.
  change (c_timestamp_bytes c + c_siv_key_bytes c) with (inner_header_bytes c).
  destruct (c_type c).
  - repeat match goal with |- context [if ?b then _ else _] => let E := fresh "E" in destruct b eqn:E end;
      (split; [intro X; try discriminate X|intros (A1 & A2 & A3 & A4); try reflexivity]); try (exfalso; lia).
    repeat split; lia.
  - set (half := (2 * h_block_size H - c_blocksize c) / 2).
    assert (HF : half = 0 <-> 2 * h_block_size H < c_blocksize c + 2).
    { unfold half. pose proof (N.div_mod (2 * h_block_size H - c_blocksize c) 2 ltac:(discriminate)) as D.
      pose proof (N.mod_lt (2 * h_block_size H - c_blocksize c) 2 ltac:(discriminate)). lia. }
    clearbody half.
    rewrite <- !N.even_spec.
    repeat match goal with |- context [if ?b then _ else _] => let E := fresh "E" in destruct b eqn:E end;
      (split; [intro X; try discriminate X|intros (A1 & A2 & A3 & A4 & A5 & A6 & A7); try reflexivity]); try (exfalso; lia).
    repeat split; lia.
Qed.
Print Assumptions C77_accepted_measures.

(** Chunky2048: of each ratchet key the two key derivations take alternate bytes, so that every byte
    goes to exactly one of them; these are the bytes of C24's cipher. *)
Lemma selects_left : forall i, selects (Some 0%Z, None, Some 2%Z) i = Nat.even i.
Proof.
  intro i. unfold selects. rewrite Z.sub_0_r. replace (0 <=? Z.of_nat i)%Z with true by lia. cbn [andb].
  rewrite Zmod_even.
  destruct (Nat.even i) eqn:E.
  - apply Nat.even_spec in E. destruct E as [k ->]. rewrite Nat2Z.inj_mul, Z.even_mul. reflexivity.
  - assert (O : Nat.odd i = true) by (unfold Nat.odd; rewrite E; reflexivity).
    apply Nat.odd_spec in O. destruct O as [k ->]. rewrite Nat2Z.inj_add, Nat2Z.inj_mul, Z.even_add, Z.even_mul. reflexivity.
Qed.
Lemma selects_right : forall i, selects (Some 1%Z, None, Some 2%Z) i = Nat.odd i.
Proof.
  intro i. unfold selects, Nat.odd. destruct i as [|i]; [reflexivity|].
  replace (1 <=? Z.of_nat (S i))%Z with true by lia. cbn [andb].
  replace (Z.of_nat (S i) - 1)%Z with (Z.of_nat i) by lia.
  pose proof (selects_left i) as H. unfold selects in H. rewrite Z.sub_0_r in H.
  replace (0 <=? Z.of_nat i)%Z with true in H by lia. cbn [andb] in H. rewrite H.
  rewrite Nat.even_succ. unfold Nat.odd. now rewrite negb_involutive.
Qed.
Lemma selection_parity : forall (l : list byte) n,
  map snd (filter (fun p => Nat.even (fst p)) (combine (seq n (length l)) l)) = (if Nat.even n then evens l else odds l) /\
  map snd (filter (fun p => Nat.odd (fst p)) (combine (seq n (length l)) l)) = (if Nat.even n then odds l else evens l).
Proof.
  induction l as [|x l IH]; intro n.
  { cbn. destruct (Nat.even n); split; reflexivity. }
  destruct (IH (S n)) as [I1 I2]. cbn [length seq combine filter fst]. unfold Nat.odd at 1.
  rewrite Nat.even_succ in I1, I2. unfold Nat.odd in I1, I2 |- *. fold Nat.odd in *.
  assert (E : forall b, evens (b :: l) = b :: odds l) by (intro b; destruct l; reflexivity).
  destruct (Nat.even n); cbn [negb map snd] in *; rewrite I1, I2, ?E; split; reflexivity.
Qed.
Theorem C77_ratchet_keys_are_dealt_out : forall l r,
  ks_key_slice (st_left_kdf chunky2048_settings) = Some l -> ks_key_slice (st_right_kdf chunky2048_settings) = Some r ->
  (forall i, selects l i = negb (selects r i)) /\
  (forall key, selection l key = evens key /\ selection r key = odds key).
Proof.
  intros l r L R. injection L as <-. injection R as <-. split.
  - intro i. rewrite selects_left, selects_right. unfold Nat.odd. now rewrite negb_involutive.
  - intro key. unfold selection.
    rewrite (filter_ext _ (fun p : nat * byte => Nat.even (fst p))) by (intro; apply selects_left).
    rewrite (filter_ext (fun p : nat * byte => selects _ (fst p)) (fun p : nat * byte => Nat.odd (fst p))) by (intro; apply selects_right).
    exact (selection_parity key 0).
Qed.
Print Assumptions C77_ratchet_keys_are_dealt_out.
Example C77_dealt_case : selection (Some 0%Z, None, Some 2%Z) [x01; x02; x03; x04; x05] = [x01; x03; x05] /\
  selection (Some 1%Z, None, Some 2%Z) [x01; x02; x03; x04; x05] = [x02; x04].
Proof. split; reflexivity. Qed.

(** Slick256 with seconds and with minutes: a message made with the one opens with
    the other, for which it is not even a minute old after an hour. *)
Example C77_case : exists c1 c2 ks ct,
  make_config toy 13 slick256_settings = Ok c1 /\
  make_config toy 13 (with_unit Minutes slick256_settings) = Ok c2 /\
  make_cipher toy c1 a_key = Ok ks /\
  bytes_encrypt toy c1 ks slick_coins [x68; x69] None [x41] = Ok ct /\
  bytes_decrypt toy c1 ks [] (later 3600) ct [x41] (Some 60%Z) = Err (TimestampExpired 3540) /\
  bytes_decrypt toy c2 ks [] (later 3600) ct [x41] (Some 1%Z) = Ok [x68; x69].
Proof.
  destruct (make_config toy 13 slick256_settings) as [c1|] eqn:E1; [|vm_compute in E1; discriminate].
  destruct (make_config toy 13 (with_unit Minutes slick256_settings)) as [c2|] eqn:E2; [|vm_compute in E2; discriminate].
  vm_compute in E1, E2. apply Ok_inj in E1. apply Ok_inj in E2. subst c1 c2.
  eexists _, _, _, _. split; [reflexivity|]. split; [reflexivity|]. split; [vm_compute; reflexivity|].
  split; [vm_compute; reflexivity|]. split; vm_compute; reflexivity.
Qed.
(** A setting that is bound: another epoch, another fingerprint. *)
Example C77_case_epoch : exists c1 c2,
  make_config toy 13 slick256_settings = Ok c1 /\
  make_config toy 13 {| st_type := ShakePermute; st_name := st_name slick256_settings;
     st_config_id := st_config_id slick256_settings; st_blocksize := 32; st_min_padding_blocks := 0;
     st_epoch_ns := 0; st_time_unit := Seconds;
     st_timestamp_bytes := 4; st_siv_key_bytes := 8; st_shmac_bytes := 24;
     st_block_id_bytes := 16; st_max_block_id_bytes := 32; st_min_block_id_bytes := 16;
     st_salt_bytes := 8; st_iv_bytes := 8;
     st_block_id_kdf := st_block_id_kdf slick256_settings; st_shmac_kdf := st_shmac_kdf slick256_settings;
     st_left_kdf := st_left_kdf slick256_settings; st_right_kdf := st_right_kdf slick256_settings;
     st_permutation := FastChain |} = Ok c2 /\
  bytes_eqb (c_metadata c1) (c_metadata c2) = false.
Proof. eexists _, _. split; [vm_compute; reflexivity|]. split; [vm_compute; reflexivity|]. vm_compute. reflexivity. Qed.
