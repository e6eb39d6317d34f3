(** * C19, C21 - C26: padding and one-shot encryption.

    [H] is any extendable output function, [c] a configuration, [ks] what a
    cipher object made from a key holds, [r] everything drawn from the
    outside (random bytes and the time) during an encryption. *)
From Coq Require Import ZArith.
From Verif Require Import Base BaseFacts CanonModel CanonSpec PermModel ClockModel TransformModel
  TransformSpec TransformProofs GentoolsModel CipherModel CipherSpec CipherProofs SessionProofs BindingProofs
  ShippedProofs ConfusionProofs.
Local Open Scope N_scope.

(** ** A concrete XOF-like function and concrete inputs for the examples: the
    output repeats one byte, the sum of the input's bytes. *)
Definition toy : hasher :=
  {| h_block_size := 168; h_digest_size := 0; h_is_xof := true;
     h_digest := fun m n =>
       repeat (byte_of (fold_left (fun a b => a + bval b) m 0 mod 256)) (N.to_nat n) |}.
Lemma toy_xof : like_shake128 toy.
Proof.
  constructor; [reflexivity|reflexivity|]. intros m n. cbn [h_digest toy].
  unfold blen. rewrite repeat_length. apply N2Nat.id.
Qed.
Definition a_key : bytes := repeat x07 64.
Definition slick_coins : coins :=
  {| r_salt := repeat x01 8; r_iv := repeat x02 8; r_siv := repeat x03 8;
     r_extra := repeat x04 32; r_now := (1700000000 * 1000000000)%Z |}.
Definition chunky_coins : coins :=
  {| r_salt := repeat x01 8; r_iv := repeat x02 8; r_siv := repeat x03 16;
     r_extra := repeat x04 256; r_now := (1700000000 * 1000000000)%Z |}.
Definition later (s : Z) : Z := ((1700000000 + s) * 1000000000)%Z.

(** ** C19: padding *)

(** C19: for frames of up to 256 bytes (all shipped configurations), padding
    always works, gives a positive whole number of frames, and is undone by
    removing it; an exceeded time-to-live is reported instead. *)
Theorem C19_padding_roundtrip : forall c r data,
  0 < padding_frame c <= 256 -> valid_coins c r ->
  exists padded,
    pad_plaintext c (r_now r) (r_siv r) (r_extra r) data = Ok padded /\
    0 < blen padded /\ blen padded mod padding_frame c = 0 /\
    forall now limit,
      depad_plaintext c now padded limit = opened (c_clock c) (r_now r) now limit data.
Proof.
  intros c r data F V. destruct F as [F1 F2].
  destruct (pad_ok c r data F1 V) as (p & ts & e & Hp & Ep & _ & _ & Hts & Lts & Lh & Le & Se).
  exists p. split; [exact Hp|].
  assert (Lp : blen p = inner_header_bytes c + blen data + padding_size c (blen data)).
  { rewrite Ep, blen_app, Lh, blen_app, Le. lia. }
  pose proof (padding_size_bounds c (blen data) F1) as B.
  split; [lia|]. split; [rewrite Lp; now apply padded_total|].
  intros now limit. eapply pad_depad; [exact F1|exact V| |exact Hp].
  rewrite sentinel_bytes_1; [lia|now split].
Qed.
Print Assumptions C19_padding_roundtrip.

(** C19, any frame (restricted): the same holds for larger frames for those
    plaintexts whose padding has room for the sentinel.  Missing: the other
    plaintext lengths, for which it is false (next theorem). *)
Theorem C19_padding_any_frame_partial : forall c r data,
  0 < padding_frame c -> valid_coins c r ->
  sentinel_bytes c <= padding_frame c - (inner_header_bytes c + blen data) mod padding_frame c ->
  exists padded,
    pad_plaintext c (r_now r) (r_siv r) (r_extra r) data = Ok padded /\
    0 < blen padded /\ blen padded mod padding_frame c = 0 /\
    forall now limit,
      depad_plaintext c now padded limit = opened (c_clock c) (r_now r) now limit data.
Proof.
  intros c r data F1 V S.
  destruct (pad_ok c r data F1 V) as (p & ts & e & Hp & Ep & _ & _ & Hts & Lts & Lh & Le & Se).
  exists p. split; [exact Hp|].
  assert (Lp : blen p = inner_header_bytes c + blen data + padding_size c (blen data)).
  { rewrite Ep, blen_app, Lh, blen_app, Le. lia. }
  pose proof (padding_size_bounds c (blen data) F1) as B.
  split; [lia|]. split; [rewrite Lp; now apply padded_total|].
  intros now limit. eapply pad_depad; [exact F1|exact V|exact S|exact Hp].
Qed.
Print Assumptions C19_padding_any_frame_partial.

(** A configuration with blocks of 64 bytes and 7 further padding blocks: the
    frame is 512 bytes and the sentinel is 2 bytes long. *)
Definition wide_cfg : result cfg :=
  perm <- make_chain_config FastChain 64 13 ;;
  Ok {| c_type := ShakePermute; c_config_id := [x57]; c_metadata := [];
        c_blocksize := 64; c_min_padding_blocks := 7;
        c_clock := {| ck_unit := Seconds; ck_epoch := EPOCH_NS |};
        c_timestamp_bytes := 4; c_siv_key_bytes := 8; c_shmac_bytes := 24;
        c_block_id_bytes := 16; c_max_block_id_bytes := 32; c_min_block_id_bytes := 16;
        c_salt_bytes := 8; c_iv_bytes := 8;
        c_block_id_kdf := kdf_of name_block_id_kdf x9a;
        c_shmac_kdf := kdf_of name_shmac_kdf xac;
        c_left_kdf := kdf_of name_left_kdf x5c; c_right_kdf := kdf_of name_right_kdf x36;
        c_perm := perm |}.
Definition wide_coins : coins :=
  {| r_salt := repeat x01 8; r_iv := repeat x02 8; r_siv := repeat x03 8;
     r_extra := repeat x04 512; r_now := (1700000000 * 1000000000)%Z |}.

(** C19 is false for larger frames: the constructor accepts this configuration,
    and a plaintext of 499 bytes, which leaves one byte for the two byte
    sentinel, comes back empty. *)
Theorem C19_wide_frame_refuted : exists c padded data,
  wide_cfg = Ok c /\ check_config toy c = Ok tt /\ valid_coins c wide_coins /\
  data <> [] /\
  pad_plaintext c (r_now wide_coins) (r_siv wide_coins) (r_extra wide_coins) data = Ok padded /\
  depad_plaintext c (r_now wide_coins) padded None = Ok [].
Proof.
  destruct wide_cfg as [c|e] eqn:E; [|vm_compute in E; discriminate].
  vm_compute in E. apply Ok_inj in E. subst c.
  eexists _, _, (repeat x41 499).
  split; [reflexivity|]. split; [vm_compute; reflexivity|].
  split; [|split; [discriminate|split; [vm_compute; reflexivity|vm_compute; reflexivity]]].
  constructor; try reflexivity. split; vm_compute; congruence.
Qed.
Print Assumptions C19_wide_frame_refuted.

(** ** C21, C22: round trip *)

(** For every valid configuration. *)
Lemma encrypt_decrypt : forall H c ks r data salt aad,
  (forall m n, blen (h_digest H m n) = n) -> valid_cfg H c ->
  valid_coins c r -> valid_salt c salt -> blen aad < 2 ^ 32 ->
  exists ct,
    bytes_encrypt H c ks r data salt aad = Ok ct /\
    forall rsalt now limit,
      bytes_decrypt H c ks rsalt now ct aad limit = opened (c_clock c) (r_now r) now limit data.
Proof.
  intros H c ks r data salt aad X V R S A.
  destruct (encrypt_shape H c X V ks r data salt aad R S A)
    as (padded & body & x & _ & _ & _ & _ & _ & E & _ & D).
  eexists. split; [exact E|]. intros rsalt now limit.
  rewrite D by (apply blen_tag; assumption). now rewrite bytes_eqb_refl.
Qed.

(** C21: Slick256.  [meta] and [mult] are the configuration's fingerprint and
    the permutation's multiplier; any value works. *)
Theorem C21_slick256_roundtrip : forall H meta mult c key ks r data salt aad,
  like_shake128 H -> blen meta < 2 ^ 63 -> slick256 meta mult = Ok c ->
  make_cipher H c key = Ok ks ->
  valid_coins c r -> valid_salt c salt -> blen aad < 2 ^ 32 ->
  exists ct,
    bytes_encrypt H c ks r data salt aad = Ok ct /\
    forall rsalt now limit,
      bytes_decrypt H c ks rsalt now ct aad limit = opened (c_clock c) (r_now r) now limit data.
Proof.
  intros H meta mult c key ks r data salt aad X M C _.
  apply encrypt_decrypt; [exact (xof_len _ _ X)|exact (slick256_valid _ _ _ _ X M C)].
Qed.
Print Assumptions C21_slick256_roundtrip.

(** C21: every key of at least 64 bytes makes a cipher object, and no shorter
    one does: those are refused with ValueError. *)
Theorem C21_slick256_keys : forall H meta mult c key,
  like_shake128 H -> blen meta < 2 ^ 63 -> slick256 meta mult = Ok c -> python_sized key ->
  ((exists ks, make_cipher H c key = Ok ks) <-> 64 <= blen key) /\
  (blen key < 64 -> make_cipher H c key = Err ValueErr).
Proof.
  intros H meta mult c key X M C K. split; [split|].
  - intros [ks E]. eapply make_cipher_shmac in E as (_ & _ & _ & _ & _ & G). exact G.
  - intros L. apply make_cipher_total; [exact (slick256_valid _ _ _ _ X M C)|].
    unfold python_sized in K. change (2 ^ 63) with 9223372036854775808 in K.
    change (2 ^ 64) with 18446744073709551616. lia.
  - intros L. unfold make_cipher. change MIN_KEY_BYTES with 64. now rewrite (proj2 (N.ltb_lt _ _) L).
Qed.
Print Assumptions C21_slick256_keys.

Example C21_case : exists c ks ct,
  slick256 [x61] 13 = Ok c /\ make_cipher toy c a_key = Ok ks /\ valid_coins c slick_coins /\
  bytes_encrypt toy c ks slick_coins [x68; x69] None [x41] = Ok ct /\
  bytes_decrypt toy c ks [] (later 5) ct [x41] (Some 5%Z) = Ok [x68; x69] /\
  bytes_decrypt toy c ks [] (later 8) ct [x41] (Some 5%Z) = Err (TimestampExpired 3) /\
  bytes_decrypt toy c ks [] (later 5) ct [x42] (Some 5%Z) = Err InvalidSHMAC.
Proof.
  destruct (slick256 [x61] 13) as [c|] eqn:E; [|vm_compute in E; discriminate].
  vm_compute in E. apply Ok_inj in E. subst c.
  eexists _, _, _. split; [reflexivity|]. split; [vm_compute; reflexivity|].
  split; [constructor; try reflexivity; split; vm_compute; congruence|].
  split; [vm_compute; reflexivity|]. split; [vm_compute; reflexivity|].
  split; vm_compute; reflexivity.
Qed.

(** C22: Chunky2048. *)
Theorem C22_chunky2048_roundtrip : forall H meta mult c key ks r data salt aad,
  like_shake128 H -> blen meta < 2 ^ 63 -> chunky2048 meta mult = Ok c ->
  make_cipher H c key = Ok ks ->
  valid_coins c r -> valid_salt c salt -> blen aad < 2 ^ 32 ->
  exists ct,
    bytes_encrypt H c ks r data salt aad = Ok ct /\
    forall rsalt now limit,
      bytes_decrypt H c ks rsalt now ct aad limit = opened (c_clock c) (r_now r) now limit data.
Proof.
  intros H meta mult c key ks r data salt aad X M C _.
  apply encrypt_decrypt; [exact (xof_len _ _ X)|exact (chunky2048_valid _ _ _ _ X M C)].
Qed.
Print Assumptions C22_chunky2048_roundtrip.

Theorem C22_chunky2048_keys : forall H meta mult c key,
  like_shake128 H -> blen meta < 2 ^ 63 -> chunky2048 meta mult = Ok c -> python_sized key ->
  ((exists ks, make_cipher H c key = Ok ks) <-> 64 <= blen key) /\
  (blen key < 64 -> make_cipher H c key = Err ValueErr).
Proof.
  intros H meta mult c key X M C K. split; [split|].
  - intros [ks E]. eapply make_cipher_shmac in E as (_ & _ & _ & _ & _ & G). exact G.
  - intros L. apply make_cipher_total; [exact (chunky2048_valid _ _ _ _ X M C)|].
    unfold python_sized in K. change (2 ^ 63) with 9223372036854775808 in K.
    change (2 ^ 64) with 18446744073709551616. lia.
  - intros L. unfold make_cipher. change MIN_KEY_BYTES with 64. now rewrite (proj2 (N.ltb_lt _ _) L).
Qed.
Print Assumptions C22_chunky2048_keys.

(** C22: every byte of a ratchet key goes into the keystream: those at even places into the left
    half's hash, those at odd places into the right half's, in order. *)
Theorem C22_ratchet_keys_enter_the_keystream : forall H b key, exists l r,
  let b' := snd (keystream_send H b key) in
  b_left b' = b_left b ++ l /\ b_right b' = b_right b ++ r /\
  (length l + length r = length key)%nat /\
  forall i : nat, nth_error l i = nth_error key (2 * i)%nat /\ nth_error r i = nth_error key (2 * i + 1)%nat.
Proof.
  intros H b key. exists (evens key), (odds key). cbv zeta. unfold keystream_send. cbn [snd set_hashes b_left b_right].
  split; [reflexivity|]. split; [reflexivity|].
  assert (A : forall n k, (length k <= n)%nat -> (length (evens k) + length (odds k) = length k)%nat /\
    forall i, nth_error (evens k) i = nth_error k (2 * i)%nat /\ nth_error (odds k) i = nth_error k (2 * i + 1)%nat).
  { assert (Nil : forall i, nth_error ([] : bytes) i = None) by (now intros [|i]).
    induction n as [|n IH]; intros [|x [|y k]] L; cbn [length] in L; try lia.
    - split; [reflexivity|]. intros i. cbn [evens odds]. now rewrite !Nil.
    - split; [reflexivity|]. intros i. cbn [evens odds]. now rewrite !Nil.
    - split; [reflexivity|]. intros [|i]; [split; reflexivity|]. cbn [evens odds nth_error]. rewrite !Nil. replace (2 * S i)%nat with (S (2 * i + 1)) by lia.
      cbn [nth_error]. rewrite !Nil. replace (S (2 * i + 1) + 1)%nat with (S (2 * i + 2)) by lia. cbn [nth_error]. now rewrite !Nil.
    - assert (L1 : (length (y :: k) <= n)%nat) by (cbn [length]; lia). destruct (IH (y :: k) L1) as [E F]. change (odds (x :: y :: k)) with (evens (y :: k)).
      assert (Ev : evens (x :: y :: k) = x :: odds (y :: k)) by reflexivity. rewrite Ev. split; [cbn [length] in *; lia|].
      intros i. split; [destruct i as [|i]; [reflexivity|]|].
      + cbn [nth_error]. rewrite (proj2 (F i)). replace (2 * S i)%nat with (S (2 * i + 1)) by lia. reflexivity.
      + rewrite (proj1 (F i)). replace (2 * i + 1)%nat with (S (2 * i)) by lia. reflexivity. }
  now apply (A (length key)).
Qed.
Print Assumptions C22_ratchet_keys_enter_the_keystream.

(** C21, C22: and the same for every configuration that is valid in the sense of
    the specification, not only the shipped ones. *)
Theorem C22_any_configuration_roundtrip : forall H rate c ks r data salt aad,
  an_xof rate H -> valid_cfg H c ->
  valid_coins c r -> valid_salt c salt -> blen aad < 2 ^ 32 ->
  exists ct,
    bytes_encrypt H c ks r data salt aad = Ok ct /\
    forall rsalt now limit,
      bytes_decrypt H c ks rsalt now ct aad limit = opened (c_clock c) (r_now r) now limit data.
Proof. intros H rate c ks r data salt aad X. apply encrypt_decrypt, (xof_len _ _ X). Qed.
Print Assumptions C22_any_configuration_roundtrip.

Example C22_case : exists c ks ct,
  chunky2048 [x61] 13 = Ok c /\ make_cipher toy c a_key = Ok ks /\ valid_coins c chunky_coins /\
  bytes_encrypt toy c ks chunky_coins (repeat x68 300) (Some (repeat x09 8)) [x41] = Ok ct /\
  blen ct = 48 + 512 /\
  bytes_decrypt toy c ks [] (later 5) ct [x41] None = Ok (repeat x68 300).
Proof.
  destruct (chunky2048 [x61] 13) as [c|] eqn:E; [|vm_compute in E; discriminate].
  vm_compute in E. apply Ok_inj in E. subst c.
  eexists _, _, _. split; [reflexivity|]. split; [vm_compute; reflexivity|].
  split; [constructor; try reflexivity; split; vm_compute; congruence|].
  split; [vm_compute; reflexivity|]. split; vm_compute; reflexivity.
Qed.

(** ** C23: layout *)

(** C23: a ciphertext is tag, salt, IV and a body of the least whole number of
    frames that holds inner header, plaintext and one more byte. *)
Theorem C23_ciphertext_layout : forall H rate c ks r data salt aad,
  an_xof rate H -> valid_cfg H c -> valid_coins c r -> valid_salt c salt -> blen aad < 2 ^ 32 ->
  exists tag body,
    bytes_encrypt H c ks r data salt aad =
      Ok (tag ++ (match salt with None => r_salt r | Some s => s end) ++ r_iv r ++ body) /\
    blen tag = c_shmac_bytes c /\
    let needed := c_timestamp_bytes c + c_siv_key_bytes c + blen data + 1 in
    blen body mod padding_frame c = 0 /\
    needed <= blen body < needed + padding_frame c.
Proof.
  intros H rate c ks r data salt aad X V R S A.
  destruct (encrypt_shape H c (xof_len _ _ X) V ks r data salt aad R S A)
    as (padded & body & x & Hp & Lb & _ & _ & _ & E & _ & _).
  destruct (pad_whole H c (xof_len _ _ X) V r data R) as (padded' & Hp' & _ & M & _ & Lp & _).
  rewrite Hp in Hp'. apply Ok_inj in Hp'. subst padded'.
  exists (tag_of H c x), body. split.
  { rewrite E. do 3 f_equal. destruct salt as [s|]; [|reflexivity]. cbn [valid_salt] in S.
    apply choose_some. eapply salt_nonempty; eassumption. }
  split; [apply blen_tag; [exact (xof_len _ _ X)|assumption]|].
  cbv zeta. split; [now rewrite Lb|]. rewrite Lb, Lp.
  pose proof (padding_size_bounds c (blen data) (frame_pos H c V)).
  unfold inner_header_bytes. lia.
Qed.
Print Assumptions C23_ciphertext_layout.

(** C23: the numbers for the two shipped ciphers. *)
Theorem C23_slick256_size : forall H meta mult c ks r data salt aad ct,
  like_shake128 H -> blen meta < 2 ^ 63 -> slick256 meta mult = Ok c ->
  valid_coins c r -> valid_salt c salt -> blen aad < 2 ^ 32 ->
  bytes_encrypt H c ks r data salt aad = Ok ct ->
  blen ct = 40 + 32 * ((12 + blen data) / 32 + 1).
Proof.
  intros H meta mult c ks r data salt aad ct X M C R S A E.
  pose proof (slick256_valid _ _ _ _ X M C) as V.
  destruct (C23_ciphertext_layout H 168 c ks r data salt aad X V R S A)
    as (tag & body & E' & Lt & B1 & B2 & B3).
  assert (Ls : blen (match salt with None => r_salt r | Some s => s end) = c_salt_bytes c).
  { destruct salt; [exact S|exact (vr_salt _ _ R)]. }
  pose proof (vr_iv _ _ R) as Li.
  rewrite E in E'. apply Ok_inj in E'. subst ct. rewrite !blen_app, Lt, Ls, Li.
  unfold slick256 in C. apply bind_ok in C as (perm & _ & C). apply Ok_inj in C. subst c.
  unfold padding_frame, min_stream_queue in *.
  cbn [c_shmac_bytes c_salt_bytes c_iv_bytes c_blocksize c_min_padding_blocks c_timestamp_bytes
       c_siv_key_bytes] in *.
  change (32 * (0 + 1)) with 32 in *.
  apply N.mod_divide in B1 as [k K]; [|lia].
  assert ((12 + blen data) / 32 = k - 1); [|lia].
  symmetry. apply (N.div_unique _ 32 (k - 1) (12 + blen data - 32 * (k - 1))); lia.
Qed.
Print Assumptions C23_slick256_size.

Theorem C23_chunky2048_size : forall H meta mult c ks r data salt aad ct,
  like_shake128 H -> blen meta < 2 ^ 63 -> chunky2048 meta mult = Ok c ->
  valid_coins c r -> valid_salt c salt -> blen aad < 2 ^ 32 ->
  bytes_encrypt H c ks r data salt aad = Ok ct ->
  blen ct = 48 + 256 * ((20 + blen data) / 256 + 1).
Proof.
  intros H meta mult c ks r data salt aad ct X M C R S A E.
  pose proof (chunky2048_valid _ _ _ _ X M C) as V.
  destruct (C23_ciphertext_layout H 168 c ks r data salt aad X V R S A)
    as (tag & body & E' & Lt & B1 & B2 & B3).
  assert (Ls : blen (match salt with None => r_salt r | Some s => s end) = c_salt_bytes c).
  { destruct salt; [exact S|exact (vr_salt _ _ R)]. }
  pose proof (vr_iv _ _ R) as Li.
  rewrite E in E'. apply Ok_inj in E'. subst ct. rewrite !blen_app, Lt, Ls, Li.
  unfold chunky2048 in C. apply bind_ok in C as (perm & _ & C). apply Ok_inj in C. subst c.
  unfold padding_frame, min_stream_queue in *.
  cbn [c_shmac_bytes c_salt_bytes c_iv_bytes c_blocksize c_min_padding_blocks c_timestamp_bytes
       c_siv_key_bytes] in *.
  change (256 * (0 + 1)) with 256 in *.
  apply N.mod_divide in B1 as [k K]; [|lia].
  assert ((20 + blen data) / 256 = k - 1); [|lia].
  symmetry. apply (N.div_unique _ 256 (k - 1) (20 + blen data - 256 * (k - 1))); lia.
Qed.
Print Assumptions C23_chunky2048_size.

(** C23: input that is not a header and a positive whole number of blocks is
    refused whatever the hash function, key, associated data and time are; no
    other input is refused for its size. *)
Theorem C23_bad_size_refused : forall c data,
  0 < c_blocksize c ->
  let header := c_shmac_bytes c + c_salt_bytes c + c_iv_bytes c in
  (blen data <= header \/ (blen data - header) mod c_blocksize c <> 0) ->
  forall H ks rsalt now aad limit,
    bytes_decrypt H c ks rsalt now data aad limit = Err InvalidCiphertextSize.
Proof.
  intros c data B header Bad H ks rsalt now aad limit. unfold bytes_decrypt.
  replace (parse_ciphertext c data) with (@Err ciphertext InvalidCiphertextSize); [reflexivity|].
  unfold parse_ciphertext. fold header. change (header_bytes c) with header.
  destruct (Z.leb_spec (Z.of_N (blen data) - Z.of_N header) 0); [reflexivity|].
  destruct Bad as [Bad|Bad]; [lia|].
  replace (Z.of_N (blen data) - Z.of_N header)%Z with (Z.of_N (blen data - header)) by lia.
  rewrite <- N2Z.inj_mod.
  destruct (Z.eqb_spec (Z.of_N ((blen data - header) mod c_blocksize c)) 0); [lia|]. reflexivity.
Qed.
Print Assumptions C23_bad_size_refused.

Theorem C23_good_size_not_refused : forall H rate c ks rsalt now data aad limit,
  an_xof rate H -> valid_cfg H c -> blen aad < 2 ^ 32 ->
  let header := c_shmac_bytes c + c_salt_bytes c + c_iv_bytes c in
  header < blen data -> (blen data - header) mod c_blocksize c = 0 ->
  bytes_decrypt H c ks rsalt now data aad limit <> Err InvalidCiphertextSize.
Proof.
  intros H rate c ks rsalt now data aad limit X V A header L M.
  destruct (decrypt_shape H c (xof_len _ _ X) V ks rsalt now data aad limit A)
    as [[P _]|(tag & s & v & body & padded & x & _ & _ & _ & _ & _ & _ & _ & _ & _ & ->)].
  - exfalso. unfold parse_ciphertext in P. change (header_bytes c) with header in P.
    replace (Z.of_N (blen data) - Z.of_N header)%Z with (Z.of_N (blen data - header)) in P by lia.
    rewrite <- N2Z.inj_mod, M in P.
    replace (Z.of_N (blen data - header) <=? 0)%Z with false in P by lia. discriminate.
  - destruct (bytes_eqb _ _); [|discriminate]. unfold depad_plaintext, test_timestamp.
    destruct limit as [l|]; [|discriminate]. cbv zeta. destruct (_ >? _)%Z; discriminate.
Qed.
Print Assumptions C23_good_size_not_refused.

(** ** C24: authentication *)

(** C24: decryption returns a plaintext only if the tag in the ciphertext is the
    one squeezed from everything the session has absorbed, and then the whole
    ciphertext is exactly what the encrypting side's procedure outputs for this
    key, associated data, salt and IV on some padded text holding the plaintext. *)
Theorem C24_accepted_is_authentic : forall H rate c ks rsalt now data aad limit plaintext,
  an_xof rate H -> valid_cfg H c -> blen aad < 2 ^ 32 ->
  bytes_decrypt H c ks rsalt now data aad limit = Ok plaintext ->
  exists salt iv body x padded,
    absorbed H c ks salt aad iv body = Ok x /\
    data = tag_of H c x ++ salt ++ iv ++ body /\
    blen salt = c_salt_bytes c /\ blen iv = c_iv_bytes c /\
    seal H c ks salt aad iv padded = Ok data /\
    depad_plaintext c now padded limit = Ok plaintext.
Proof.
  intros H rate c ks rsalt now data aad limit plaintext X V A E.
  destruct (decrypt_shape H c (xof_len _ _ X) V ks rsalt now data aad limit A)
    as [[_ P]|(tag & s & v & body & padded & x & Ed & Lt & Ls & Lv & Ne & M & Lp & Ab & Se & De)].
  - congruence.
  - rewrite E in De. destruct (bytes_eqb tag (tag_of H c x)) eqn:Q; [|discriminate].
    apply bytes_eqb_eq in Q. subst tag. exists s, v, body, x, padded.
    split; [exact Ab|]. split; [exact Ed|]. split; [exact Ls|]. split; [exact Lv|].
    split; [rewrite Ed; exact Se|]. symmetry. exact De.
Qed.
Print Assumptions C24_accepted_is_authentic.

(** C24: whatever else is done to a ciphertext of the right size, if its tag is
    not the right one for the rest, decryption raises InvalidSHMAC. *)
Theorem C24_wrong_tag_refused : forall H rate c ks rsalt now tag salt iv body aad limit x,
  an_xof rate H -> valid_cfg H c -> blen aad < 2 ^ 32 ->
  blen tag = c_shmac_bytes c -> blen salt = c_salt_bytes c -> blen iv = c_iv_bytes c ->
  body <> [] -> blen body mod c_blocksize c = 0 ->
  absorbed H c ks salt aad iv body = Ok x -> tag <> tag_of H c x ->
  bytes_decrypt H c ks rsalt now (tag ++ salt ++ iv ++ body) aad limit = Err InvalidSHMAC.
Proof.
  intros H rate c ks rsalt now tag salt iv body aad limit x X V A Lt Ls Lv Ne M Ab Hne.
  destruct (decrypt_shape H c (xof_len _ _ X) V ks rsalt now (tag ++ salt ++ iv ++ body) aad limit A)
    as [[P _]|(tag' & s & v & body' & padded & x' & Ed & Lt' & Ls' & Lv' & Ne' & M' & Lp & Ab' & Se & De)].
  - rewrite (parse_parts H c (xof_len _ _ X) tag salt iv body) in P by assumption. discriminate.
  - apply app_inj_len in Ed as [-> Ed]; [|unfold blen in *; lia].
    apply app_inj_len in Ed as [-> Ed]; [|unfold blen in *; lia].
    apply app_inj_len in Ed as [-> ->]; [|unfold blen in *; lia].
    rewrite Ab in Ab'. apply Ok_inj in Ab'. subst x'. rewrite De.
    apply bytes_eqb_neq in Hne. now rewrite Hne.
Qed.
Print Assumptions C24_wrong_tag_refused.

(** C24: in particular a ciphertext whose tag is altered is refused. *)
Theorem C24_altered_tag_refused : forall H rate c ks r data salt aad ct tag rest,
  an_xof rate H -> valid_cfg H c -> valid_coins c r -> valid_salt c salt -> blen aad < 2 ^ 32 ->
  bytes_encrypt H c ks r data salt aad = Ok ct ->
  ct = tag ++ rest -> blen tag = c_shmac_bytes c ->
  forall tag' rsalt now limit, length tag' = length tag -> tag' <> tag ->
    bytes_decrypt H c ks rsalt now (tag' ++ rest) aad limit = Err InvalidSHMAC.
Proof.
  intros H rate c ks r data salt aad ct tag rest X V R S A E Ec Lt tag' rsalt now limit Ln Hne.
  destruct (encrypt_shape H c (xof_len _ _ X) V ks r data salt aad R S A)
    as (padded & body & x & _ & _ & _ & _ & _ & E' & _ & D).
  rewrite E in E'. apply Ok_inj in E'. subst ct.
  pose proof (blen_tag H c (xof_len _ _ X) V x) as Ltx.
  apply app_inj_len in E' as [-> ->]; [|unfold blen in *; lia].
  rewrite D by (unfold blen in *; lia). apply bytes_eqb_neq in Hne. now rewrite Hne.
Qed.
Print Assumptions C24_altered_tag_refused.

(** C24: the only outcomes of decrypting anything are a plaintext and these
    three exceptions. *)
Theorem C24_decrypt_outcomes : forall H rate c ks rsalt now data aad limit e,
  an_xof rate H -> valid_cfg H c -> blen aad < 2 ^ 32 ->
  bytes_decrypt H c ks rsalt now data aad limit = Err e ->
  e = InvalidCiphertextSize \/ e = InvalidSHMAC \/
  exists late, (0 < late)%Z /\ e = TimestampExpired late.
Proof.
  intros H rate c ks rsalt now data aad limit e X V A E.
  destruct (decrypt_shape H c (xof_len _ _ X) V ks rsalt now data aad limit A)
    as [[_ P]|(tag & s & v & body & padded & x & _ & _ & _ & _ & _ & _ & _ & _ & _ & De)].
  - left. congruence.
  - rewrite E in De. right. destruct (bytes_eqb tag (tag_of H c x)); [|left; congruence].
    right. unfold depad_plaintext, test_timestamp in De. destruct limit as [l|]; [|discriminate].
    cbv zeta in De. destruct (_ >? _)%Z eqn:G in De; [|discriminate]. cbn [bind] in De.
    apply Err_inj in De. subst e. eexists. split; [|reflexivity]. lia.
Qed.
Print Assumptions C24_decrypt_outcomes.

Example C24_case : exists c ks ct,
  slick256 [x61] 13 = Ok c /\ make_cipher toy c a_key = Ok ks /\
  bytes_encrypt toy c ks slick_coins [x68; x69] None [x41] = Ok ct /\
  is_ok (bytes_decrypt toy c ks [] (later 5) ct [x41] None) = true /\
  is_ok (absorbed toy c ks (repeat x01 8) [x41] (repeat x02 8) (drop 40 ct)) = true /\
  bytes_decrypt toy c ks [] (later 5) (x00 :: drop 1 ct) [x41] None = Err InvalidSHMAC /\
  bytes_decrypt toy c ks [] (later 5) (take 71 ct ++ [x00]) [x41] None = Err InvalidSHMAC /\
  bytes_decrypt toy c ks [] (later 5) (take 71 ct) [x41] None = Err InvalidCiphertextSize.
Proof.
  destruct (slick256 [x61] 13) as [c|] eqn:E; [|vm_compute in E; discriminate].
  vm_compute in E. apply Ok_inj in E. subst c.
  eexists _, _, _. split; [reflexivity|]. split; [vm_compute; reflexivity|].
  split; [vm_compute; reflexivity|]. split; [vm_compute; reflexivity|].
  split; [vm_compute; reflexivity|]. split; [vm_compute; reflexivity|].
  split; vm_compute; reflexivity.
Qed.

(** ** C25: binding *)

(** C25 (restricted): for keys of one length, or for associated data, IVs and bodies
    of one length, the bytes absorbed before the tag is squeezed determine the key,
    salt, associated data, IV and every ciphertext block.  Missing: differences in both
    lengths at once, for which it is false for Slick256 (below). *)
Theorem C25_absorbed_determines_session_partial :
  forall H rate c key1 ks1 salt1 aad1 iv1 body1 key2 ks2 salt2 aad2 iv2 body2 x,
  an_xof rate H -> valid_cfg H c ->
  make_cipher H c key1 = Ok ks1 -> make_cipher H c key2 = Ok ks2 ->
  comparable key1 aad1 iv1 body1 key2 aad2 iv2 body2 ->
  blen salt1 = c_salt_bytes c -> blen salt2 = c_salt_bytes c ->
  blen body1 mod c_blocksize c = 0 -> blen body2 mod c_blocksize c = 0 ->
  absorbed H c ks1 salt1 aad1 iv1 body1 = Ok x -> absorbed H c ks2 salt2 aad2 iv2 body2 = Ok x ->
  key1 = key2 /\ salt1 = salt2 /\ aad1 = aad2 /\ iv1 = iv2 /\ body1 = body2.
Proof.
  intros H rate c key1 ks1 salt1 aad1 iv1 body1 key2 ks2 salt2 aad2 iv2 body2 x X V K1 K2 Lk S1 S2.
  apply (absorbed_inj H c (xof_len _ _ X) V key1 ks1); auto; try (unfold blen in *; lia); eapply salt_nonempty; eassumption.
Qed.
Print Assumptions C25_absorbed_determines_session_partial.

(** C25: so a ciphertext accepted under a second key or with other
    associated data, where the keys or the associated data have one length, exhibits two different inputs, namely what the two
    sessions absorb, on which the XOF's tag agrees. *)
Theorem C25_two_openings_collide : forall H rate c key1 ks1 key2 ks2 aad1 aad2 data
    r1 t1 l1 p1 r2 t2 l2 p2,
  an_xof rate H -> valid_cfg H c ->
  make_cipher H c key1 = Ok ks1 -> make_cipher H c key2 = Ok ks2 ->
  length key1 = length key2 \/ length aad1 = length aad2 -> blen aad1 < 2 ^ 32 -> blen aad2 < 2 ^ 32 ->
  bytes_decrypt H c ks1 r1 t1 data aad1 l1 = Ok p1 ->
  bytes_decrypt H c ks2 r2 t2 data aad2 l2 = Ok p2 ->
  (key1, aad1) <> (key2, aad2) ->
  exists tag salt iv body x y,
    data = tag ++ salt ++ iv ++ body /\
    absorbed H c ks1 salt aad1 iv body = Ok x /\ absorbed H c ks2 salt aad2 iv body = Ok y /\
    x <> y /\ tag_of H c x = tag /\ tag_of H c y = tag.
Proof.
  intros H rate c key1 ks1 key2 ks2 aad1 aad2 data r1 t1 l1 p1 r2 t2 l2 p2
    X V K1 K2 Lk A1 A2 D1 D2 Hne.
  destruct (C24_accepted_is_authentic H rate c ks1 r1 t1 data aad1 l1 p1 X V A1 D1)
    as (s1 & v1 & b1 & x & pd1 & Ab1 & Ed1 & Ls1 & Lv1 & _).
  destruct (C24_accepted_is_authentic H rate c ks2 r2 t2 data aad2 l2 p2 X V A2 D2)
    as (s2 & v2 & b2 & y & pd2 & Ab2 & Ed2 & Ls2 & Lv2 & _).
  pose proof (blen_tag H c (xof_len _ _ X) V x) as Lx.
  pose proof (blen_tag H c (xof_len _ _ X) V y) as Ly.
  assert (E := Ed1). rewrite Ed2 in E.
  apply app_inj_len in E as [Et E]; [|unfold blen in *; lia].
  apply app_inj_len in E as [-> E]; [|unfold blen in *; lia].
  apply app_inj_len in E as [-> ->]; [|unfold blen in *; lia].
  exists (tag_of H c x), s1, v1, b1, x, y.
  split; [exact Ed1|]. split; [exact Ab1|]. split; [exact Ab2|].
  split; [|split; congruence]. intros <-. apply Hne.
  destruct (decrypt_shape H c (xof_len _ _ X) V ks1 r1 t1 data aad1 l1 A1)
    as [[_ P]|(tag & s & v & body & padded & z & Ed & Lt & Ls & Lv & Ne & M & _)]; [congruence|].
  assert (Q := Ed). rewrite Ed1 in Q.
  apply app_inj_len in Q as [_ Q]; [|unfold blen in *; lia].
  apply app_inj_len in Q as [_ Q]; [|unfold blen in *; lia].
  apply app_inj_len in Q as [_ ->]; [|unfold blen in *; lia].
  edestruct (C25_absorbed_determines_session_partial H rate c key1 ks1 s1 aad1 v1 body key2 ks2 s1 aad2 v1 body x)
    as (-> & _ & -> & _); eauto.
  destruct Lk; [now left|right; auto].
Qed.
Print Assumptions C25_two_openings_collide.

(** C25 is false for Slick256 in general.  [key1], [key2], [aad1] are in
    ConfusionProofs.v: [key2] contains the encoding of [key1]; the rest of what a
    session with [key2] absorbs before the first block is put in the associated
    data of a session with [key1].  Whatever the XOF is, two sessions with
    different keys and different associated data absorb the same bytes, produce
    the same ciphertexts, and open each other's ciphertexts. *)
Theorem C25_key_lengths_refuted : forall H meta mult c salt,
  like_shake128 H -> blen meta < 2 ^ 63 -> slick256 meta mult = Ok c -> blen salt = 8 ->
  exists ks1 ks2,
    make_cipher H c key1 = Ok ks1 /\ make_cipher H c (key2 salt) = Ok ks2 /\
    key1 <> key2 salt /\ aad1 salt <> [] /\
    (forall iv body,
       absorbed H c ks1 salt (aad1 salt) iv body = absorbed H c ks2 salt [] iv body) /\
    (forall r data,
       bytes_encrypt H c ks1 r data (Some salt) (aad1 salt)
       = bytes_encrypt H c ks2 r data (Some salt) []) /\
    (forall r data ct rsalt now limit,
       valid_coins c r ->
       bytes_encrypt H c ks1 r data (Some salt) (aad1 salt) = Ok ct ->
       bytes_decrypt H c ks2 rsalt now ct [] limit = opened (c_clock c) (r_now r) now limit data).
Proof.
  intros H meta mult c salt X M C Ls.
  pose proof (slick256_valid _ _ _ _ X M C) as V.
  destruct (confused_sessions H meta mult c salt X M C Ls)
    as (ks1 & ks2 & K1 & K2 & Bs).
  exists ks1, ks2. split; [exact K1|]. split; [exact K2|].
  split. { intros E. apply (f_equal (@length byte)) in E. unfold key2 in E.
           rewrite !app_length in E. change (length (le_enc 8 64)) with 8%nat in E. lia. }
  split. { unfold aad1. discriminate. }
  assert (Ty : c_type c = ShakePermute).
  { unfold slick256 in C. apply bind_ok in C as (? & _ & C). apply Ok_inj in C. now subst c. }
  assert (Enc : forall r data,
       bytes_encrypt H c ks1 r data (Some salt) (aad1 salt)
       = bytes_encrypt H c ks2 r data (Some salt) []).
  { intros r data. apply encrypt_same_bundle; [exact Ty|]. apply Bs. }
  split. { intros iv body. apply absorbed_same_bundle; [exact Ty|]. apply Bs. }
  split; [exact Enc|].
  intros r data ct rsalt now limit R E.
  rewrite Enc in E.
  assert (S : valid_salt c (Some salt)).
  { cbn [valid_salt]. unfold slick256 in C. apply bind_ok in C as (? & _ & C). apply Ok_inj in C.
    subst c. exact Ls. }
  destruct (C21_slick256_roundtrip H meta mult c (key2 salt) ks2 r data (Some salt) [] X M C K2 R S)
    as (ct' & E' & D); [reflexivity|].
  rewrite E in E'. apply Ok_inj in E'. subst ct'. apply D.
Qed.
Print Assumptions C25_key_lengths_refuted.

Example C25_case : exists c ks1 ks2,
  slick256 [x61] 13 = Ok c /\ make_cipher toy c a_key = Ok ks1 /\
  make_cipher toy c (repeat x08 64) = Ok ks2 /\
  is_ok (absorbed toy c ks1 (repeat x01 8) [x41] (repeat x02 8) (repeat x00 64)) = true /\
  is_ok (absorbed toy c ks2 (repeat x01 8) [x41] (repeat x02 8) (repeat x00 64)) = true.
Proof.
  destruct (slick256 [x61] 13) as [c|] eqn:E; [|vm_compute in E; discriminate].
  vm_compute in E. apply Ok_inj in E. subst c.
  eexists _, _, _. split; [reflexivity|]. split; [vm_compute; reflexivity|].
  split; [vm_compute; reflexivity|]. split; vm_compute; reflexivity.
Qed.

(** ** C26: JSON and tokens *)

(** C26: with any serialiser that round trips, JSON encryption does. *)
Theorem C26_json_roundtrip : forall (J : Type) (dumps : J -> result bytes)
    (loads : bytes -> result J) H rate c ks r v text salt aad,
  an_xof rate H -> valid_cfg H c -> valid_coins c r -> valid_salt c salt -> blen aad < 2 ^ 32 ->
  dumps v = Ok text -> loads text = Ok v ->
  exists ct,
    json_encrypt H c dumps ks r v salt aad = Ok ct /\
    (forall rsalt now, json_decrypt H c loads ks rsalt now ct aad None = Ok v) /\
    forall rsalt now limit,
      let age := (clock_time (c_clock c) now - clock_time (c_clock c) (r_now r))%Z in
      json_decrypt H c loads ks rsalt now ct aad (Some limit)
      = if (age <=? limit)%Z then Ok v else Err (TimestampExpired (age - limit)).
Proof.
  intros J dumps loads H rate c ks r v text salt aad X V R S A Ed El.
  destruct (encrypt_decrypt H c ks r text salt aad (xof_len _ _ X) V R S A) as (ct & E & D).
  exists ct. split; [unfold json_encrypt; now rewrite Ed|]. split.
  - intros. unfold json_decrypt. rewrite D. exact El.
  - intros rsalt now limit age. unfold json_decrypt. rewrite D. unfold opened. fold age.
    cbv zeta. destruct (age <=? limit)%Z; [exact El|reflexivity].
Qed.
Print Assumptions C26_json_roundtrip.

(** C26: tokens round trip and consist of letters, digits, "-", "_" and "=". *)
Theorem C26_token_roundtrip : forall H rate c ks r data aad,
  an_xof rate H -> valid_cfg H c -> valid_coins c r -> blen aad < 2 ^ 32 ->
  exists token,
    make_token H c ks r data aad = Ok token /\
    Forall (fun ch => b64_alphabet_b ch = true) token /\
    forall rsalt now limit,
      read_token H c ks rsalt now token aad limit = opened (c_clock c) (r_now r) now limit data.
Proof.
  intros H rate c ks r data aad X V R A.
  destruct (encrypt_decrypt H c ks r data None aad (xof_len _ _ X) V R I A) as (ct & E & D).
  exists (bytes_to_urlsafe ct). split; [unfold make_token; now rewrite E|].
  split; [apply urlsafe_alphabet|].
  intros rsalt now limit. unfold read_token. rewrite urlsafe_roundtrip. apply D.
Qed.
Print Assumptions C26_token_roundtrip.
