(** * C54, C66, C67: mnemonics and phrases *)
From Verif Require Import Base BaseFacts CanonModel CanonSpec CanonProofs TransformModel GentoolsModel KdfModel PasscryptModel PasscryptSpec PasscryptProofs WordLists MnemonicModel MnemonicSpec MnemonicProofs KdfSpec KdfProofs.
Local Open Scope N_scope.

(** ** C54: mnemonics *)

(** The word list of the package. *)
Theorem C54_word_list : length WORD_LIST = 2048%nat /\ NoDup WORD_LIST /\ Forall lowercase_word WORD_LIST.
Proof. exact word_list_facts. Qed.
Print Assumptions C54_word_list.

(** Choices: exactly as many as asked for, the [i]-th being the element whose
    position is the [i]-th block of 16 derived bytes, taken modulo the number of
    elements. *)
Theorem C54_choices : forall shake_128 shake_256 KDF_DOMAIN salt PRNG, KdfSpec.xof shake_128 -> KdfSpec.xof shake_256 ->
  forall (A : Type) (choices : list A) n domain key out,
  keyed_choices shake_128 shake_256 KDF_DOMAIN salt PRNG choices n domain key = Ok out ->
  (1 <= n)%Z /\ Z.of_nat (length out) = n /\
  exists kdf stream,
    new_kdf shake_128 KDF_DOMAIN salt domain [be_enc 8 (blen choices); be_enc 8 (Z.to_N n)] key = Ok kdf /\
    run_kdf shake_128 shake_256 kdf [] (Some (16 * Z.to_N n)) PRNG = Ok stream /\ blen stream = 16 * Z.to_N n /\
    forall i, (i < length out)%nat ->
      nth_error out i = nth_error choices (N.to_nat (be_int (block16 i stream) mod blen choices)) /\
      exists a, nth_error out i = Some a /\ In a choices.
Proof.
  intros s1 s2 KD salt PRNG X1 X2 A choices n domain key out E. apply (choices_ok s1 s2 KD salt PRNG X2) in E as (R & NE & _ & kdf & stream & K & S & L & LO & H).
  split; [lia|]. split; [lia|]. exists kdf, stream. split; [exact K|]. split; [exact S|]. split; [exact L|]. rewrite LO. intros i I.
  destruct (H i I) as (a & O & C). split; [now rewrite O, C|]. exists a. split; [exact O|]. now apply nth_error_In in C.
Qed.
Print Assumptions C54_choices.

(** Nothing can be chosen from an empty collection, and no choice of no or of a
    negative number of elements is made. *)
Theorem C54_no_choices : forall shake_128 shake_256 KDF_DOMAIN salt PRNG, KdfSpec.xof shake_256 ->
  forall (A : Type) (choices : list A) n domain key,
  choices = [] \/ (n <= 0)%Z -> exists e, keyed_choices shake_128 shake_256 KDF_DOMAIN salt PRNG choices n domain key = Err e.
Proof.
  intros s1 s2 KD salt PRNG X2 A choices n domain key H. destruct (keyed_choices s1 s2 KD salt PRNG choices n domain key) as [out|e] eqn:E; [|eauto].
  apply (choices_ok s1 s2 KD salt PRNG X2) in E as (R & NE & _). destruct H; [contradiction|lia].
Qed.
Print Assumptions C54_no_choices.

(** A mnemonic has exactly [size] words, each from the list in use. *)
Theorem C54_words_of_the_list : forall shake_128 shake_256 KDF_DOMAIN salt_128 PRNG MNEMONIC defaults dom kdf_salt PEPPER AAD,
  KdfSpec.xof shake_128 -> KdfSpec.xof shake_256 -> forall random passphrase size salt words settings out,
  mnemonic shake_128 shake_256 KDF_DOMAIN salt_128 PRNG MNEMONIC defaults dom kdf_salt PEPPER AAD random passphrase size salt words settings = Ok out ->
  Z.of_nat (length out) = size /\ (1 <= size)%Z /\ Forall (fun w => In w (used_words words)) out.
Proof.
  intros s1 s2 KD salt_128 PRNG MN defaults dom ks PEPPER AAD X1 X2 random passphrase size salt words st out E.
  apply mnemonic_inv in E as (packed & key & _ & C & _).
  apply (choices_ok s1 s2 KD salt_128 PRNG X2) in C as (R & _ & _ & kdf & stream & _ & _ & _ & LO & H).
  split; [lia|]. split; [lia|]. apply Forall_forall. intros w I. apply In_nth_error in I as (i & I).
  assert (i < length out)%nat as L by (apply nth_error_Some; congruence).
  destruct (H i ltac:(lia)) as (a & O & C). apply nth_error_In in C. assert (Some a = Some w) as Z by (rewrite <- O; exact I). now injection Z as <-.
Qed.
Print Assumptions C54_words_of_the_list.

(** With a passphrase it does not depend on the source of randomness, and without
    one it depends on nothing but that source, the size and the list. *)
Theorem C54_deterministic : forall shake_128 shake_256 KDF_DOMAIN salt_128 PRNG MNEMONIC defaults dom kdf_salt PEPPER AAD random random' passphrase size salt words settings,
  passphrase <> [] ->
  let m r := mnemonic shake_128 shake_256 KDF_DOMAIN salt_128 PRNG MNEMONIC defaults dom kdf_salt PEPPER AAD r (Some passphrase) size salt words settings in
  m random = m random'.
Proof. intros. unfold m, mnemonic. destruct passphrase; [contradiction|reflexivity]. Qed.
Print Assumptions C54_deterministic.
Theorem C54_random : forall shake_128 shake_256 KDF_DOMAIN salt_128 PRNG MNEMONIC defaults dom kdf_salt PEPPER AAD random size salt words out,
  mnemonic shake_128 shake_256 KDF_DOMAIN salt_128 PRNG MNEMONIC defaults dom kdf_salt PEPPER AAD random None size salt words None = Ok out ->
  keyed_choices shake_128 shake_256 KDF_DOMAIN salt_128 PRNG (used_words words) size MNEMONIC random = Ok out.
Proof.
  intros s1 s2 KD salt_128 PRNG MN defaults dom ks PEPPER AAD random size salt words out E.
  apply mnemonic_inv in E as (packed & key & _ & C & [(_ & _ & ->)|(N & _)]); [exact C|now destruct N].
Qed.
Print Assumptions C54_random.

(** Settings without a passphrase are refused. *)
Theorem C54_settings_need_a_passphrase : forall shake_128 shake_256 KDF_DOMAIN salt_128 PRNG MNEMONIC defaults dom kdf_salt PEPPER AAD random passphrase size salt words settings,
  or_empty passphrase = [] -> blen (or_empty salt) < 2 ^ 60 -> blen MNEMONIC < 2 ^ 60 ->
  mnemonic shake_128 shake_256 KDF_DOMAIN salt_128 PRNG MNEMONIC defaults dom kdf_salt PEPPER AAD random passphrase size salt words (Some settings) = Err ValueErr.
Proof.
  intros s1 s2 KD salt_128 PRNG MN defaults dom ks PEPPER AAD random passphrase size salt words st P S M. unfold mnemonic.
  destruct (pack_total MN _ S M) as (packed & -> & _). cbn [bind]. destruct passphrase as [[|b bs]|]; [reflexivity|discriminate P|reflexivity].
Qed.
Print Assumptions C54_settings_need_a_passphrase.

(** Every reasonable request succeeds: without a passphrase ... *)
Theorem C54_random_succeeds : forall shake_128 shake_256 KDF_DOMAIN salt_128 PRNG MNEMONIC defaults dom kdf_salt PEPPER AAD,
  KdfSpec.xof shake_128 -> KdfSpec.xof shake_256 -> 0 < h_block_size shake_128 < 2 ^ 56 -> 0 < h_block_size shake_256 < 2 ^ 56 ->
  blen MNEMONIC < 2 ^ 60 -> blen KDF_DOMAIN < 2 ^ 60 -> blen PRNG < 2 ^ 60 ->
  forall random passphrase size salt words,
  or_empty passphrase = [] -> random <> [] -> blen random < 2 ^ 60 -> (1 <= size < 2 ^ 59)%Z -> blen (or_empty salt) < 2 ^ 60 -> blen (used_words words) < 2 ^ 64 ->
  exists out, mnemonic shake_128 shake_256 KDF_DOMAIN salt_128 PRNG MNEMONIC defaults dom kdf_salt PEPPER AAD random passphrase size salt words None = Ok out.
Proof. intros. now apply mnemonic_random. Qed.
Print Assumptions C54_random_succeeds.

(** ... and with one that is long enough, if the settings are within their limits
    and the salt, with 50 bytes of encoding and the constant, is too.  The last
    condition is not in the documentation ... *)
Theorem C54_passphrase_succeeds : forall shake_128 shake_256 KDF_DOMAIN salt_128 PRNG MNEMONIC defaults dom kdf_salt PEPPER AAD,
  KdfSpec.xof shake_128 -> KdfSpec.xof shake_256 -> 0 < h_block_size shake_128 < 2 ^ 56 -> 0 < h_block_size shake_256 < 2 ^ 56 ->
  blen MNEMONIC < 2 ^ 60 -> blen KDF_DOMAIN < 2 ^ 60 -> blen PRNG < 2 ^ 60 -> blen dom < 2 ^ 60 -> blen PEPPER < 2 ^ 60 -> blen AAD < 2 ^ 61 ->
  forall random passphrase size salt words settings,
  let s := used_settings defaults settings in let cf := set_config s in
  sound_config cf -> length (PASSCRYPT_PAD cf) = 1%nat -> blen (PACKED_METADATA cf) < 2 ^ 60 ->
  passphrase <> [] -> (MIN_PASSPHRASE_BYTES cf <= zlen passphrase)%Z -> blen passphrase < 2 ^ 60 ->
  in_limits cf (set_mb s) (set_cpu s) (set_cores s) 64 (set_salt_size s) -> (MIN_MB cf <= core_mb (set_mb s) (set_cores s))%Z ->
  blen (or_empty salt) < 2 ^ 60 -> (MIN_SALT_SIZE cf <= 50 + zlen (or_empty salt) + zlen MNEMONIC <= MAX_SALT_SIZE cf)%Z ->
  (1 <= size < 2 ^ 59)%Z -> blen (used_words words) < 2 ^ 64 ->
  exists out, mnemonic shake_128 shake_256 KDF_DOMAIN salt_128 PRNG MNEMONIC defaults dom kdf_salt PEPPER AAD random (Some passphrase) size salt words settings = Ok out.
Proof. intros. now apply mnemonic_passphrase. Qed.
Print Assumptions C54_passphrase_succeeds.

(** ... but necessary: a passphrase that is too short, settings beyond their limits
    and a salt that is too long are all refused. *)
Theorem C54_passphrase_limits : forall shake_128 shake_256 KDF_DOMAIN salt_128 PRNG MNEMONIC defaults dom kdf_salt PEPPER AAD,
  KdfSpec.xof shake_128 -> KdfSpec.xof shake_256 -> forall random passphrase size salt words settings out,
  let s := used_settings defaults settings in let cf := set_config s in
  passphrase <> [] -> blen (or_empty salt) < 2 ^ 60 -> blen MNEMONIC < 2 ^ 60 ->
  mnemonic shake_128 shake_256 KDF_DOMAIN salt_128 PRNG MNEMONIC defaults dom kdf_salt PEPPER AAD random (Some passphrase) size salt words settings = Ok out ->
  (MIN_PASSPHRASE_BYTES cf <= zlen passphrase)%Z /\ in_limits cf (set_mb s) (set_cpu s) (set_cores s) 64 (set_salt_size s) /\
  (50 + zlen (or_empty salt) + zlen MNEMONIC <= MAX_SALT_SIZE cf)%Z.
Proof.
  intros s1 s2 KD salt_128 PRNG MN defaults dom ks PEPPER AAD X1 X2 random passphrase size salt words st out s cf NE SL ML E.
  apply mnemonic_inv in E as (packed & key & P & C & [(Z & _)|(_ & K)]); [now destruct NE|].
  destruct (pack_total MN _ SL ML) as (packed' & P' & L). rewrite P in P'. apply Ok_inj in P' as <-.
  apply (pk_limits s1 dom ks PEPPER AAD X1) in K as (K1 & K2 & K3 & _). fold s in K1, K2, K3. fold cf in K1, K2, K3. cbn [or_empty] in K1.
  split; [exact K1|]. split; [exact K2|]. unfold zlen in *. lia.
Qed.
Print Assumptions C54_passphrase_limits.

(** Two mnemonics whose derived bytes come from the same hash input have the same
    number of words and, but for collisions of the hash function between inputs
    the computations have made, the same key and lists of the same length.  This is
    for domains of one length, such as the mnemonics', or any domains and keys that
    fill up the same number of blocks. *)
Theorem C54_separation : forall shake_128 shake_256 KDF_DOMAIN salt PRNG, KdfSpec.xof shake_128 -> KdfSpec.xof shake_256 ->
  h_block_size shake_128 < 2 ^ 56 -> h_block_size shake_256 < 2 ^ 56 ->
  forall (A : Type) (c1 c2 : list A) n1 n2 d1 d2 k1 k2 o1 o2 p1 p2 y,
  same_blocks shake_128 k1 d1 k2 d2 \/ blen d1 = blen d2 ->
  keyed_choices shake_128 shake_256 KDF_DOMAIN salt PRNG c1 n1 d1 k1 = Ok o1 -> keyed_choices shake_128 shake_256 KDF_DOMAIN salt PRNG c2 n2 d2 k2 = Ok o2 ->
  let data (c : list A) n := [be_enc 8 (blen c); be_enc 8 (Z.to_N n)] in
  new_kdf shake_128 KDF_DOMAIN salt d1 (data c1 n1) k1 = Ok p1 -> new_kdf shake_128 KDF_DOMAIN salt d2 (data c2 n2) k2 = Ok p2 ->
  run_absorbed shake_128 shake_256 p1 [] (Some (16 * Z.to_N n1)) PRNG = Ok y ->
  run_absorbed shake_128 shake_256 p2 [] (Some (16 * Z.to_N n2)) PRNG = Ok y ->
  n1 = n2 /\
  ((d1 = d2 /\ k1 = k2 /\ length c1 = length c2) \/ KdfSpec.collision shake_128 (h_block_size shake_256) p1 p2 \/
   exists y1 y2, first_input shake_128 KDF_DOMAIN d1 (data c1 n1) k1 y1 /\ first_input shake_128 KDF_DOMAIN d2 (data c2 n2) k2 y2 /\
     KdfSpec.collision shake_128 (h_block_size shake_128) y1 y2).
Proof.
  intros s1 s2 KD salt PRNG X1 X2 B1 B2 A c1 c2 n1 n2 d1 d2 k1 k2 o1 o2 p1 p2 y SB E1 E2 data N1 N2 R1 R2.
  exact (choices_separated s1 s2 KD salt PRNG X1 X2 c1 c2 n1 n2 d1 d2 k1 k2 o1 o2 p1 p2 y B1 B2 SB E1 E2 N1 N2 R1 R2).
Qed.
Print Assumptions C54_separation.

(** Different salts are different for passcrypt. *)
Theorem C54_salts : forall MNEMONIC salt salt' x,
  canonical_pack [or_empty salt; MNEMONIC] 1 [x00] INT_BYTES = Ok x -> canonical_pack [or_empty salt'; MNEMONIC] 1 [x00] INT_BYTES = Ok x ->
  or_empty salt = or_empty salt'.
Proof. intros MN salt salt' x E E'. destruct (canonical_pack_inj _ _ _ _ _ _ _ _ _ E E') as (H & _). now injection H. Qed.
Print Assumptions C54_salts.

Definition phrase_shake (rate : N) : hasher := {| h_block_size := rate; h_digest_size := 0; h_is_xof := true;
  h_digest := fun m n => map (fun i => byte_of (fold_left (fun a b => 31 * a + bval b + 1) m (N.of_nat i) mod 65521)) (seq 0 (N.to_nat n)) |}.
Lemma phrase_shake_xof rate : KdfSpec.xof (phrase_shake rate).
Proof. split; [reflexivity|]. split; [reflexivity|]. intros x n. unfold blen. cbn. rewrite map_length, seq_length. lia. Qed.
Definition phrase_settings : settings := {| set_mb := 64; set_cpu := 8; set_cores := 8; set_salt_size := 8; set_config := passcrypt_spec [x01] |}.
Definition phrase_mnemonic := mnemonic (phrase_shake 168) (phrase_shake 136) (repeat x01 8) (repeat x02 168) (repeat x03 8) (repeat x04 8) phrase_settings (repeat x05 8) (repeat x06 168) [] [].
Ltac fine := vm_compute; repeat split; first [reflexivity|discriminate].
Example C54_case :
  (exists out, phrase_mnemonic (repeat x09 64) None 8 None None None = Ok out /\ length out = 8%nat) /\
  (forall random words, blen words < 2 ^ 64 -> exists out, phrase_mnemonic random (Some (repeat x61 12)) 24 (Some [x01; x02]) (Some words) None = Ok out /\ length out = 24%nat) /\
  phrase_mnemonic (repeat x09 64) (Some []) 8 None None (Some phrase_settings) = Err ValueErr /\
  (forall random, exists e, phrase_mnemonic random (Some (repeat x61 12)) 8 (Some (repeat x01 199)) None None = Err e).
Proof.
  pose proof (phrase_shake_xof 168) as X1. pose proof (phrase_shake_xof 136) as X2.
  split; [|split; [|split; [reflexivity|]]].
  - destruct (C54_random_succeeds (phrase_shake 168) (phrase_shake 136) (repeat x01 8) (repeat x02 168) (repeat x03 8) (repeat x04 8) phrase_settings (repeat x05 8) (repeat x06 168) [] [] X1 X2
      ltac:(fine) ltac:(fine) ltac:(fine) ltac:(fine) ltac:(fine) (repeat x09 64) None 8%Z None None) as (out & E); [reflexivity|discriminate|fine|lia|fine|fine|].
    exists out. split; [exact E|]. apply C54_words_of_the_list in E as (L & _); [lia|exact X1|exact X2].
  - intros random words W.
    destruct (C54_passphrase_succeeds (phrase_shake 168) (phrase_shake 136) (repeat x01 8) (repeat x02 168) (repeat x03 8) (repeat x04 8) phrase_settings (repeat x05 8) (repeat x06 168) [] [] X1 X2
      ltac:(fine) ltac:(fine) ltac:(fine) ltac:(fine) ltac:(fine) ltac:(fine) ltac:(fine) ltac:(fine) random (repeat x61 12) 24%Z (Some [x01; x02]) (Some words) None) as (out & E).
    + constructor; cbn; lia.
    + reflexivity.
    + fine.
    + discriminate.
    + fine.
    + fine.
    + unfold in_limits. fine.
    + vm_compute. discriminate.
    + fine.
    + fine.
    + lia.
    + destruct words; [vm_compute; reflexivity|exact W].
    + exists out. split; [exact E|]. apply C54_words_of_the_list in E as (L & _); [lia|exact X1|exact X2].
  - intros random. destruct (phrase_mnemonic random (Some (repeat x61 12)) 8 (Some (repeat x01 199)) None None) as [out|e] eqn:E; [|eauto].
    apply C54_passphrase_limits in E as (_ & _ & L); [|exact X1|exact X2|discriminate|fine|fine].
    vm_compute in L. now destruct L.
Qed.

(** ** C66: choices are almost uniform *)

(** Of the 2^128 blocks a choice can be made from, the number of those that choose
    position [i] is the same for all positions, up to one; it is exactly 2^128
    divided by the number of elements when that is a power of two. *)
Theorem C66_bias : forall (A : Type) (choices : list A) i, (i < length choices)%nat ->
  exists blocks, NoDup blocks /\
    (forall b, In b blocks <-> length b = 16%nat /\ N.to_nat (be_int b mod blen choices) = i) /\
    (forall b, In b blocks -> exists a, nth_error choices i = Some a /\ choose choices b = Ok a) /\
    (blen blocks = 2 ^ 128 / blen choices \/ blen blocks = 2 ^ 128 / blen choices + 1) /\
    (forall k, k <= 128 -> blen choices = 2 ^ k -> blen blocks = 2 ^ (128 - k)).
Proof.
  intros A choices i I. assert (N.of_nat i < blen choices) as I' by (unfold blen; lia).
  destruct (residue_strings 16 (blen choices) (N.of_nat i) ltac:(lia) I') as (l & ND & H & L).
  assert (forall b, In b l <-> length b = 16%nat /\ N.to_nat (be_int b mod blen choices) = i) as H'.
  { intros b. rewrite H. split; intros (? & ?); split; auto; lia. }
  exists l. split; [exact ND|]. split; [exact H'|]. change (256 ^ N.of_nat 16) with (2 ^ 128) in L. split; [|split].
  - intros b Ib. apply H' in Ib as (_ & Ib). destruct (nth_error choices i) as [a|] eqn:E; [|apply nth_error_None in E; lia].
    exists a. split; [reflexivity|]. apply choose_ok. rewrite Ib. split; [|exact E]. intros ->. cbn in I. lia.
  - unfold hits in L. destruct (N.of_nat i <? _); [right|left]; lia.
  - intros k K E. rewrite L. unfold hits. rewrite E.
    assert (2 ^ 128 = 2 ^ (128 - k) * 2 ^ k) as P by (rewrite <- N.pow_add_r; f_equal; lia).
    assert (2 ^ k <> 0) as Z by (apply N.pow_nonzero; lia).
    rewrite P, N.div_mul, N.mod_mul by exact Z. replace (N.of_nat i <? 0) with false by lia. lia.
Qed.
Print Assumptions C66_bias.

(** So each of the 2048 words of the package is chosen by exactly 2^117 blocks:
    a mnemonic of uniformly random blocks has 11 bits per word. *)
Theorem C66_words_are_equally_likely : forall w, In w WORD_LIST ->
  exists blocks, NoDup blocks /\ blen blocks = 2 ^ 117 /\
    forall b, In b blocks <-> length b = 16%nat /\ choose WORD_LIST b = Ok w.
Proof.
  intros w I. destruct C54_word_list as (L & ND & _). apply (@In_nth_error bytes) in I as (i & Hi).
  assert (i < length WORD_LIST)%nat as Li by (apply nth_error_Some; rewrite Hi; discriminate).
  destruct (C66_bias _ WORD_LIST i Li) as (l & N & H & C & _ & P). exists l. split; [exact N|]. split.
  - apply (P 11); [lia|]. unfold blen. rewrite L. reflexivity.
  - intros b. rewrite H. split.
    + intros (Lb & E). split; [exact Lb|]. apply choose_ok. split; [intros Z; rewrite Z in Li; cbn in Li; lia|]. rewrite E. exact Hi.
    + intros (Lb & E). split; [exact Lb|]. apply choose_ok in E as (_ & E). apply (proj1 (NoDup_nth_error WORD_LIST) ND); [|now rewrite E, Hi].
      apply nth_error_Some. rewrite E. discriminate.
Qed.
Print Assumptions C66_words_are_equally_likely.

(** A list of three elements is chosen from with the smallest possible bias. *)
Example C66_case : exists blocks, NoDup blocks /\ blen blocks = 2 ^ 128 / 3 + 1 /\
  forall b, In b blocks <-> length b = 16%nat /\ be_int b mod 3 = 0.
Proof. destruct (residue_strings 16 3 0) as (l & N & H & L); [lia|lia|]. exists l. split; [exact N|]. split; [rewrite L; reflexivity|exact H]. Qed.

(** ** C67: phrases *)

(** Bytes become one word per byte, separated by spaces, and become bytes again,
    with whatever blanks around them. *)
Theorem C67_round_trip_partial : forall value phrase, value <> [] -> surrounded phrase (bytes_to_phrase value) -> phrase_to_bytes phrase = Ok value.
Proof. exact phrase_decodes. Qed.
Print Assumptions C67_round_trip_partial.

(** Every phrase that can be read is the phrase of what is read, but for blanks
    around it; all others are refused with a [KeyError]. *)
Theorem C67_unambiguous : forall phrase, (exists value, value <> [] /\ phrase_to_bytes phrase = Ok value /\ surrounded phrase (bytes_to_phrase value)) \/
  (phrase_to_bytes phrase = Err KeyErr /\ forall value, value <> [] -> ~ surrounded phrase (bytes_to_phrase value)).
Proof.
  intros p. destruct (phrase_to_bytes p) as [v|e] eqn:E.
  - left. exists v. apply phrase_inv in E as (N & S). auto.
  - right. pose proof (phrase_err _ _ E) as ->. split; [reflexivity|]. intros v N S. rewrite (phrase_decodes v p N S) in E. discriminate.
Qed.
Print Assumptions C67_unambiguous.

Theorem C67_shape : forall value, value <> [] -> exists words, sentence words (bytes_to_phrase value) /\ length words = length value /\
  Forall (fun w => In w WORD_LIST_256 /\ lowercase_word w) words.
Proof.
  intros v N. exists (map word_of v). split; [apply join_sentence; now destruct v|]. split; [apply map_length|].
  apply Forall_forall. intros w I. apply in_map_iff in I as (b & <- & _). split; [eapply nth_error_In, word_of_in|apply word_of_lowercase].
Qed.
Print Assumptions C67_shape.
Theorem C67_injective : forall v v', bytes_to_phrase v = bytes_to_phrase v' -> v = v'.
Proof.
  assert (forall v, v <> [] -> bytes_to_phrase v <> []) as NE.
  { intros v N. assert (sentence (map word_of v) (bytes_to_phrase v)) as S by (apply join_sentence; now destruct v). exact (sentence_nonempty _ _ (words_lowercase v) S). }
  assert (forall v, surrounded (bytes_to_phrase v) (bytes_to_phrase v)) as R by (intros v; exists [], []; rewrite app_nil_r; auto).
  intros [|b v] [|b' v'] E; try reflexivity.
  - exfalso. now apply (NE (b' :: v')).
  - exfalso. now apply (NE (b :: v)).
  - assert (Ok (b :: v) = Ok (b' :: v')) as H; [|now apply Ok_inj in H].
    rewrite <- (C67_round_trip_partial (b :: v) (bytes_to_phrase (b :: v)) ltac:(discriminate) (R _)). rewrite E. now apply C67_round_trip_partial.
Qed.
Print Assumptions C67_injective.

(** The empty value is the exception: its phrase cannot be read back. *)
Theorem C67_empty_value_refuted : bytes_to_phrase [] = [] /\ phrase_to_bytes (bytes_to_phrase []) = Err KeyErr.
Proof. split; vm_compute; reflexivity. Qed.
Print Assumptions C67_empty_value_refuted.

Example C67_case : phrase_to_bytes ([x20; x09] ++ bytes_to_phrase [x00; xff; x61] ++ [x0a]) = Ok [x00; xff; x61] /\
  phrase_to_bytes [x61; x20; x20; x61] = Err KeyErr.
Proof. split; vm_compute; reflexivity. Qed.
