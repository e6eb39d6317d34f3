(** * What databases store: proofs *)
From Coq Require Import Lia ZArith ZifyBool ZifyN ZifyNat Strings.String.
From Verif Require Import Base BaseFacts CanonModel CanonProofs TransformModel TransformSpec TransformProofs NameModel NameProofs KdfModel KdfSpec KdfProofs
  CipherModel CipherSpec ShippedProofs CipherProps DomainsModel DomainsProofs StrModel StrFacts JsonModel JsonSpec LoadsModel LoadsSpec LoadsProofs LoadsProps
  DbModel DbSpec DbProofs StoreModel StoreSpec.
From Verif Require PasscryptProofs.
Import ListNotations.
Local Open Scope list_scope.
Local Open Scope N_scope.

(** ** UTF-8 *)
Lemma text_char c r : c < 1114112 -> utf8_text (utf8_char c ++ r) = c :: utf8_text r.
Proof.
  intros B. unfold utf8_char.
  destruct (N.ltb_spec c 128) as [A|A].
  { cbn [app utf8_text]. rewrite bval_byte_of, N.mod_small by lia. now rewrite (proj2 (N.ltb_lt c 128) A). }
  assert (M : forall x, x mod 64 < 64) by (intros; apply N.mod_lt; lia).
  assert (D : forall x, x = 64 * (x / 64) + x mod 64) by (intros; apply N.div_mod'; lia).
  assert (D2 : c / 4096 = c / 64 / 64) by (rewrite N.div_div; [reflexivity|lia|lia]).
  assert (D3 : c / 262144 = c / 64 / 64 / 64) by (rewrite !N.div_div; [reflexivity|lia..]).
  rewrite D2, D3.
  pose proof (D c). pose proof (D (c / 64)). pose proof (D (c / 64 / 64)). pose proof (M c). pose proof (M (c / 64)). pose proof (M (c / 64 / 64)).
  destruct (N.ltb_spec c 2048) as [A2|A2]; [|destruct (N.ltb_spec c 65536) as [A3|A3]].
  - cbn [app utf8_text]. rewrite !bval_byte_of, !N.mod_small by lia.
    replace (192 + c / 64 <? 128) with false by lia. replace (192 + c / 64 <? 224) with true by lia. f_equal. lia.
  - cbn [app utf8_text]. rewrite !bval_byte_of. rewrite !(N.mod_small _ 256) by lia.
    replace (224 + c / 64 / 64 <? 128) with false by lia. replace (224 + c / 64 / 64 <? 224) with false by lia.
    replace (224 + c / 64 / 64 <? 240) with true by lia. f_equal. lia.
  - cbn [app utf8_text]. rewrite !bval_byte_of. rewrite !(N.mod_small _ 256) by lia.
    replace (240 + c / 64 / 64 / 64 <? 128) with false by lia. replace (240 + c / 64 / 64 / 64 <? 224) with false by lia.
    replace (240 + c / 64 / 64 / 64 <? 240) with false by lia. f_equal. lia.
Qed.
Lemma text_utf8 s : Forall unicode s -> utf8_text (utf8 s) = s.
Proof. induction 1 as [|c s [B _] F IH]; [reflexivity|]. unfold utf8. cbn [flat_map]. rewrite text_char by exact B. now f_equal. Qed.
Lemma utf8_of_tag t : encoded_tag t -> utf8 (utf8_text t) = t /\ Forall unicode (utf8_text t).
Proof. intros [(s & F & ->) _]. now rewrite text_utf8. Qed.
Lemma unicode_clean s : Forall unicode s -> clean_str s.
Proof.
  intros F. split; [eapply Forall_impl; [|exact F]; now intros c []|].
  induction F as [|c s [_ B] F IH]; [exact I|]. destruct s as [|d s]; [exact I|]. split; [unfold high, low; lia|exact IH].
Qed.
Lemma utf8_ascii b : Forall (fun x => bval x < 128) b -> utf8 (chars b) = b.
Proof.
  induction 1 as [|x b B F IH]; [reflexivity|]. unfold utf8, chars in *. cbn [map flat_map]. rewrite IH. change (Byte.to_N x) with (bval x).
  unfold utf8_char. replace (bval x <? 128) with true by lia. now rewrite byte_of_bval.
Qed.
Lemma chars_clean b : clean_str (chars b).
Proof.
  assert (Forall (fun c => c < 256) (chars b)) as F.
  { unfold chars. apply Forall_map, Forall_forall. intros x _. apply bval_lt. }
  split; [eapply Forall_impl; [|exact F]; cbn; lia|]. induction F as [|c s B F IH]; [exact I|]. destruct s as [|d s]; [exact I|]. split; [unfold high, low; lia|exact IH].
Qed.
Lemma encode_chars b : ascii_encode (chars b) = b.
Proof. unfold ascii_encode, chars. rewrite map_map. erewrite map_ext; [apply map_id|]. intros x. apply byte_of_bval. Qed.
Lemma chars_inj a b : chars a = chars b -> a = b.
Proof. intros E. rewrite <- (encode_chars a), <- (encode_chars b). now rewrite E. Qed.

(** ** Manifests *)
Lemma map_result_map {A B D} (f : A -> result B) (g : D -> A) (h : D -> B) l : (forall d, In d l -> f (g d) = Ok (h d)) ->
  map_result f (map g l) = Ok (map h l).
Proof.
  induction l as [|d l IH]; intros F; [reflexivity|]. cbn [map map_result]. rewrite (F d) by now left. cbn [bind].
  rewrite IH by (intros; apply F; now right). reflexivity.
Qed.
Lemma filter_all {A} (f : A -> bool) l : (forall a, In a l -> f a = true) -> filter f l = l.
Proof. induction l as [|a l IH]; intros F; [reflexivity|]. cbn. rewrite (F a) by now left. f_equal. apply IH. intros; apply F; now right. Qed.
Lemma urlsafe_128 v : Forall (fun x => bval x < 128) (bytes_to_urlsafe v).
Proof.
  eapply Forall_impl; [|apply urlsafe_alphabet]. intros x. assert (forall x, implb (b64_alphabet_b x) (bval x <? 128) = true) as F by (intros []; reflexivity).
  intros E. specialize (F x). cbv beta in E. rewrite E in F. cbn in F. lia.
Qed.
Lemma chars_other n k : ascii_encode (chars n) <> ascii_encode k -> str_eqb (chars n) k = false.
Proof. intros N. destruct (str_eqb (chars n) k) eqn:E; [|reflexivity]. apply str_eqb_eq in E. rewrite E in N. contradiction. Qed.
Definition proper_manifest (m : manifest) : Prop :=
  Forall encoded_tag (m_metatags m) /\
  (forall n t, In (n, t) (m_tags m) -> encoded_tag t /\ n <> [x30] /\ n <> [x31]) /\ NoDup (map fst (m_tags m)).
Lemma proper_other m n t : proper_manifest m -> In (n, t) (m_tags m) ->
  str_eqb (chars n) ROOT_SALT_LEDGERNAME = false /\ str_eqb (chars n) METATAGS_LEDGERNAME = false.
Proof.
  intros (_ & F & _) I. destruct (F n t I) as (_ & N0 & N1).
  split; apply chars_other; rewrite encode_chars; assumption.
Qed.
Lemma manifest_normal m : proper_manifest m -> normal (manifest_json m).
Proof.
  intros P. pose proof P as (T & F & ND). apply normal_obj. split.
  - cbn [map fst]. rewrite map_map.
    assert (map (fun x : bytes * bytes => fst (let '(n, t) := x in (chars n, JStr (utf8_text t)))) (m_tags m) = map chars (map fst (m_tags m))) as ->.
    { rewrite map_map. apply map_ext. now intros []. }
    assert (forall k, k = ROOT_SALT_LEDGERNAME \/ k = METATAGS_LEDGERNAME -> ~ In k (map chars (map fst (m_tags m)))) as NI.
    { intros k K I. rewrite map_map in I. apply in_map_iff in I as ((n & t) & E & I). destruct (proper_other m n t P I) as [A B].
      cbn [fst] in E. rewrite E in A, B. destruct K as [->| ->]; discriminate. }
    constructor; [intros [E|I]; [discriminate|now apply NI in I; auto]|]. constructor; [intros I; now apply NI in I; auto|].
    clear - ND. induction ND as [|n l N ND IH]; [constructor|]. cbn [map]. constructor; [|exact IH].
    intros I. apply in_map_iff in I as (n' & E & I). apply chars_inj in E as ->. contradiction.
  - constructor; [split; [split; repeat constructor|apply chars_clean]|].
    constructor; [split; [split; repeat constructor|]|].
    + cbn [snd]. apply normal_arr. apply Forall_map. eapply Forall_impl; [|exact T]. intros t E. cbn. apply unicode_clean. now apply utf8_of_tag.
    + apply Forall_map, Forall_forall. intros (n & t) I. cbn. split; [apply chars_clean|]. apply unicode_clean. destruct (F n t I) as [E _]. now apply utf8_of_tag.
Qed.
Lemma manifest_back m : proper_manifest m -> manifest_of_text (manifest_text m) = Ok m.
Proof.
  intros P. unfold manifest_of_text, manifest_text. rewrite loads_bytes_dumps by now apply manifest_normal. cbn [bind].
  pose proof P as (T & F & ND). unfold manifest_json, manifest_of_json.
  change (dict_get str_eqb ?l ROOT_SALT_LEDGERNAME) with (match l with [] => None | (k, v) :: r => if str_eqb k ROOT_SALT_LEDGERNAME then Some v else dict_get str_eqb r ROOT_SALT_LEDGERNAME end).
  cbv iota beta. change (str_eqb ROOT_SALT_LEDGERNAME ROOT_SALT_LEDGERNAME) with true. cbv iota.
  cbn [json_text bind]. rewrite utf8_ascii by apply urlsafe_128. rewrite urlsafe_roundtrip. cbn [bind].
  cbn [dict_get]. change (str_eqb ROOT_SALT_LEDGERNAME METATAGS_LEDGERNAME) with false. change (str_eqb METATAGS_LEDGERNAME METATAGS_LEDGERNAME) with true.
  cbv iota.
  rewrite (map_result_map json_text (fun t => JStr (utf8_text t)) (fun t => t)).
  2:{ intros t I. cbn. f_equal. apply utf8_of_tag. now apply (proj1 (Forall_forall _ _) T). }
  cbn [bind]. rewrite map_id.
  cbn [filter]. change (is_tag (ROOT_SALT_LEDGERNAME, ?v)) with false. change (is_tag (METATAGS_LEDGERNAME, ?v)) with false. cbv iota.
  rewrite filter_all.
  2:{ intros kv I. apply in_map_iff in I as ((n & t) & <- & I). unfold is_tag. cbn [fst]. now destruct (proper_other m n t P I) as [-> ->]. }
  rewrite (map_result_map _ _ (fun x => x)).
  2:{ intros (n & t) I. cbn [json_text bind]. rewrite encode_chars. do 2 f_equal. apply utf8_of_tag. now apply (F n t). }
  cbn [bind]. rewrite map_id. destruct m. reflexivity.
Qed.

(** ** Names and keys *)
Section Keys.
Variables H sha3_512 : hasher.
Variable C : constants.
Variables c ct : cfg.
Hypothesis IM : imported H C c ct.

Lemma an_xof_H : xof H.
Proof. destruct IM as [X Z _ _ _]. split; [apply X|]. split; [exact Z|apply X]. Qed.
Lemma rate_H : h_block_size H = 168.
Proof. destruct IM as [X _ _ _ _]. apply X. Qed.
Lemma small_rate : h_block_size H < 2 ^ 56.
Proof. rewrite rate_H. reflexivity. Qed.
Lemma constant_len s n d v : n <> 0 -> encode H (plain s n d) = Ok v -> blen v = n.
Proof. intros N0 E. destruct IM as [X _ _ _ _]. destruct (encode_ok H 168 (plain s n d) v X N0 E) as (_ & _ & _ & L). exact L. Qed.
Lemma constants_len : blen (KDF_DOMAIN C) = 8 /\ blen (DBKDF_SALT C) = 168 /\ blen (ROOT_KDF C) = 16 /\ blen (ROOT_FILENAME C) = 16 /\
  blen (MANIFEST C) = 16 /\ blen (FILENAME C) = 16 /\ blen (METATAG_KEY C) = 16 /\ blen (CIPHER C) = 16.
Proof.
  pose proof (im_constants _ _ _ _ IM) as E. unfold constants_of in E.
  apply bind_ok in E as (v1 & E1 & E). apply bind_ok in E as (v2 & E2 & E). apply bind_ok in E as (v3 & E3 & E). apply bind_ok in E as (v4 & E4 & E).
  apply bind_ok in E as (v5 & E5 & E). apply bind_ok in E as (v6 & E6 & E). apply bind_ok in E as (v7 & E7 & E). apply bind_ok in E as (v8 & E8 & E).
  apply Ok_inj in E. rewrite <- E. cbn [KDF_DOMAIN DBKDF_SALT ROOT_KDF ROOT_FILENAME MANIFEST FILENAME METATAG_KEY CIPHER].
  apply constant_len in E1, E2, E3, E4, E5, E6, E7, E8; try discriminate. tauto.
Qed.

(** Derivations with an explicit size. *)
Lemma run_total (p : payload) (data : list bytes) n (aad : bytes) : 0 < n < 2 ^ 64 -> blen aad < 2 ^ 64 -> Forall (fun i => blen i < 2 ^ 64) data -> blen data < 2 ^ 59 ->
  exists y, run_absorbed H H p data (Some n) aad = Ok y /\ run_kdf H H p data (Some n) aad = Ok (h_digest H y n).
Proof.
  intros N0 A F L. destruct an_xof_H as (X1 & X2 & X3). unfold run_kdf, run_absorbed, run_size. rewrite X2. change (0 =? 0) with true. cbv iota.
  destruct (PasscryptProofs.hash_bytes_total H (aad :: data) x00 n (run_key H H p)) as (d & E & _).
  - repeat split; assumption.
  - rewrite rate_H. split; reflexivity.
  - exact N0.
  - unfold run_key. intros E. pose proof (X3 p (h_block_size H)) as Q. rewrite E, rate_H in Q. vm_compute in Q. discriminate Q.
  - unfold run_key. rewrite X3, rate_H. reflexivity.
  - constructor; assumption.
  - rewrite blen_cons. change (@blen (list byte) data) with (@blen bytes data). lia.
  - unfold zero_pad in *. unfold hash_bytes in *. apply bind_ok in E as (y & E & _).
    exists y. split; [exact E|]. match goal with |- bind ?u _ = _ => replace u with (Ok y : result bytes) by (symmetry; exact E) end. cbn [bind]. unfold truthy_size, call_digest. replace (n =? 0) with false by lia. now rewrite X1.
Qed.
Lemma run_read (p : payload) (data : list bytes) n (aad out : bytes) : 0 < n -> run_kdf H H p data (Some n) aad = Ok out ->
  exists y, run_absorbed H H p data (Some n) aad = Ok y /\ out = h_digest H y n.
Proof.
  intros N0 E. destruct an_xof_H as (X1 & X2 & X3). unfold run_kdf, run_absorbed, run_size, hash_bytes in *. rewrite X2 in *. change (0 =? 0) with true in *. cbv iota in *.
  apply bind_ok in E as (y & -> & E). exists y. split; [reflexivity|]. unfold truthy_size, call_digest in E. replace (n =? 0) with false in E by lia.
  rewrite X1 in E. now apply Ok_inj in E.
Qed.

Lemma root_total key : 64 <= blen key < 2 ^ 63 -> exists p, root_kdf H C key = Ok p.
Proof.
  intros L. destruct constants_len as (L1 & L2 & L3 & _). unfold root_kdf, new_dbkdf, KdfModel.MIN_KEY_BYTES.
  destruct (N.ltb_spec (blen key) 64); [lia|]. unfold new_kdf.
  destruct (PasscryptProofs.hash_bytes_total H [KDF_DOMAIN C; ROOT_KDF C] x00 (h_block_size H) (key ++ ROOT_KDF C)) as (d & E & _).
  - destruct an_xof_H as (X1 & _ & X3). repeat split; assumption.
  - rewrite rate_H. split; reflexivity.
  - rewrite rate_H. split; reflexivity.
  - intros E. apply (f_equal blen) in E. rewrite blen_app, (@blen_nil byte) in E. lia.
  - rewrite blen_app. lia.
  - repeat constructor; lia.
  - vm_compute. reflexivity.
  - unfold zero_pad. rewrite E. cbn [bind]. eauto.
Qed.
Lemma root_made key p : root_kdf H C key = Ok p -> made H (KDF_DOMAIN C) (DBKDF_SALT C) (ROOT_KDF C) [] key [] p.
Proof. unfold root_kdf, new_dbkdf. destruct (blen key <? KdfModel.MIN_KEY_BYTES); [discriminate|]. intros E. now constructor. Qed.

Lemma filename_total v : blen v = 24 -> exists f, bytes_to_filename v = Ok f /\ f <> [] /\ blen f <= 37.
Proof.
  intros L. destruct (filename_shape v) as (f & E & NE & _). exists f. split; [exact E|]. split; [exact NE|].
  now apply (filename_len24 v f).
Qed.
Lemma root_name p : exists y, root_input H C p y /\ root_filename H C p = bytes_to_filename (h_digest H y 24).
Proof.
  destruct constants_len as (_ & _ & _ & L & _).
  destruct (run_total p [] 24 (ROOT_FILENAME C)) as (y & A & B); [lia|lia|constructor|reflexivity|].
  exists y. split; [exact A|]. unfold root_filename, FILENAME_HASH_BYTES. now rewrite B.
Qed.
Lemma tag_name (p s t : bytes) : blen s = 24 -> blen t < 2 ^ 64 ->
  exists y, name_input H C p s t y /\ tag_filename H C p s t = bytes_to_filename (h_digest H y 24).
Proof.
  intros L1 L2. destruct constants_len as (_ & _ & _ & _ & _ & L & _).
  destruct (run_total p [s; t] 24 (FILENAME C)) as (y & A & B); [lia|lia|repeat constructor; [rewrite L1; reflexivity|lia]|reflexivity|].
  exists y. split; [exact A|]. unfold tag_filename, FILENAME_HASH_BYTES. now rewrite B.
Qed.
Lemma file_key_total (p s n a : bytes) : blen s = 24 -> blen n < 2 ^ 64 -> blen a < 2 ^ 64 ->
  exists y, key_input H C p s n a y /\ file_key H C p s n a = Ok (h_digest H y 64).
Proof.
  intros L1 L2 L3. destruct constants_len as (_ & _ & _ & _ & _ & _ & _ & L).
  destruct (run_total p [CIPHER C; s; n] 64 a) as (y & A & B); [lia|lia|repeat constructor; try lia; rewrite L1; reflexivity|reflexivity|].
  exists y. split; [exact A|exact B].
Qed.
Lemma digest_len y n : blen (h_digest H y n) = n.
Proof. apply an_xof_H. Qed.
Lemma names_0_1 v : bytes_to_filename v = Ok [x30] -> be_int v = 1.
Proof.
  intros E. destruct (int_as_base_roundtrip (be_int v) (Some 38) BASE_38 base38_valid) as (f & E1 & E2 & _).
  unfold bytes_to_filename in E. rewrite E1 in E. apply Ok_inj in E. rewrite E in E2. vm_compute in E2. apply Ok_inj in E2. now symmetry.
Qed.
Lemma names_0_2 v : bytes_to_filename v = Ok [x31] -> be_int v = 2.
Proof.
  intros E. destruct (int_as_base_roundtrip (be_int v) (Some 38) BASE_38 base38_valid) as (f & E1 & E2 & _).
  unfold bytes_to_filename in E. rewrite E1 in E. apply Ok_inj in E. rewrite E in E2. vm_compute in E2. apply Ok_inj in E2. now symmetry.
Qed.

Lemma st_name (p s t : bytes) : blen s = 24 -> blen t < 2 ^ 64 -> exists y n, name_input H C p s t y /\
  tag_filename H C p s t = Ok n /\ st_filename H C p s t = n /\ n <> [] /\ blen n <= 37 /\ bytes_to_filename (h_digest H y 24) = Ok n.
Proof.
  intros L1 L2. destruct (tag_name p s t L1 L2) as (y & A & B). destruct (filename_total (h_digest H y 24) (digest_len _ _)) as (n & E & NE & L).
  exists y, n. split; [exact A|]. rewrite B. split; [exact E|]. unfold st_filename. rewrite B, E. auto.
Qed.
Lemma st_root p : exists y n, root_input H C p y /\ root_filename H C p = Ok n /\ st_root_filename H C p = n /\ bytes_to_filename (h_digest H y 24) = Ok n.
Proof.
  destruct (root_name p) as (y & A & B). destruct (filename_total (h_digest H y 24) (digest_len _ _)) as (n & E & NE & L).
  exists y, n. split; [exact A|]. rewrite B. split; [exact E|]. unfold st_root_filename. rewrite B, E. auto.
Qed.
Lemma digest_name y1 y2 n : bytes_to_filename (h_digest H y1 24) = Ok n -> bytes_to_filename (h_digest H y2 24) = Ok n -> h_digest H y1 24 = h_digest H y2 24.
Proof. intros E1 E2. apply (filename_inj _ _ n); auto. pose proof (digest_len y1 24). pose proof (digest_len y2 24). unfold blen in *. lia. Qed.

Lemma apart_distinct (p s : bytes) (U : list bytes) : blen s = 24 -> Forall encoded_tag U -> names_apart H C p s U ->
  distinct_names (st_root_filename H C) (st_filename H C) p s U.
Proof.
  intros L T (A1 & A2 & A3). pose proof (proj1 (Forall_forall _ _) T) as T'. split.
  - intros t u It Iu E. destruct (bytes_dec t u) as [->|N0]; [reflexivity|exfalso].
    destruct (st_name p s t L (proj2 (T' t It))) as (x & n & X1 & _ & X2 & _ & _ & X3).
    destruct (st_name p s u L (proj2 (T' u Iu))) as (y & n' & Y1 & _ & Y2 & _ & _ & Y3).
    assert (n' = n) as -> by congruence. apply (A1 t u x y It Iu N0 X1 Y1). now apply (digest_name _ _ n).
  - intros t It. destruct (st_name p s t L (proj2 (T' t It))) as (x & n & X1 & _ & X2 & _ & _ & X3).
    destruct (st_root p) as (y & r & Y1 & _ & Y2 & Y3). rewrite X2, Y2. destruct (A3 t x It X1) as [Z1 Z2].
    repeat split; intros ->.
    + apply (A2 t x y It X1 Y1). now apply (digest_name _ _ r).
    + now apply names_0_1 in X3.
    + now apply names_0_2 in X3.
Qed.

(** ** Encryption *)
Lemma bytes_encrypt_total (p s : bytes) r (data n a : bytes) : blen s = 24 -> blen n < 2 ^ 64 -> blen a < 2 ^ 64 -> valid_coins c r ->
  exists x, db_bytes_encrypt H C c p s r data n a = Ok x /\
    forall rsalt now ttl, db_bytes_decrypt H C c p s rsalt now x n a ttl = opened (c_clock c) (r_now r) now ttl data.
Proof.
  intros L1 L2 L3 V. destruct (file_key_total p s n a L1 L2 L3) as (y & _ & K). unfold db_bytes_encrypt, db_bytes_decrypt. rewrite K. cbn [bind].
  destruct (make_cipher_total H c (h_digest H y 64) (im_cipher _ _ _ _ IM)) as (ks & ->); [rewrite digest_len; lia|]. cbn [bind].
  apply encrypt_decrypt; [apply an_xof_H|apply IM|exact V|exact I|reflexivity].
Qed.
Lemma manifest_key_total p : exists y, manifest_input H C p y /\ manifest_key H C p = Ok (h_digest H y 168).
Proof.
  destruct constants_len as (_ & _ & _ & _ & L & _).
  destruct (run_total p [] 168 (MANIFEST C)) as (y & A & B); [lia|lia|constructor|reflexivity|]. exists y. split; [exact A|exact B].
Qed.
Lemma manifest_total p r x : valid_coins c r -> exists y, manifest_encrypt H C c p r x = Ok y /\ manifest_decrypt H C c p y = Ok x.
Proof.
  intros V. destruct (manifest_key_total p) as (y & _ & K). unfold manifest_encrypt, manifest_decrypt. rewrite K. cbn [bind].
  destruct (make_cipher_total H c (h_digest H y 168) (im_cipher _ _ _ _ IM)) as (ks & ->); [rewrite digest_len; lia|]. cbn [bind].
  destruct (encrypt_decrypt H c ks r x None DEFAULT_AAD) as (z & E & D); [apply an_xof_H|apply IM|exact V|exact I|reflexivity|].
  exists z. split; [exact E|]. apply (D [] 0%Z None).
Qed.
End Keys.
