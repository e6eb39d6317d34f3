(** * What databases store: the property C81 *)
From Coq Require Import Lia ZArith ZifyBool ZifyN ZifyNat Permutation Strings.String.
From Verif Require Import Base BaseFacts PermModel ClockModel CanonModel CanonSpec TransformModel TransformProofs KdfModel KdfSpec KdfProofs CipherModel CipherSpec ShippedProofs CipherProps
  ConfigModel ConfigProps DomainsModel StrModel JsonModel LoadsModel LoadsSpec LoadsProofs LoadsProps DbModel DbSpec DbProofs DbProps StoreModel StoreSpec StoreProofs.
Import ListNotations.
Local Open Scope list_scope.
Local Open Scope N_scope.

(** Drawing from the random source and reading the clock gives values of the right
    sizes at every call. *)
Definition good_draws (c : cfg) (coin : nat -> coins) (salts : nat -> bytes) : Prop :=
  (forall i, valid_coins c (coin i)) /\ (forall i, blen (salts i) = 24).

(** C81: the derived names and keys, the cipher, the manifest's text and JSON satisfy
    all that C40 to C46 and C79 assume of them, for every database key and every list
    of tags. *)
Theorem C81_storage_laws : forall H C c ct coin salts p U,
  imported H C c ct -> good_draws c coin salts -> Forall encoded_tag U ->
  storage_laws dumps_value loads_bytes (st_filename H C) (st_encrypt H C c coin) (st_decrypt H C c)
    (st_encrypt_manifest H C c coin) (manifest_decrypt H C c) salts manifest_text manifest_of_text p U.
Proof.
  intros H C c ct coin salts p U IM [G1 G2] T. pose proof (proj1 (Forall_forall _ _) T) as T'.
  assert (forall i j t x, In t U -> exists y, db_bytes_encrypt H C c p (salts j) (coin i) x (st_filename H C p (salts j) t) DEFAULT_AAD = Ok y /\
    st_decrypt H C c p (salts j) (st_filename H C p (salts j) t) y = Ok x) as E.
  { intros i j t x I. destruct (st_name H C c ct IM p (salts j) t (G2 j) (proj2 (T' t I))) as (y & n & _ & _ & -> & _ & L & _).
    destruct (bytes_encrypt_total H C c ct IM p (salts j) (coin i) x n DEFAULT_AAD) as (z & E & D); [apply G2|lia|reflexivity|apply G1|].
    exists z. split; [exact E|]. unfold st_decrypt. rewrite D. reflexivity. }
  split.
  - intros i j t x I. destruct (E i j t x I) as (y & E1 & E2). unfold st_encrypt. rewrite E1. exact E2.
  - intros i j t x I. destruct (E i j t x I) as (y & E1 & E2). unfold st_encrypt. rewrite E1. cbn [or_empty]. intros ->.
    destruct (E i j t [x00] I) as (y' & E1' & E2').
    unfold st_decrypt, db_bytes_decrypt in E2. apply bind_ok in E2 as (k & _ & E2). apply bind_ok in E2 as (ks & _ & E2).
    destruct (C24_accepted_is_authentic H 168 c ks [] 0%Z [] DEFAULT_AAD None x (im_xof _ _ _ _ IM) (im_cipher _ _ _ _ IM)) as (s & iv & b & z & pd & _ & Q & Ls & _); [reflexivity|exact E2|].
    symmetry in Q. apply app_eq_nil in Q as [_ Q]. apply app_eq_nil in Q as [Q _]. subst s. pose proof (vc_salt _ _ (im_cipher _ _ _ _ IM)). rewrite (@blen_nil byte) in Ls. lia.
  - intros i x. destruct (manifest_total H C c ct IM p (coin i) x (G1 i)) as (y & E1 & E2). unfold st_encrypt_manifest. now rewrite E1.
  - intros m j _ M F ND. apply manifest_back. split; [rewrite M; constructor|]. split; [|exact ND].
    intros n t I. destruct (F n t I) as (It & _ & N0 & N1). auto.
  - intros j x D. now apply (C80_never_taken_for_bytes j).
  - intros j x j' _ L. now apply C80_read_is_stable in L as [_ L].
Qed.
Print Assumptions C81_storage_laws.

(** C81: two tags of a database have the same file name, or a tag has the name of the
    manifest, only if two different inputs of the hash function, which are these,
    collide. *)
Theorem C81_file_names : forall H C c ct p s t u n, imported H C c ct -> blen s = 24 -> blen t < 2 ^ 64 -> blen u < 2 ^ 64 ->
  tag_filename H C p s t = Ok n ->
  (t <> u -> tag_filename H C p s u = Ok n ->
     exists x y, name_input H C p s t x /\ name_input H C p s u y /\ collision H 24 x y) /\
  (root_filename H C p = Ok n ->
     exists x y, name_input H C p s t x /\ root_input H C p y /\ collision H 24 x y).
Proof.
  intros H C c ct p s t u n IM L1 L2 L3 E.
  destruct (tag_name H C c ct IM p s t L1 L2) as (x & X1 & X2). rewrite E in X2. symmetry in X2. split.
  - intros N0 E'. destruct (tag_name H C c ct IM p s u L1 L3) as (y & Y1 & Y2). rewrite E' in Y2. symmetry in Y2.
    exists x, y. split; [exact X1|]. split; [exact Y1|]. split; [|exact (digest_name H C c ct IM x y n X2 Y2)]. intros ->.
    destruct (run_inj H (an_xof_H H C c ct IM) H p p _ _ _ _ _ _ y (small_rate H C c ct IM) X1 Y1) as (_ & Q & _). injection Q as ->. contradiction.
  - intros E'. destruct (root_name H C c ct IM p) as (y & Y1 & Y2). rewrite E' in Y2. symmetry in Y2.
    exists x, y. split; [exact X1|]. split; [exact Y1|]. split; [|exact (digest_name H C c ct IM x y n X2 Y2)]. intros ->.
    destruct (run_inj H (an_xof_H H C c ct IM) H p p _ _ _ _ _ _ y (small_rate H C c ct IM) X1 Y1) as (_ & Q & _). discriminate Q.
Qed.
Print Assumptions C81_file_names.

Section Databases.
Variable H : hasher.
Variable C : constants.
Variables c ct : cfg.
Variable coin : nat -> coins.
Variable salts : nat -> bytes.
Variable set_order : list bytes -> list bytes.
Notation open_db := (open_db json loads_bytes bytes (st_root_filename H C) (st_filename H C) (st_decrypt H C c) (manifest_decrypt H C c) salts manifest_of_text set_order).
Notation session := (session json dumps_value loads_bytes bytes (st_root_filename H C) (st_filename H C) (st_encrypt H C c coin) (st_decrypt H C c)
  (st_encrypt_manifest H C c coin) manifest_text set_order).
Notation life := (life json dumps_value loads_bytes bytes (st_root_filename H C) (st_filename H C) (st_encrypt H C c coin) (st_decrypt H C c)
  (st_encrypt_manifest H C c coin) (manifest_decrypt H C c) salts manifest_text manifest_of_text set_order).

(** C81: a database with the package's own cipher, key derivation, file names and JSON,
    opened with any key in a directory without its files, opens, answers in every
    session and over every life like the abstract map of C40 and C41. *)
Theorem C81_databases_are_maps : forall key p U w0 silent preload,
  imported H C c ct -> good_draws c coin salts -> (forall l, NoDup l -> Permutation (set_order l) l) ->
  root_kdf H C key = Ok p -> Forall encoded_tag U -> names_apart H C p (salts (clock w0)) U ->
  no_files (st_root_filename H C) (st_filename H C) p (salts (clock w0)) U (disk w0) ->
  exists d w1, open_db p silent preload w0 = (Ok d, w1) /\
    (forall os, Forall (op_ok json dumps_value loads_bytes U) os ->
       fst (fst (session os d w1)) = fst (arun json dumps_value loads_bytes set_order os (empty _))) /\
    (forall es, Forall (event_ok json dumps_value loads_bytes U) es -> saved_first _ es ->
       life es d w1 = alife json dumps_value loads_bytes set_order es (empty _)).
Proof.
  intros key p U w0 silent preload IM G O _ T A F.
  pose proof (C81_storage_laws H C c ct coin salts p U IM G T) as LW.
  pose proof (apart_distinct H C c ct IM p (salts (clock w0)) U (proj2 G _) T A) as D.
  destruct (C40_opening_succeeds json dumps_value loads_bytes bytes (st_root_filename H C) (st_filename H C) (st_decrypt H C c) (manifest_decrypt H C c) salts manifest_of_text set_order O p U w0 D F silent preload) as (d & w1 & E).
  exists d, w1. split; [exact E|]. split.
  - exact (C40_session_is_the_map _ _ _ _ _ _ _ _ _ _ _ _ _ _ O p U LW w0 D F silent preload d w1 E).
  - exact (C41_life_is_the_abstract_life _ _ _ _ _ _ _ _ _ _ _ _ _ _ O p U LW w0 D F silent preload d w1 E).
Qed.
End Databases.
Print Assumptions C81_databases_are_maps.

(** C81: byte strings can be stored and come back as they were; so does every JSON value
    that JSON can carry without loss. *)
Theorem C81_values_kept : forall v,
  (forall b, storable json dumps_value loads_bytes (Bytes _ b) /\ kept json dumps_value loads_bytes (Bytes _ b) = Bytes _ b) /\
  (normal v -> storable json dumps_value loads_bytes (Json _ v) /\ kept json dumps_value loads_bytes (Json _ v) = Json _ v).
Proof.
  intros v. split.
  - intros b. split; [now exists (Bytes _ b)|reflexivity].
  - intros N0. destruct (C80_written_is_read v N0) as [D L]. unfold DbSpec.storable, DbSpec.kept, DbSpec.reload. rewrite D. cbn [bind]. rewrite L. cbn [bind]. split; [now exists (Json _ v)|reflexivity].
Qed.
Print Assumptions C81_values_kept.

(** C81: the package's constants and both ciphers can be made, whatever multipliers are
    drawn, and every key of at least 64 bytes opens a database. *)
Theorem C81_importable : forall H mult mult', like_shake128 H -> h_digest_size H = 0 ->
  (exists perm, make_chain_config FastChain 20 mult = Ok perm) -> (exists perm, make_chain_config FastChain 32 mult' = Ok perm) ->
  exists C c ct, make_config H mult chunky2048_settings = Ok c /\ make_config H mult' slick256_settings = Ok ct /\ imported H C c ct /\
    forall key, 64 <= blen key < 2 ^ 63 -> exists p, root_kdf H C key = Ok p.
Proof.
  intros H mult mult' X Z P1 P2.
  destruct (C77_chunky2048_made H mult X P1) as (meta & c & M1 & M2 & M3). destruct (C77_slick256_made H mult' X P2) as (meta' & ct & N1 & N2 & N3).
  assert (forall s n d, 0 < n < 2 ^ 64 -> blen (text s) < 2 ^ 64 -> blen d < 2 ^ 64 -> exists v, encode H (plain s n d) = Ok v) as E.
  { intros s n d Sn S1 S2. apply (encode_constant_total H 168); auto; [split; reflexivity|reflexivity]. }
  assert (exists C, constants_of H = Ok C) as (C & EC).
  { unfold constants_of, db_constant.
    destruct (E "key_derivation_function"%string 8 []) as (v1 & ->); [lia|reflexivity|reflexivity|]. cbn [bind].
    destruct (E "database_domain_kdf_salt"%string 168 []) as (v2 & ->); [lia|reflexivity|reflexivity|]. cbn [bind].
    destruct (E "root_kdf"%string 16 (text "database_constants")) as (v3 & ->); [lia|reflexivity|reflexivity|]. cbn [bind].
    destruct (E "root_filename"%string 16 (text "database_constants")) as (v4 & ->); [lia|reflexivity|reflexivity|]. cbn [bind].
    destruct (E "manifest"%string 16 (text "database_constants")) as (v5 & ->); [lia|reflexivity|reflexivity|]. cbn [bind].
    destruct (E "filename"%string 16 (text "database_constants")) as (v6 & ->); [lia|reflexivity|reflexivity|]. cbn [bind].
    destruct (E "metatag_key"%string 16 (text "database_constants")) as (v7 & ->); [lia|reflexivity|reflexivity|]. cbn [bind].
    destruct (E "cipher"%string 16 (text "database_constants")) as (v8 & ->); [lia|reflexivity|reflexivity|]. cbn [bind]. eauto. }
  assert (imported H C c ct) as IM.
  { split; auto; [exact (chunky2048_valid _ _ _ _ X M3 M2)|exact (slick256_valid _ _ _ _ X N3 N2)]. }
  exists C, c, ct. split; [exact M1|]. split; [exact N1|]. split; [exact IM|]. exact (root_total H C c ct IM).
Qed.
Print Assumptions C81_importable.

(** C81: what the encryption methods of a database return for a file name and associated
    data is opened by the decryption methods with the same: the data comes back, unless
    a limit is given and the ciphertext is older. *)
Theorem C81_methods_roundtrip : forall H C c ct p s n a r rt data v,
  imported H C c ct -> blen s = 24 -> blen n < 2 ^ 64 -> blen a < 2 ^ 64 -> valid_coins c r -> valid_coins ct rt -> normal v ->
  (exists x, db_bytes_encrypt H C c p s r data n a = Ok x /\
     forall rsalt now ttl, db_bytes_decrypt H C c p s rsalt now x n a ttl = opened (c_clock c) (r_now r) now ttl data) /\
  (exists x, db_make_token H C ct p s rt data n a = Ok x /\
     forall rsalt now ttl, db_read_token H C ct p s rsalt now x n a ttl = opened (c_clock ct) (r_now rt) now ttl data) /\
  (exists x, db_json_encrypt H C c p s r v n a = Ok x /\
     (forall rsalt now, db_json_decrypt H C c p s rsalt now x n a None = Ok v) /\
     forall rsalt now limit,
       let age := (clock_time (c_clock c) now - clock_time (c_clock c) (r_now r))%Z in
       db_json_decrypt H C c p s rsalt now x n a (Some limit) = if (age <=? limit)%Z then Ok v else Err (TimestampExpired (age - limit))).
Proof.
  intros H C c ct p s n a r rt data v IM L1 L2 L3 R RT N0. split; [now apply (bytes_encrypt_total H C c ct)|].
  destruct (file_key_total H C c ct IM p s n a L1 L2 L3) as (y & _ & K).
  assert (64 <= blen (h_digest H y 64) < 2 ^ 64) as B by (rewrite (digest_len H C c ct IM); lia). split.
  - unfold db_make_token, db_read_token. rewrite K. cbn [bind].
    destruct (make_cipher_total H ct _ (im_token_cipher _ _ _ _ IM) B) as (ks & ->). cbn [bind].
    destruct (C26_token_roundtrip H 168 ct ks rt data DEFAULT_AAD (im_xof _ _ _ _ IM) (im_token_cipher _ _ _ _ IM) RT) as (x & E & _ & D); [reflexivity|].
    exists x. now split.
  - unfold db_json_encrypt, db_json_decrypt. rewrite K. cbn [bind].
    destruct (make_cipher_total H c _ (im_cipher _ _ _ _ IM) B) as (ks & ->). cbn [bind].
    apply (C80_json_messages H 168 c ks r v None DEFAULT_AAD (im_xof _ _ _ _ IM) (im_cipher _ _ _ _ IM) R I); [reflexivity|exact N0].
Qed.
Print Assumptions C81_methods_roundtrip.

(** The two openings of one ciphertext. *)
Lemma two_openings H C c ct c0 key1 p1 s1 n1 a1 k1 ks1 key2 p2 s2 n2 a2 k2 ks2 data r1 t1 l1 d1 r2 t2 l2 d2 :
  imported H C c ct -> valid_cfg H c0 -> root_kdf H C key1 = Ok p1 -> root_kdf H C key2 = Ok p2 ->
  file_key H C p1 s1 n1 a1 = Ok k1 -> file_key H C p2 s2 n2 a2 = Ok k2 ->
  make_cipher H c0 k1 = Ok ks1 -> make_cipher H c0 k2 = Ok ks2 ->
  bytes_decrypt H c0 ks1 r1 t1 data DEFAULT_AAD l1 = Ok d1 -> bytes_decrypt H c0 ks2 r2 t2 data DEFAULT_AAD l2 = Ok d2 ->
  (key1, s1, n1, a1) <> (key2, s2, n2, a2) -> explained H C c0 data key1 p1 s1 n1 a1 key2 p2 s2 n2 a2.
Proof.
  intros IM V P1 P2 K1 K2 M1 M2 D1 D2 NE. pose proof (an_xof_H H C c ct IM) as XH. pose proof (small_rate H C c ct IM) as SR. pose proof (rate_H H C c ct IM) as RH.
  apply (run_read H C c ct IM) in K1 as (y1 & Y1 & ->); [|reflexivity]. apply (run_read H C c ct IM) in K2 as (y2 & Y2 & ->); [|reflexivity].
  change MIN_KEY_BYTES with 64 in *.
  destruct (bytes_dec y1 y2) as [<-|N0].
  - left. destruct (run_inj H XH H p1 p2 _ _ _ _ _ _ y1 SR Y1 Y2) as (<- & Q & _ & [<-|Q2]).
    + injection Q as <- <-. left. apply (root_made H C) in P1, P2.
      destruct (payload_inj H (KDF_DOMAIN C) (DBKDF_SALT C) XH (ROOT_KDF C) [] key1 [] (ROOT_KDF C) [] key2 [] p1 SR) as (_ & [(_ & _ & <-)|R]); auto.
      * right. now split.
      * now contradiction NE.
      * now rewrite RH in R.
    + right. now rewrite RH in Q2.
  - right. exists y1, y2. split; [exact Y1|]. split; [exact Y2|].
    destruct (bytes_dec (h_digest H y1 64) (h_digest H y2 64)) as [E|E]; [left; split; assumption|right].
    destruct (C25_two_openings_collide H 168 c0 _ ks1 _ ks2 DEFAULT_AAD DEFAULT_AAD data r1 t1 l1 d1 r2 t2 l2 d2 (im_xof _ _ _ _ IM) V M1 M2)
      as (tag & salt & iv & body & x & y & Z); auto; try reflexivity.
    + intros Q. injection Q as Q. contradiction.
    + exists ks1, ks2, tag, salt, iv, body, x, y. split; [exact M1|]. split; [exact M2|]. exact Z.
Qed.

(** C81: a ciphertext or token that is accepted with one key, root salt, file name and
    associated data is not accepted with others, in the same or another database,
    unless two different inputs, which are these,
    collide: of the derivation of the databases' secrets or of the files' keys, or
    of the cipher's tag. *)
Theorem C81_ciphertexts_are_bound : forall H C c ct key1 p1 s1 n1 a1 key2 p2 s2 n2 a2 data,
  imported H C c ct -> root_kdf H C key1 = Ok p1 -> root_kdf H C key2 = Ok p2 ->
  (key1, s1, n1, a1) <> (key2, s2, n2, a2) ->
  (forall r1 t1 l1 d1 r2 t2 l2 d2,
     db_bytes_decrypt H C c p1 s1 r1 t1 data n1 a1 l1 = Ok d1 -> db_bytes_decrypt H C c p2 s2 r2 t2 data n2 a2 l2 = Ok d2 ->
     explained H C c data key1 p1 s1 n1 a1 key2 p2 s2 n2 a2) /\
  (forall r1 t1 l1 d1 r2 t2 l2 d2,
     db_json_decrypt H C c p1 s1 r1 t1 data n1 a1 l1 = Ok d1 -> db_json_decrypt H C c p2 s2 r2 t2 data n2 a2 l2 = Ok d2 ->
     explained H C c data key1 p1 s1 n1 a1 key2 p2 s2 n2 a2) /\
  (forall r1 t1 l1 d1 r2 t2 l2 d2,
     db_read_token H C ct p1 s1 r1 t1 data n1 a1 l1 = Ok d1 -> db_read_token H C ct p2 s2 r2 t2 data n2 a2 l2 = Ok d2 ->
     exists sealed, urlsafe_to_bytes data = Ok sealed /\ explained H C ct sealed key1 p1 s1 n1 a1 key2 p2 s2 n2 a2).
Proof.
  intros H C c ct key1 p1 s1 n1 a1 key2 p2 s2 n2 a2 data IM P1 P2 NE. split; [|split]; intros r1 t1 l1 d1 r2 t2 l2 d2 D1 D2.
  - unfold db_bytes_decrypt in *. apply bind_ok in D1 as (k1 & K1 & D1). apply bind_ok in D1 as (ks1 & M1 & D1).
    apply bind_ok in D2 as (k2 & K2 & D2). apply bind_ok in D2 as (ks2 & M2 & D2).
    exact (two_openings H C c ct c _ _ _ _ _ k1 ks1 _ _ _ _ _ k2 ks2 data _ _ _ _ _ _ _ _ IM (im_cipher _ _ _ _ IM) P1 P2 K1 K2 M1 M2 D1 D2 NE).
  - unfold db_json_decrypt, json_decrypt in *. apply bind_ok in D1 as (k1 & K1 & D1). apply bind_ok in D1 as (ks1 & M1 & D1). apply bind_ok in D1 as (x1 & D1 & _).
    apply bind_ok in D2 as (k2 & K2 & D2). apply bind_ok in D2 as (ks2 & M2 & D2). apply bind_ok in D2 as (x2 & D2 & _).
    exact (two_openings H C c ct c _ _ _ _ _ k1 ks1 _ _ _ _ _ k2 ks2 data _ _ _ _ _ _ _ _ IM (im_cipher _ _ _ _ IM) P1 P2 K1 K2 M1 M2 D1 D2 NE).
  - unfold db_read_token, read_token in *. apply bind_ok in D1 as (k1 & K1 & D1). apply bind_ok in D1 as (ks1 & M1 & D1). apply bind_ok in D1 as (x1 & U1 & D1).
    apply bind_ok in D2 as (k2 & K2 & D2). apply bind_ok in D2 as (ks2 & M2 & D2). apply bind_ok in D2 as (x2 & U2 & D2).
    assert (x2 = x1) as -> by congruence. exists x1. split; [exact U1|].
    exact (two_openings H C c ct ct _ _ _ _ _ k1 ks1 _ _ _ _ _ k2 ks2 x1 _ _ _ _ _ _ _ _ IM (im_token_cipher _ _ _ _ IM) P1 P2 K1 K2 M1 M2 D1 D2 NE).
Qed.
Print Assumptions C81_ciphertexts_are_bound.

(** C81: likewise the manifest of one database is not accepted by another. *)
Theorem C81_manifests_are_bound : forall H C c ct key1 p1 key2 p2 data x1 x2,
  imported H C c ct -> root_kdf H C key1 = Ok p1 -> root_kdf H C key2 = Ok p2 -> key1 <> key2 ->
  manifest_decrypt H C c p1 data = Ok x1 -> manifest_decrypt H C c p2 data = Ok x2 ->
  same_secrets H C 168 key1 p1 key2 p2 \/
  exists y1 y2, manifest_input H C p1 y1 /\ manifest_input H C p2 y2 /\
    (collision H 168 y1 y2 \/ same_tag H c (h_digest H y1 168) (h_digest H y2 168) data).
Proof.
  intros H C c ct key1 p1 key2 p2 data x1 x2 IM P1 P2 NE D1 D2.
  pose proof (an_xof_H H C c ct IM) as XH. pose proof (small_rate H C c ct IM) as SR. pose proof (rate_H H C c ct IM) as RH.
  unfold manifest_decrypt in *. apply bind_ok in D1 as (k1 & K1 & D1). apply bind_ok in D1 as (ks1 & M1 & D1).
  apply bind_ok in D2 as (k2 & K2 & D2). apply bind_ok in D2 as (ks2 & M2 & D2).
  apply (run_read H C c ct IM) in K1 as (y1 & Y1 & ->); [|reflexivity]. apply (run_read H C c ct IM) in K2 as (y2 & Y2 & ->); [|reflexivity].
  change SHAKE_128_BLOCKSIZE with 168 in *.
  destruct (bytes_dec y1 y2) as [<-|N0].
  - left. destruct (run_inj H XH H p1 p2 _ _ _ _ _ _ y1 SR Y1 Y2) as (_ & _ & _ & [<-|Q2]).
    + left. apply (root_made H C) in P1, P2.
      destruct (payload_inj H (KDF_DOMAIN C) (DBKDF_SALT C) XH (ROOT_KDF C) [] key1 [] (ROOT_KDF C) [] key2 [] p1 SR) as (_ & [(_ & _ & Q)|R]); auto.
      * right. now split.
      * contradiction.
      * now rewrite RH in R.
    + right. now rewrite RH in Q2.
  - right. exists y1, y2. split; [exact Y1|]. split; [exact Y2|].
    destruct (bytes_dec (h_digest H y1 168) (h_digest H y2 168)) as [E|E]; [left; split; assumption|right].
    destruct (C25_two_openings_collide H 168 c _ ks1 _ ks2 DEFAULT_AAD DEFAULT_AAD data [] 0%Z None x1 [] 0%Z None x2 (im_xof _ _ _ _ IM) (im_cipher _ _ _ _ IM) M1 M2)
      as (tag & salt & iv & body & x & y & Z); auto; try reflexivity.
    + intros Q. injection Q as Q. contradiction.
    + exists ks1, ks2, tag, salt, iv, body, x, y. split; [exact M1|]. split; [exact M2|]. exact Z.
Qed.
Print Assumptions C81_manifests_are_bound.

(** C81: the databases of two different metatags, of the same or of different databases,
    get different keys unless these inputs collide. *)
Theorem C81_metatag_keys : forall H sha3_512 C c ct key1 p1 s1 t1 key2 p2 s2 t2 k,
  imported H C c ct -> h_is_xof sha3_512 = false -> h_block_size sha3_512 = 72 ->
  root_kdf H C key1 = Ok p1 -> root_kdf H C key2 = Ok p2 -> (key1, s1, t1) <> (key2, s2, t2) ->
  metatag_key H sha3_512 C p1 s1 t1 = Ok k -> metatag_key H sha3_512 C p2 s2 t2 = Ok k ->
  same_secrets H C 72 key1 p1 key2 p2 \/
  exists y1 y2, metatag_input H sha3_512 C p1 s1 t1 y1 /\ metatag_input H sha3_512 C p2 s2 t2 y2 /\ collision sha3_512 (h_digest_size sha3_512) y1 y2.
Proof.
  intros H sha C c ct key1 p1 s1 t1 key2 p2 s2 t2 k IM SX SB P1 P2 NE K1 K2.
  pose proof (an_xof_H H C c ct IM) as XH. pose proof (small_rate H C c ct IM) as SR. pose proof (rate_H H C c ct IM) as RH.
  assert (forall p s t, metatag_key H sha C p s t = Ok k -> exists y, metatag_input H sha C p s t y /\ k = h_digest sha y (h_digest_size sha)) as R.
  { intros p s t E. unfold metatag_key, run_kdf, hash_bytes in E. apply bind_ok in E as (y & E & D). exists y. split; [exact E|].
    unfold run_size in D. destruct (h_digest_size sha =? 0); cbn [truthy_size] in D; unfold call_digest in D; rewrite SX in D; now apply Ok_inj in D. }
  destruct (R _ _ _ K1) as (y1 & Y1 & E1). destruct (R _ _ _ K2) as (y2 & Y2 & E2). clear R.
  destruct (bytes_dec y1 y2) as [<-|N0].
  - left. assert (h_block_size sha < 2 ^ 56) as SS by (rewrite SB; reflexivity).
    destruct (run_inj H XH sha p1 p2 _ _ _ _ _ _ y1 SS Y1 Y2) as (_ & Q & _ & [<-|Q2]).
    + injection Q as <- <-. left. apply (root_made H C) in P1, P2.
      destruct (payload_inj H (KDF_DOMAIN C) (DBKDF_SALT C) XH (ROOT_KDF C) [] key1 [] (ROOT_KDF C) [] key2 [] p1 SR) as (_ & [(_ & _ & <-)|R]); auto.
      * right. now split.
      * now contradiction NE.
      * now rewrite RH in R.
    + right. now rewrite SB in Q2.
  - right. exists y1, y2. split; [exact Y1|]. split; [exact Y2|]. split; [exact N0|congruence].
Qed.
Print Assumptions C81_metatag_keys.

(** C81: databases with different keys can share a directory: no two
    of their files have the same name unless these inputs collide.  Each of [x1] and [x2]
    is the root salt and the tag of a file, or [None] for the manifest. *)
Definition file_input (H : hasher) (C : constants) (p : bytes) (x : option (bytes * bytes)) (y : bytes) : Prop :=
  match x with None => root_input H C p y | Some (s, t) => name_input H C p s t y end.
Definition file_name (H : hasher) (C : constants) (p : bytes) (x : option (bytes * bytes)) : result bytes :=
  match x with None => root_filename H C p | Some (s, t) => tag_filename H C p s t end.
Theorem C81_shared_directories : forall H C c ct key1 p1 x1 key2 p2 x2 n,
  imported H C c ct -> root_kdf H C key1 = Ok p1 -> root_kdf H C key2 = Ok p2 -> (key1, x1) <> (key2, x2) ->
  file_name H C p1 x1 = Ok n -> file_name H C p2 x2 = Ok n ->
  same_secrets H C 168 key1 p1 key2 p2 \/
  exists y1 y2, file_input H C p1 x1 y1 /\ file_input H C p2 x2 y2 /\ collision H 24 y1 y2.
Proof.
  intros H C c ct key1 p1 x1 key2 p2 x2 n IM P1 P2 NE E1 E2.
  pose proof (an_xof_H H C c ct IM) as XH. pose proof (small_rate H C c ct IM) as SR. pose proof (rate_H H C c ct IM) as RH.
  assert (forall p x, file_name H C p x = Ok n -> exists y, file_input H C p x y /\ bytes_to_filename (h_digest H y 24) = Ok n) as R.
  { intros p [(s & t)|] E; cbn [file_name file_input] in *; unfold tag_filename, root_filename in E; apply bind_ok in E as (h & E & F);
      apply (run_read H C c ct IM) in E as (y & Y & ->); try reflexivity; exists y; (split; [exact Y|exact F]). }
  destruct (R _ _ E1) as (y1 & Y1 & F1). destruct (R _ _ E2) as (y2 & Y2 & F2). clear R.
  destruct (bytes_dec y1 y2) as [<-|N0].
  2:{ right. exists y1, y2. split; [exact Y1|]. split; [exact Y2|]. split; [exact N0|exact (digest_name H C c ct IM y1 y2 n F1 F2)]. }
  left. assert (x1 = x2 /\ (p1 = p2 \/ collision H 168 p1 p2)) as (<- & [<-|Q]).
  { destruct x1 as [(s1 & t1)|], x2 as [(s2 & t2)|]; cbn [file_input] in Y1, Y2; unfold root_input, name_input in Y1, Y2;
      destruct (run_inj H XH H p1 p2 _ _ _ _ _ _ y1 SR Y1 Y2) as (_ & Q & _ & D); rewrite RH in D; try discriminate Q.
    - injection Q as <- <-. split; [reflexivity|exact D].
    - split; [reflexivity|exact D]. }
  - left. apply (root_made H C) in P1, P2.
    destruct (payload_inj H (KDF_DOMAIN C) (DBKDF_SALT C) XH (ROOT_KDF C) [] key1 [] (ROOT_KDF C) [] key2 [] p1 SR) as (_ & [(_ & _ & <-)|R]); auto.
    + right. now split.
    + now contradiction NE.
    + now rewrite RH in R.
  - now right.
Qed.
Print Assumptions C81_shared_directories.

(** The hypotheses are met: a hash function which is not constant, a key of 64 bytes and
    two tags, one of them not ASCII. *)
Definition mixing : hasher :=
  {| h_block_size := 168; h_digest_size := 0; h_is_xof := true;
     h_digest := fun x n => be_enc (N.to_nat n) (fold_left (fun a b => N.land (3 * a + bval b) 0xffffff) x 7) |}.
Definition a_root_salt : bytes := repeat x09 24.
Definition two_tags : list bytes := [utf8 [97]; utf8 [8364; 128512]].
Definition mixed_constants : constants :=
  Eval vm_compute in match constants_of mixing with Ok C => C | Err _ => Build_constants [] [] [] [] [] [] [] [] end.
Definition mixed_payload : bytes := Eval vm_compute in match root_kdf mixing mixed_constants (repeat x07 64) with Ok p => p | Err _ => [] end.
Definition hash_number (data : list bytes) (domain : bytes) : N :=
  match run_absorbed mixing mixing mixed_payload data (Some 24) domain with Ok x => be_int (h_digest mixing x 24) | Err _ => 0 end.
Lemma mixing_is : like_shake128 mixing.
Proof. split; [reflexivity|reflexivity|]. intros x n. cbn [h_digest mixing]. rewrite blen_be_enc. lia. Qed.
Example C81_case : exists c ct, imported mixing mixed_constants c ct /\ root_kdf mixing mixed_constants (repeat x07 64) = Ok mixed_payload /\
  Forall encoded_tag two_tags /\ names_apart mixing mixed_constants mixed_payload a_root_salt two_tags.
Proof.
  destruct (C81_importable mixing 13 13 mixing_is eq_refl) as (C & c & ct & _ & _ & IM & _).
  { eexists. vm_compute. reflexivity. } { eexists. vm_compute. reflexivity. }
  assert (constants_of mixing = Ok mixed_constants) as E by (vm_compute; reflexivity).
  assert (C = mixed_constants) as -> by (pose proof (im_constants _ _ _ _ IM); congruence).
  exists c, ct. split; [exact IM|]. split; [vm_compute; reflexivity|]. split.
  - constructor; [|constructor; [|constructor]]; (split; [|vm_compute; reflexivity]).
    + exists [97]. split; [|reflexivity]. constructor; [|constructor]. unfold unicode. lia.
    + exists [8364; 128512]. split; [|reflexivity]. constructor; [|constructor; [|constructor]]; unfold unicode; lia.
  - assert (forall t x : bytes, name_input mixing mixed_constants mixed_payload a_root_salt t x -> be_int (h_digest mixing x 24) = hash_number [a_root_salt; t] (FILENAME mixed_constants)) as A.
    { intros t x I. unfold name_input in I. unfold hash_number. now rewrite I. }
    assert (forall x : bytes, root_input mixing mixed_constants mixed_payload x -> be_int (h_digest mixing x 24) = hash_number [] (ROOT_FILENAME mixed_constants)) as B.
    { intros x I. unfold root_input in I. unfold hash_number. now rewrite I. }
    split; [|split].
    + clear E. intros t u x y It Iu N0 X Y E. apply A in X, Y. rewrite E, Y in X. apply N0. clear - It Iu X. destruct It as [<-|[<-|[]]], Iu as [<-|[<-|[]]]; try reflexivity; vm_compute in X; discriminate X.
    + clear E. intros t x y It X Y E. apply A in X. apply B in Y. rewrite E, Y in X. clear - It X. destruct It as [<-|[<-|[]]]; vm_compute in X; discriminate X.
    + intros t x It X. apply A in X. rewrite X. clear - It. destruct It as [<-|[<-|[]]]; split; vm_compute; discriminate.
Qed.
