(** * What databases store: vocabulary of the specification *)
From Verif Require Import Base CanonModel KdfModel KdfSpec CipherModel CipherSpec StrModel StoreModel.
Local Open Scope N_scope.

(** The characters [str.encode] accepts, and the encodings of tags. *)
Definition unicode (c : N) : Prop := c < 1114112 /\ ~ (55296 <= c <= 57343).
Definition encoded_tag (t : bytes) : Prop := (exists s, Forall unicode s /\ t = utf8 s) /\ blen t < 2 ^ 64.

(** The package as imported: shake_128 is an extendable output function, the constants
    could be computed, the two ciphers are properly configured. *)
Record imported (H : hasher) (C : constants) (c ct : cfg) : Prop := {
  im_xof : like_shake128 H;
  im_size : h_digest_size H = 0;
  im_constants : constants_of H = Ok C;
  im_cipher : valid_cfg H c;
  im_token_cipher : valid_cfg H ct;
}.

(** What the hash function is given for the name of the manifest, the name of a tag's
    file, the key of a file, and the key of a metatag's database. *)
Definition root_input (H : hasher) (C : constants) (p x : bytes) : Prop :=
  run_absorbed H H p [] (Some 24) (ROOT_FILENAME C) = Ok x.
Definition name_input (H : hasher) (C : constants) (p salt t x : bytes) : Prop :=
  run_absorbed H H p [salt; t] (Some 24) (FILENAME C) = Ok x.
Definition key_input (H : hasher) (C : constants) (p salt name aad x : bytes) : Prop :=
  run_absorbed H H p [CIPHER C; salt; name] (Some 64) aad = Ok x.
Definition manifest_input (H : hasher) (C : constants) (p x : bytes) : Prop :=
  run_absorbed H H p [] (Some 168) (MANIFEST C) = Ok x.
Definition metatag_input (H sha3_512 : hasher) (C : constants) (p salt t x : bytes) : Prop :=
  run_absorbed H sha3_512 p [salt; t] None (METATAG_KEY C) = Ok x.

(** Of the names of some tags and the manifest's, no two have the same hash, and none
    has one of the two hashes whose names are "0" and "1". *)
Definition names_apart (H : hasher) (C : constants) (p salt : bytes) (U : list bytes) : Prop :=
  (forall t u x y, In t U -> In u U -> t <> u -> name_input H C p salt t x -> name_input H C p salt u y ->
     h_digest H x 24 <> h_digest H y 24) /\
  (forall t x y, In t U -> name_input H C p salt t x -> root_input H C p y -> h_digest H x 24 <> h_digest H y 24) /\
  (forall t x, In t U -> name_input H C p salt t x -> be_int (h_digest H x 24) <> 1 /\ be_int (h_digest H x 24) <> 2).

(** Two databases with different keys hold the same secrets: either what their
    secrets are hashed from collides, or the secrets do. *)
Definition same_secrets (H : hasher) (C : constants) (n : N) (key1 p1 key2 p2 : bytes) : Prop :=
  (exists y1 y2, first_input H (KDF_DOMAIN C) (ROOT_KDF C) [] key1 y1 /\ first_input H (KDF_DOMAIN C) (ROOT_KDF C) [] key2 y2 /\
     collision H 168 y1 y2) \/
  collision H n p1 p2.

(** Two sessions of one cipher, with keys [k1] and [k2], that end with the same tag
    after they have absorbed different inputs, among them the body of [data]. *)
Definition same_tag (H : hasher) (c : cfg) (k1 k2 data : bytes) : Prop :=
  exists ks1 ks2 tag salt iv body x y, make_cipher H c k1 = Ok ks1 /\ make_cipher H c k2 = Ok ks2 /\
    data = tag ++ salt ++ iv ++ body /\
    absorbed H c ks1 salt [] iv body = Ok x /\ absorbed H c ks2 salt [] iv body = Ok y /\
    x <> y /\ tag_of H c x = tag /\ tag_of H c y = tag.

(** How one ciphertext can be accepted for two files: of databases with the keys
    [key1] and [key2], with the root salts [s1] and [s2], named [n1] and [n2], with
    the associated data [a1] and [a2]. *)
Definition explained (H : hasher) (C : constants) (c : cfg) (data key1 p1 s1 n1 a1 key2 p2 s2 n2 a2 : bytes) : Prop :=
  same_secrets H C 168 key1 p1 key2 p2 \/
  exists y1 y2, key_input H C p1 s1 n1 a1 y1 /\ key_input H C p2 s2 n2 a2 y2 /\
    (collision H 64 y1 y2 \/ same_tag H c (h_digest H y1 64) (h_digest H y2 64) data).
