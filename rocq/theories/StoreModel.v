(** * Model of what a database stores: its names, keys, ciphertexts and manifest.

    aiootp/databases/database_properties.py 66-140,
    aiootp/databases/sync_database.py 207-250, 316-457, 595-603, 701-710
    (aiootp/databases/async_database.py repeats the statements).  These are the
    functions that DbModel.v leaves open. *)
From Coq Require Import Strings.String.
From Verif Require Import Base CanonModel TransformModel KdfModel CipherModel DomainsModel StrModel JsonModel LoadsModel DbModel.
Import ListNotations.
Local Open Scope list_scope.
Local Open Scope N_scope.

(** [str.encode()]: UTF-8. Surrogates are refused by Python; here they are encoded like other
    characters. As used in database_properties.py 66-71. *)
Definition utf8_char (c : N) : bytes :=
  if c <? 128 then [byte_of c]
  else if c <? 2048 then [byte_of (192 + c / 64); byte_of (128 + c mod 64)]
  else if c <? 65536 then [byte_of (224 + c / 4096); byte_of (128 + c / 64 mod 64); byte_of (128 + c mod 64)]
  else [byte_of (240 + c / 262144); byte_of (128 + c / 4096 mod 64); byte_of (128 + c / 64 mod 64); byte_of (128 + c mod 64)].
(** As used in database_properties.py 66-71. *)
Definition utf8 (s : str) : bytes := flat_map utf8_char s.
(** The string of an encoding. DbModel.v keeps tags as their encodings, which is what the code
    computes with; the manifest has the strings. No counterpart: the inverse of [utf8]. *)
Fixpoint utf8_text (b : bytes) : str :=
  match b with
  | [] => []
  | a :: r =>
    if bval a <? 128 then bval a :: utf8_text r
    else match r with
    | [] => []
    | b :: r =>
      if bval a <? 224 then (bval a - 192) * 64 + (bval b - 128) :: utf8_text r
      else match r with
      | [] => []
      | c :: r =>
        if bval a <? 240 then (bval a - 224) * 4096 + (bval b - 128) * 64 + (bval c - 128) :: utf8_text r
        else match r with
        | [] => []
        | d :: r => (bval a - 240) * 262144 + (bval b - 128) * 4096 + (bval c - 128) * 64 + (bval d - 128) :: utf8_text r
        end
      end
    end
  end.

(** The constants of databases: Domains.KDF, the salt of DBKDF and DBDomains. domains.py
    115-128, dbkdf.py 27, dbdomains.py 25-50. *)
Record constants := {
  KDF_DOMAIN : bytes; DBKDF_SALT : bytes;
  ROOT_KDF : bytes; ROOT_FILENAME : bytes; MANIFEST : bytes; FILENAME : bytes; METATAG_KEY : bytes; CIPHER : bytes;
}.
(** dbdomains.py 32-36 [_encode]. *)
Definition db_constant (s : string) : encoding := plain s 16 (text "database_constants").
(** dbdomains.py 25-50. *)
Definition constants_of (H : hasher) : result constants :=
  kdf <- encode H (plain "key_derivation_function" 8 []) ;;
  salt <- encode H (plain "database_domain_kdf_salt" 168 []) ;;
  root_kdf <- encode H (db_constant "root_kdf") ;;
  root_filename <- encode H (db_constant "root_filename") ;;
  manifest <- encode H (db_constant "manifest") ;;
  filename <- encode H (db_constant "filename") ;;
  metatag_key <- encode H (db_constant "metatag_key") ;;
  cipher <- encode H (db_constant "cipher") ;;
  Ok {| KDF_DOMAIN := kdf; DBKDF_SALT := salt; ROOT_KDF := root_kdf; ROOT_FILENAME := root_filename;
        MANIFEST := manifest; FILENAME := filename; METATAG_KEY := metatag_key; CIPHER := cipher |}.

(** _constants/misc.py 31, 58, 63. *)
Definition FILENAME_HASH_BYTES : N := 24.
(** _constants/misc.py 31-63. *)
Definition SHAKE_128_BLOCKSIZE : N := 168.
(** _constants/misc.py 31-63. *)
Definition DEFAULT_AAD : bytes := [].

Section Store.
(** hashlib.shake_128 and hashlib.sha3_512; the configurations of Chunky2048 and
    Slick256. *)
Variables H sha3_512 : hasher.
Variable C : constants.
Variables c ct : cfg.

(** sync_database.py 200-205 [_initialize_keys]: the payload of [_root_kdf]. *)
Definition root_kdf (key : bytes) : result payload := new_dbkdf H (KDF_DOMAIN C) (DBKDF_SALT C) (ROOT_KDF C) [] key.

(** database_properties.py 73-82 [_root_filename]. *)
Definition root_filename (p : payload) : result bytes :=
  h <- run_kdf H H p [] (Some FILENAME_HASH_BYTES) (ROOT_FILENAME C) ;;
  bytes_to_filename h.
(** sync_database.py 316-326 [filename], database_properties.py 130-140. *)
Definition tag_filename (p : payload) (salt tag : bytes) : result bytes :=
  h <- run_kdf H H p [salt; tag] (Some FILENAME_HASH_BYTES) (FILENAME C) ;;
  bytes_to_filename h.
(** sync_database.py 595-603 [_metatag_key]. *)
Definition metatag_key (p : payload) (salt tag : bytes) : result bytes :=
  run_kdf H sha3_512 p [salt; tag] None (METATAG_KEY C).

(** sync_database.py 339-345 and the same lines of the other five methods. *)
Definition file_key (p : payload) (salt filename aad : bytes) : result bytes :=
  run_kdf H H p [CIPHER C; salt; filename] (Some MIN_KEY_BYTES) aad.
(** sync_database.py 328-346 [bytes_encrypt], 390-411 [bytes_decrypt]. *)
Definition db_bytes_encrypt (p : payload) (salt : bytes) (r : coins) (data filename aad : bytes) : result bytes :=
  key <- file_key p salt filename aad ;;
  ks <- make_cipher H c key ;;
  bytes_encrypt H c ks r data None DEFAULT_AAD.
(** sync_database.py 390-411. *)
Definition db_bytes_decrypt (p : payload) (salt rsalt : bytes) (now : Z) (data filename aad : bytes) (ttl : option Z) : result bytes :=
  key <- file_key p salt filename aad ;;
  ks <- make_cipher H c key ;;
  bytes_decrypt H c ks rsalt now data DEFAULT_AAD ttl.
(** sync_database.py 348-367 [json_encrypt], 413-434 [json_decrypt]. *)
Definition db_json_encrypt (p : payload) (salt : bytes) (r : coins) (data : json) (filename aad : bytes) : result bytes :=
  key <- file_key p salt filename aad ;;
  ks <- make_cipher H c key ;;
  json_encrypt H c dumps_value ks r data None DEFAULT_AAD.
(** sync_database.py 413-434. *)
Definition db_json_decrypt (p : payload) (salt rsalt : bytes) (now : Z) (data filename aad : bytes) (ttl : option Z) : result json :=
  key <- file_key p salt filename aad ;;
  ks <- make_cipher H c key ;;
  json_decrypt H c loads_bytes ks rsalt now data DEFAULT_AAD ttl.
(** sync_database.py 369-388 [make_token], 436-457 [read_token]. *)
Definition db_make_token (p : payload) (salt : bytes) (r : coins) (data filename aad : bytes) : result bytes :=
  key <- file_key p salt filename aad ;;
  ks <- make_cipher H ct key ;;
  make_token H ct ks r data DEFAULT_AAD.
(** sync_database.py 436-457. *)
Definition db_read_token (p : payload) (salt rsalt : bytes) (now : Z) (token filename aad : bytes) (ttl : option Z) : result bytes :=
  key <- file_key p salt filename aad ;;
  ks <- make_cipher H ct key ;;
  read_token H ct ks rsalt now token DEFAULT_AAD ttl.

(** The manifest as a JSON object: sync_database.py 233-241 [_install_root_salt], 243-250
    [_initialize_metatags], 467-483 [set_tag]. *)
Definition ROOT_SALT_LEDGERNAME : str := lit "0".
(** database_properties.py 62. *)
Definition METATAGS_LEDGERNAME : str := lit "1".
(** sync_database.py 233-250, 467-483. *)
Definition manifest_json (m : manifest) : json :=
  JObj ((ROOT_SALT_LEDGERNAME, JStr (chars (bytes_to_urlsafe (m_salt m)))) ::
        (METATAGS_LEDGERNAME, JArr (map (fun t => JStr (utf8_text t)) (m_metatags m))) ::
        map (fun '(n, t) => (chars n, JStr (utf8_text t))) (m_tags m)).
(** sync_database.py 701-710. *)
Definition manifest_text (m : manifest) : bytes := dumps_bytes (manifest_json m).
(** Reading it: sync_database.py 252-264 [_load_manifest], 218-224 [_load_root_salt].  A manifest that
    is not an object of this form cannot have been written by this code; it is
    refused here when it is read, in Python when it is used. *)
Definition is_tag (kv : str * json) : bool :=
  negb (str_eqb (fst kv) ROOT_SALT_LEDGERNAME) && negb (str_eqb (fst kv) METATAGS_LEDGERNAME).
(** sync_database.py 218-264. *)
Definition json_text (v : json) : result bytes := match v with JStr s => Ok (utf8 s) | _ => Err TypeErr end.
(** No counterpart: the first exception ends it. *)
Fixpoint map_result {A B} (f : A -> result B) (l : list A) : result (list B) :=
  match l with
  | [] => Ok []
  | a :: l => b <- f a ;; r <- map_result f l ;; Ok (b :: r)
  end.
(** sync_database.py 218-264. *)
Definition manifest_of_json (v : json) : result manifest :=
  match v with
  | JObj l =>
    salt <- match dict_get str_eqb l ROOT_SALT_LEDGERNAME with
            | Some v => x <- json_text v ;; urlsafe_to_bytes x
            | None => Err KeyErr
            end ;;
    metatags <- match dict_get str_eqb l METATAGS_LEDGERNAME with
                | Some (JArr l) => map_result json_text l
                | Some _ => Err TypeErr
                | None => Ok []
                end ;;
    tags <- map_result (fun '(n, v) => t <- json_text v ;; Ok (ascii_encode n, t)) (filter is_tag l) ;;
    Ok {| m_salt := salt; m_metatags := metatags; m_tags := tags |}
  | _ => Err TypeErr
  end.
(** sync_database.py 207-216. *)
Definition manifest_of_text (x : bytes) : result manifest := v <- loads_bytes x ;; manifest_of_json v.

(** sync_database.py 701-710 [_encrypt_manifest], 207-216 [_open_manifest], without the JSON part. *)
Definition manifest_key (p : payload) : result bytes := run_kdf H H p [] (Some SHAKE_128_BLOCKSIZE) (MANIFEST C).
(** sync_database.py 701-710. *)
Definition manifest_encrypt (p : payload) (r : coins) (x : bytes) : result bytes :=
  key <- manifest_key p ;;
  ks <- make_cipher H c key ;;
  bytes_encrypt H c ks r x None DEFAULT_AAD.
(** sync_database.py 207-216. *)
Definition manifest_decrypt (p : payload) (x : bytes) : result bytes :=
  key <- manifest_key p ;;
  ks <- make_cipher H c key ;;
  bytes_decrypt H c ks [] 0 x DEFAULT_AAD None.

(** The functions DbModel.v is about. They are total there; [coin] and [salts] are the draws of
    the random source by number. No counterpart: as it says. *)
Definition or_empty (r : result bytes) : bytes := match r with Ok x => x | Err _ => [] end.
Variable coin : nat -> coins.
(** database_properties.py 73-82. *)
Definition st_root_filename (p : payload) : bytes := or_empty (root_filename p).
(** sync_database.py 316-326. *)
Definition st_filename (p : payload) (salt tag : bytes) : bytes := or_empty (tag_filename p salt tag).
(** sync_database.py 328-346. *)
Definition st_encrypt (i : nat) (p : payload) (salt n x : bytes) : bytes :=
  or_empty (db_bytes_encrypt p salt (coin i) x n DEFAULT_AAD).
(** sync_database.py 390-411. *)
Definition st_decrypt (p : payload) (salt n x : bytes) : result bytes :=
  db_bytes_decrypt p salt [] 0 x n DEFAULT_AAD None.
(** sync_database.py 701-710. *)
Definition st_encrypt_manifest (i : nat) (p : payload) (x : bytes) : bytes := or_empty (manifest_encrypt p (coin i) x).

End Store.
