(** * ReportSpec: what a report of a security issue should achieve. *)

From Verif Require Import Base CanonModel TransformModel ClockModel KdfModel KdfSpec CurveModel CurveSpec
  CipherModel CipherSpec ReportModel.
Local Open Scope N_scope.

(** hashlib.sha3_256: blocks of 136 bytes, digests of 32 bytes. *)
Definition like_sha3_256 (H : hasher) : Prop :=
  h_is_xof H = false /\ h_digest_size H = 32 /\ h_block_size H = 136 /\
  forall x, blen (h_digest H x 32) = 32.

(** ChaCha20Poly1305 opens what it has sealed under the same key of 32 bytes, nonce
    of 12 bytes and associated data. *)
Definition opens (seal : bytes -> bytes -> bytes -> bytes -> bytes)
    (unseal : bytes -> bytes -> bytes -> bytes -> result bytes) : Prop :=
  forall key nonce data aad, blen key = 32 -> blen nonce = 12 ->
    unseal key nonce (seal key nonce data aad) aad = Ok data.

(** The bytes of what was typed. *)
Definition typed (encode : text -> result bytes) (lines : list text) (b : bytes) : Prop :=
  exists parts, Forall2 (fun line x => encode line = Ok x) lines parts /\ b = concat parts.

(** The dialogue about megabytes: numbers are asked for until one is typed and not
    taken back. *)
Inductive chosen (parse_int : text -> option Z) (no : text -> Prop) : list text -> Z -> list text -> Prop :=
| agreed mb z answer rest :
    parse_int mb = Some z -> ~ no answer ->
    chosen parse_int no (mb :: answer :: rest) (Z.max z 1) rest
| taken_back mb z answer rest m rest' :
    parse_int mb = Some z -> no answer -> chosen parse_int no rest m rest' ->
    chosen parse_int no (mb :: answer :: rest) m rest'
| not_a_number mb rest m rest' :
    parse_int mb = None -> chosen parse_int no rest m rest' ->
    chosen parse_int no (mb :: rest) m rest'.

(** The letter an answer begins with, without regard to case and spaces. *)
Definition begins (normal : text -> text) (x : N) (answer : text) : Prop :=
  exists rest, normal answer = x :: rest.

(** A whole dialogue: consent, megabytes, email address, passphrase. *)
Definition dialogue (normal : text -> text) (parse_int : text -> option Z) (encode : text -> result bytes)
    (answers : list text) (cr : credentials) : Prop :=
  exists want rest mb email passphrase unused e p,
    answers = want :: rest /\ begins normal 121 want /\
    chosen parse_int (begins normal 110) rest mb (email :: passphrase :: unused) /\
    encode email = Ok e /\ encode passphrase = Ok p /\ cr = (e, p, mb).

(** How the owner of the secret key [sk] reads a report: the four fields, the shared
    key, the derived keys, decryption, and the check of the synthetic IV. *)
Definition read_report (C : curve) (shake_128 sha3_256 : hasher) (KDF_DOMAIN salt USER SIV ENCRYPTION_KEY : bytes)
    (unseal : bytes -> bytes -> bytes -> bytes -> result bytes) (c : cfg) (sk : secret C) (now : Z) (x : report)
    : result (list bytes) :=
  date <- urlsafe_to_bytes (rp_date x) ;;
  public <- urlsafe_to_bytes (rp_public_key x) ;;
  siv <- urlsafe_to_bytes (rp_siv x) ;;
  encrypted <- urlsafe_to_bytes (rp_encrypted_message x) ;;
  shared <- exchange C (pair_of sk) (PBytes public) ;;
  kdf <- new_kdf shake_128 KDF_DOMAIN salt USER [date; public; raw_public C (public_of C sk)] shared ;;
  key <- run_kdf shake_128 sha3_256 kdf [siv] None ENCRYPTION_KEY ;;
  message <- unseal key (take 12 siv) encrypted siv ;;
  again <- run_kdf shake_128 sha3_256 kdf [message] None SIV ;;
  if bytes_eqb siv again then
    plain <- depad_plaintext c now message None ;;
    canonical_unpack plain
  else Err InvalidSHMAC.

(** Synthetic IV and encryption key of a message, for a date, the public keys and
    the shared key. *)
Definition keys_of (shake_128 sha3_256 : hasher) (KDF_DOMAIN salt USER SIV ENCRYPTION_KEY : bytes)
    (date public addressee shared message siv key : bytes) : Prop :=
  exists kdf,
    new_kdf shake_128 KDF_DOMAIN salt USER [date; public; addressee] shared = Ok kdf /\
    run_kdf shake_128 sha3_256 kdf [message] None SIV = Ok siv /\
    run_kdf shake_128 sha3_256 kdf [siv] None ENCRYPTION_KEY = Ok key.

(** Somebody has found two inputs of the hash functions with one digest. *)
Definition hashes_collide (shake_128 sha3_256 : hasher) : Prop :=
  (exists n x y, collision shake_128 n x y) \/ (exists x y, collision sha3_256 32 x y).

(** The last [n] items of a list. *)
Definition last_items {A} (n : nat) (l : list A) : list A := skipn (length l - n) l.
