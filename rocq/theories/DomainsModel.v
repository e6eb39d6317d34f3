(** * Model of the domain constants: aiootp/generics/domains.py, the names listed in
    aiootp/_constants/misc.py, aiootp/databases/dbdomains.py and the constants made
    elsewhere in the package. *)
From Coq Require Import Strings.String.
From Verif Require Import Base CanonModel CipherModel.
Import ListNotations.
Local Open Scope list_scope.
Local Open Scope N_scope.

(** [constant.encode()] of an ASCII text, domains.py 64-65, 102-103. *)
Definition text (s : string) : bytes := list_byte_of_string s.

(** The arguments of one call of domains.py 78-112 [encode_constant]
    (40-75 [aencode_constant]). *)
Record encoding := {
  e_constant : bytes;
  e_size : N;
  e_domain : bytes;
  e_aad : bytes;
  e_pad : bytes;
}.
(** domains.py 78-112 [encode_constant]. *)
Definition encode (H : hasher) (e : encoding) : result bytes :=
  encode_constant H (e_constant e) (e_size e) (e_domain e) (e_aad e) (e_pad e).

(** domains.py 79-86: the default arguments. *)
Definition plain (s : string) (size : N) (domain : bytes) : encoding :=
  {| e_constant := text s; e_size := size; e_domain := domain; e_aad := []; e_pad := [x00] |}.

(** _constants/misc.py 39-249: the names and values of the text constants.  The
    loop also meets the module's own __name__, __doc__, __package__ and file names,
    which depend on the installation and are not modelled. *)
Definition misc_texts : list (string * string) := [
  ("OMITTED", "<omitted>"); ("ACTIVE", "active_connection"); ("ADDRESS", "address"); ("ADMIN", "admin");
  ("AAD", "aad"); ("AGE", "age_of_connection"); ("AIOOTP", "aiootp"); ("ASYNC", "asynchronous");
  ("AUTHENTICATED_ASSOCIATED_DATA", "authenticated_associated_data"); ("AUTHENTICATION", "authentication");
  ("AUTHENTICATION_KEY", "authentication_key"); ("BIG", "big"); ("BLOCK_ID", "block_id");
  ("CENTISECONDS", "centiseconds"); ("CHANNEL", "channel"); ("CHANNELS", "channels");
  ("CHECKSUM", "checksum"); ("CHECKSUMS", "checksums"); ("CHUNKY_2048", "Chunky2048");
  ("CIPHERTEXT", "ciphertext"); ("CLIENT", "client"); ("CLIENT_ADDRESS", "client_address");
  ("CLIENT_ID", "client_id"); ("CLIENT_INDEX", "client_database_index"); ("CLIENT_KEY", "client_key");
  ("CLIENT_MESSAGE_KEY", "client_message_key"); ("CONFIG", "config"); ("CONFIG_ID", "CONFIG_ID");
  ("CONFIG_TYPE", "CONFIG_TYPE"); ("CONTROL_BITS", "control_bits"); ("CONVERSATION", "conversation");
  ("CORES", "cores"); ("CORRUPT", "corrupt"); ("CPU", "cpu"); ("CSPRNG", "cryptographically_secure_prng");
  ("DATABASE", "database"); ("DAY", "day"); ("DAYS", "days"); ("DECISECONDS", "deciseconds");
  ("DECRYPT", "decrypt"); ("DECRYPTION", "decryption"); ("DH2", "diffie_hellman_2x");
  ("DH3", "diffie_hellman_3x"); ("DIFFIE_HELLMAN", "diffie_hellman"); ("DIRECTORY", "directory");
  ("ECDHE", "elliptic_curve_diffie_hellman"); ("EMAIL_ADDRESS", "email_address"); ("ENCRYPT", "encrypt");
  ("ENCRYPTION", "encryption"); ("ENCRYPTION_KEY", "encryption_key"); ("ENTROPY", "entropy");
  ("EPHEMERAL_KEY", "ephemeral_key"); ("EQUALITY", "equality");
  ("EXTENDED_DH_EXCHANGE", "extended_diffie_hellman_exchange"); ("FAILED", "failed");
  ("FILE_KEY", "file_key"); ("FILENAME", "filename"); ("FILENAME_TO_INDEX", "filename_to_index");
  ("GUEST", "guest"); ("GUID_CLOCK_MASK", "guid_clock_mask"); ("GUID_SALT", "guid_salt");
  ("HEADER", "header"); ("HMAC", "hmac"); ("HOUR", "hour"); ("HOURS", "hours"); ("HTTP", "http");
  ("HTTPS", "https"); ("ID", "contact_id"); ("IDENTITY_KEY", "identity_key");
  ("INACTIVE", "terminated_connection"); ("INNER_HEADER", "inner_header"); ("IV", "iv"); ("KEY", "key");
  ("KDF", "key_derivation_function"); ("KEEP_ALIVE", "keep_alive"); ("KEY_ID", "key_id");
  ("KEYSTREAM", "keystream"); ("LISTENING", "listening"); ("LITTLE", "little");
  ("MAINTAINING", "maintaining"); ("MANIFEST", "manifest"); ("MANUAL", "manual_mode");
  ("MAX_INACTIVITY", "max_inactivity"); ("MB", "mb"); ("MESSAGE_ID", "message_id");
  ("MESSAGE_KEY", "message_key"); ("MESSAGE_NUMBER", "message_number"); ("MESSAGE", "message");
  ("MESSAGES", "messages"); ("METADATA", "metadata"); ("METATAG", "metatag");
  ("METATAG_KEY", "metatag_key"); ("MICROSECOND", "microsecond"); ("MICROSECONDS", "microseconds");
  ("MILLISECOND", "millisecond"); ("MILLISECONDS", "milliseconds"); ("MINUTE", "minute");
  ("MINUTES", "minutes"); ("MNEMONIC", "mnemonic"); ("MONTH", "month"); ("MONTHS", "months");
  ("NANOSECOND", "nanosecond"); ("NANOSECONDS", "nanoseconds"); ("NEW_CONTACT", "new_contact");
  ("OLD_KEY", "last_shared_key"); ("ONION", "onion"); ("PACKAGE_SIGNER", "PackageSigner");
  ("PASSCRYPT", "passcrypt"); ("PASSPHRASE", "passphrase"); ("PAYLOAD", "payload");
  ("PERIOD_KEY", "period_key"); ("PERIOD_KEYS", "period_keys"); ("PERMUTATION", "permutation");
  ("PERMUTATION_KEY", "permutation_key"); ("PHASE", "phase"); ("PHONE_NUMBER", "phone_number");
  ("PLAINTEXT", "plaintext"); ("PRNG", "pseudo_random_number_generator");
  ("PUBLIC_CREDENTIALS", "public_credentials"); ("PUBLIC_KEY", "public_key");
  ("RACHET", "rachet_shared_key"); ("RECEIVING", "receiving"); ("RECEIVING_COUNT", "receiving_count");
  ("RECEIVING_KEYS", "receiving_keys"); ("RECEIVING_STREAM", "receiving_stream");
  ("REGISTRATION", "registration"); ("RETRY", "retry"); ("SALT", "salt"); ("SALT_SIZE", "salt_size");
  ("SCHEMA", "schema"); ("SCOPE", "scope"); ("SECOND", "second"); ("SECONDS", "seconds");
  ("SECRET", "secret"); ("SECRET_CREDENTIALS", "secret_credentials"); ("SECRET_KEY", "secret_key");
  ("SECURE_CHANNEL", "secure_channel"); ("SEED", "seed"); ("SENDER", "sender"); ("SENDING", "sending");
  ("SENDING_COUNT", "sending_count"); ("SENDING_KEYS", "sending_keys");
  ("SENDING_STREAM", "sending_stream"); ("SERVER", "server"); ("SERVER_ADDRESS", "server_address");
  ("SERVER_ID", "server_id"); ("SERVER_INDEX", "server_database_index"); ("SERVER_KEY", "server_key");
  ("SERVER_MESSAGE_KEY", "server_message_key"); ("SESSION_ID", "session_id");
  ("SESSION_KEY", "session_key"); ("SESSION_TOKEN", "session_tracking_token");
  ("SHARED_KEY", "shared_key"); ("SHARED_KEYS", "shared_keys"); ("SHARED_SECRET", "shared_secret");
  ("SHARED_SEED", "shared_seed"); ("SHMAC", "shmac"); ("SIGNAL", "signal"); ("SIGNALS", "signals");
  ("SIGNATURE", "signature"); ("SIGNING_KEY", "signing_key"); ("SIV", "synthetic_iv");
  ("SIV_KEY", "siv_key"); ("SLICK_256", "Slick256"); ("STATE", "state"); ("STATUS", "status");
  ("SUCCESS", "success"); ("SYNC", "synchronous"); ("TAG", "tag"); ("TAG_SIZE", "tag_size");
  ("THREAD_SAFE_ENTROPY", "thread_safe_entropy"); ("TIMEOUT", "timeout"); ("TIMESTAMP", "timestamp");
  ("TOKEN", "token"); ("TTL", "ttl"); ("UNSENT_MESSAGES", "unsent_messages"); ("URL", "url");
  ("USER", "user"); ("USERNAME", "username"); ("UUID", "unique_user_id"); ("VERIFICATION", "verification");
  ("VERSIONS", "versions"); ("YEAR", "year"); ("YEARS", "years")]%string.

(** domains.py 115-128 [Domains]. *)
Definition domains : list (string * encoding) :=
  map (fun '(name, value) => ("Domains." ++ name, plain value 8 []))%string misc_texts.

(** databases/dbdomains.py 25-50 [DBDomains]. *)
Definition db_texts : list (string * string) := [
  ("ROOT_KDF", "root_kdf"); ("ROOT_FILENAME", "root_filename"); ("ROOT_SALT", "root_salt"); ("METATAG", "metatag"); ("HMAC", "hmac");
  ("GIST", "profile_credential_gist"); ("TMP_PREKEY", "temporary_profile_prekey"); ("PROFILE_LOGIN_KEY", "profile_login_key");
  ("MANIFEST", "manifest"); ("FILENAME", "filename"); ("METATAG_KEY", "metatag_key"); ("DEVICE_SALT", "device_salt"); ("CIPHER", "cipher")]%string.
(** databases/dbdomains.py 25-50. *)
Definition db_domains : list (string * encoding) :=
  map (fun '(name, value) => ("DBDomains." ++ name, plain value 16 (text "database_constants")))%string db_texts.

(** randoms/_early_salts.py 37; randoms/ids/guid_config.py 30;
    keygens/domain_kdf.py 57, 129; databases/dbkdf.py 27;
    keygens/passcrypt/session_init.py 53-59, whose domain is the value
    [Domains.PASSCRYPT] computed before ([passcrypt] here). *)
Definition other_constants (passcrypt : bytes) : list (string * encoding) := [
  ("_package_seed_name", plain "package_seed" 16 []);
  ("_guid_salt_name", plain "default_guid_salt" 16 []);
  ("DomainKDF", plain "domain_kdf_salt" 168 []);
  ("DBKDF", plain "database_domain_kdf_salt" 168 []);
  ("_new_passcrypt_proof_kdf", plain "passcrypt_proof_kdf_salt" 168 passcrypt)]%string.

(** All constants with fixed arguments that importing the package makes. domains.py 115-128,
    databases/dbdomains.py 25-50 and the lines of [other_constants]. *)
Definition package_constants (passcrypt : bytes) : list (string * encoding) :=
  domains ++ db_domains ++ other_constants passcrypt.
