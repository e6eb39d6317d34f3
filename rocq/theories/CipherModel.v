(** * Model of the ciphers: aiootp/ciphers.

    The async variants repeat the same statements with event-loop switches in
    between; they are modelled by the same functions.

    The XOF (hashlib.shake_128) is an arbitrary [hasher]: a hash object is
    represented by the bytes it has absorbed so far; [update] appends to them
    and [digest(n)] applies [h_digest]. *)
From Coq Require Import ZArith.
From Verif Require Import Base CanonModel PermModel ClockModel TransformModel GentoolsModel.
Local Open Scope N_scope.

(** ** Domain constants and configuration *)

(** generics/domains.py 37 [_DOMAIN] = b"domain_constant_encoder". *)
Definition DOMAIN_ENCODER : bytes :=
  [x64;x6f;x6d;x61;x69;x6e;x5f;x63;x6f;x6e;x73;x74;x61;x6e;x74;x5f;x65;x6e;x63;x6f;x64;x65;x72].

(** generics/domains.py 78-112 [encode_constant]. *)
Definition encode_constant (H : hasher) (constant : bytes) (size : N) (domain aad pad : bytes)
    : result bytes :=
  hash_bytes H [DOMAIN_ENCODER; domain; aad; constant] pad (Some size) None.

(** cipher_kdfs.py 60-81 [ShakeConfig.__init__]: the parts of a KDF's
    configuration that are used.  The hasher is shared by all KDFs of a
    configuration (all shipped KDFs use shake_128). *)
Record kdf_config := {
  kc_name : bytes;
  kc_pad : bytes;
  kc_offset_amount : N;
}.

(** The two cipher families: shake_permute_cipher.py (Slick256) and
    dual_output_shake_cipher.py (Chunky2048). *)
Inductive cipher_type := ShakePermute | DualOutput.

(** shake_permute_cipher_config.py 147-194, dual_output_shake_cipher_config.py
    176-231: constructor arguments.  PACKED_METADATA (a canonical packing of the
    settings printed as text) is an argument: results hold for every value.
    The clock stands for [time_unit] and [epoch_ns], the chain configuration for
    [permutation_type] applied to PERMUTATION_CONFIG_ID. *)
Record cfg := {
  c_type : cipher_type;
  c_config_id : bytes;
  c_metadata : bytes;
  c_blocksize : N;
  c_min_padding_blocks : N;
  c_clock : clock;
  c_timestamp_bytes : N;
  c_siv_key_bytes : N;
  c_shmac_bytes : N;
  c_block_id_bytes : N;
  c_max_block_id_bytes : N;
  c_min_block_id_bytes : N;
  c_salt_bytes : N;
  c_iv_bytes : N;
  c_block_id_kdf : kdf_config;
  c_shmac_kdf : kdf_config;
  c_left_kdf : kdf_config;
  c_right_kdf : kdf_config;
  c_perm : chain_config;
}.

Section Config.
Variable H : hasher.
Variable c : cfg.

(** shake_permute_cipher_config.py 196-211, dual_output_shake_cipher_config.py 233-250. *)
Definition rate : N := h_block_size H.
(** shake_permute_cipher_config.py 213-227; dual_output_shake_cipher_config.py 252-266. *)
Definition inner_header_bytes : N := c_timestamp_bytes c + c_siv_key_bytes c.
(** shake_permute_cipher_config.py 229-248; dual_output_shake_cipher_config.py 268-288. *)
Definition header_bytes : N := c_shmac_bytes c + c_salt_bytes c + c_iv_bytes c.
(** shake_permute_cipher_config.py 277-286; dual_output_shake_cipher_config.py 309-318. *)
Definition packetsize : N := c_block_id_bytes c + c_blocksize c.
(** shake_permute_cipher_config.py 277-286; dual_output_shake_cipher_config.py 309-318:
    MIN_STREAM_QUEUE. *)
Definition min_stream_queue : N := c_min_padding_blocks c + 1.
(** shake_permute_cipher_config.py 277-286; dual_output_shake_cipher_config.py 309-318:
    PADDING_FRAME. *)
Definition padding_frame : N := c_blocksize c * min_stream_queue.
(** shake_permute_cipher_config.py 277-286; dual_output_shake_cipher_config.py 309-318:
    SENTINEL_BYTES. *)
Definition sentinel_bytes : N := ceil_div padding_frame 256.
(** shake_permute_cipher_config.py 250-274; dual_output_shake_cipher_config.py 290-307. *)
Definition permutation_key_bytes : N := Z.to_N (cc_key_size (c_perm c)).
(** shake_permute_cipher_config.py 250-274; dual_output_shake_cipher_config.py 290-307:
    PRIMER_KEY_BYTES. *)
Definition primer_key_bytes : N := rate * (1 + ceil_div permutation_key_bytes rate).
(** dual_output_shake_cipher_config.py 320-354. *)
Definition embedded_capacity_bytes : N := (2 * rate - c_blocksize c) / 2.
(** dual_output_shake_cipher_config.py 320-354: the first block without its header. *)
Definition first_content_bytes : N := c_blocksize c - inner_header_bytes.

(** shake_permute_cipher_config.py 357-424 [_perform_correctness_checks];
    [remainder] is a Python modulus, never negative. *)
Definition remainder_check : bool :=
  let bs := Z.of_N (c_blocksize c) in
  let remainder :=
    Z.modulo (bs - Z.of_N inner_header_bytes - Z.of_N sentinel_bytes) bs in
  Z.ltb remainder 16.
(** shake_permute_cipher_config.py 357-424, in the order of [_perform_correctness_checks]. *)
Definition check_shake_config : result unit :=
  if c_blocksize c =? 0 then Err ValueErr
  else if rate <? c_blocksize c then Err ValueErr
  else if c_max_block_id_bytes c <? c_min_block_id_bytes c then Err ValueErr
  else if rate <? 2 * c_blocksize c + 32 then Err ValueErr
  else if remainder_check then Err ValueErr
  else Ok tt.

(** dual_output_shake_cipher_config.py 436-565 [_perform_correctness_checks].
    [_ensure_siv_measurements_are_correct] (514-550) checks with a random
    block that the pieces add up to whole blocks; it is modelled by the lengths. *)
Definition check_dual_config : result unit :=
  if negb (N.even inner_header_bytes) then Err ValueErr
  else if negb (N.even (c_blocksize c)) then Err ValueErr
  else if c_blocksize c =? 0 then Err ValueErr
  else if 2 * rate <? c_blocksize c then Err ValueErr
  else if remainder_check then Err ValueErr
  else if c_max_block_id_bytes c <? c_min_block_id_bytes c then Err ValueErr
  else if c_blocksize c <? inner_header_bytes then Err ValueErr
  else if embedded_capacity_bytes =? 0 then Err ValueErr
  else if rate <? 2 * inner_header_bytes then Err ValueErr
  else Ok tt.

(** The checks of the family: shake_permute_cipher_config.py 415-424 or
    dual_output_shake_cipher_config.py 552-565. *)
Definition check_config : result unit :=
  match c_type c with
  | ShakePermute => check_shake_config
  | DualOutput => check_dual_config
  end.

(** ** Padding: padding.py *)

(** padding.py 103-109, 147-164 [start_padding]; [now] is the time read
    from the system clock and [siv] the random SIV-key. *)
Definition start_padding (now : Z) (siv : bytes) : result bytes :=
  ts <- make_timestamp (c_clock c) now (c_timestamp_bytes c) BigEndian ;;
  Ok (ts ++ siv).

(** padding.py 220-232 [_data_measurements]: (padding_size, pad_sentinel). *)
Definition data_measurements (size : N) : result (N * bytes) :=
  if padding_frame =? 0 then Err ZeroDivisionErr
  else
    let remainder := (inner_header_bytes + size) mod padding_frame in
    let padding_size := padding_frame - remainder in
    let sentinel := padding_size mod padding_frame in
    pad_sentinel <- to_bytes_be sentinel_bytes sentinel ;;
    Ok (padding_size, pad_sentinel).

(** padding.py 247-254 [_make_end_padding], 268-278 [end_padding]; [extra] is the frame
    of random bytes. *)
Definition end_padding (size : N) (extra : bytes) : result bytes :=
  ' (padding_size, pad_sentinel) <- data_measurements size ;;
  Ok (last_n padding_size (extra ++ pad_sentinel)).

(** padding.py 311-340 [pad_plaintext]. *)
Definition pad_plaintext (now : Z) (siv extra data : bytes) : result bytes :=
  start <- start_padding now siv ;;
  end_ <- end_padding (blen data) extra ;;
  Ok (start ++ data ++ end_).

(** padding.py 366-374 [depadding_end_index], negated: the slice is
    [data[start:-index]]. *)
Definition depadding_end_index (data : bytes) : N :=
  let sentinel := be_int (last_n sentinel_bytes data) in
  if sentinel =? 0 then padding_frame else sentinel.

(** padding.py 396-414 [depad_plaintext]. *)
Definition depad_plaintext (now : Z) (data : bytes) (ttl : option Z) : result bytes :=
  _ <- test_timestamp (c_clock c) now (take (c_timestamp_bytes c) data) ttl BigEndian ;;
  Ok (drop inner_header_bytes (but_last_n (depadding_end_index data) data)).

(** ** Ciphertext format: ciphertext_formatting.py 40-63 *)
Record ciphertext := {
  ct_shmac : bytes;
  ct_salt : bytes;
  ct_iv : bytes;
  ct_body : bytes;
}.
(** ciphertext_formatting.py 40-63 [__init__], [_ensure_valid_size]. *)
Definition parse_ciphertext (data : bytes) : result ciphertext :=
  let size := Z.sub (Z.of_N (blen data)) (Z.of_N header_bytes) in
  if (Z.leb size 0) || negb (Z.eqb (Z.modulo size (Z.of_N (c_blocksize c))) 0)
  then Err InvalidCiphertextSize
  else
    let rem1 := drop (c_shmac_bytes c) data in
    let rem2 := drop (c_salt_bytes c) rem1 in
    Ok {| ct_shmac := take (c_shmac_bytes c) data;
          ct_salt := take (c_salt_bytes c) rem1;
          ct_iv := take (c_iv_bytes c) rem2;
          ct_body := drop (c_iv_bytes c) rem2 |}.

(** ** Key derivation: cipher_kdfs.py *)

(** "_salt". cipher_kdfs.py 95. *)
Definition SALT_SUFFIX : bytes := [x5f;x73;x61;x6c;x74].

(** cipher_kdfs.py 83-101 [prepare_factory]: what the prototype has absorbed. *)
Definition kdf_factory (k : kdf_config) : result bytes :=
  encode_constant H (kc_name k ++ SALT_SUFFIX) (2 * rate) (c_config_id c) (c_metadata c) [x00].

(** cipher_kdfs.py 112-119 [KeyedCipherKDF.__init__]. *)
Definition keyed_kdf (k : kdf_config) (key : bytes) : result bytes :=
  f <- kdf_factory k ;;
  ek <- encode_key key rate (kc_pad k) ;;
  Ok (f ++ ek).

(** cipher_kdfs.py 121-133 [new_session_copy]. *)
Definition new_session_copy (k : kdf_config) (kdf summary : bytes) : result bytes :=
  padded <- fullblock_ljust summary rate (kc_pad k) ;;
  Ok (kdf ++ padded ++ concat (repeat (kc_pad k) (N.to_nat (kc_offset_amount k)))).

(** shake_permute_cipher.py 47-65, dual_output_shake_cipher.py 49-71: the keyed
    KDFs held by a cipher object ([left], [right] only exist for dual output). *)
Record kdfs := { kd_shmac : bytes; kd_left : bytes; kd_right : bytes }.

(** _constants/misc.py 62 [MIN_KEY_BYTES], used in cipher_kdfs.py 144-151. *)
Definition MIN_KEY_BYTES : N := 64.
(** cipher_kdfs.py 144-151 [test_key_validity] and the constructors above;
    cipher_interface.py 114-121 [CipherInterface.__init__]. *)
Definition make_cipher (key : bytes) : result kdfs :=
  if blen key <? MIN_KEY_BYTES then Err ValueErr
  else
    s <- keyed_kdf (c_shmac_kdf c) key ;;
    match c_type c with
    | ShakePermute => Ok {| kd_shmac := s; kd_left := []; kd_right := [] |}
    | DualOutput =>
      l <- keyed_kdf (c_left_kdf c) key ;;
      r <- keyed_kdf (c_right_kdf c) key ;;
      Ok {| kd_shmac := s; kd_left := l; kd_right := r |}
    end.

(** ** Key bundles: key_bundle.py. key_bundle.py 109-164. *)
Inductive run_mode := Async | Sync.

(** key_bundle.py 167-300 [KeyAADBundle]: the salt, aad and iv, whether the iv
    was drawn by the library, the declared run mode, whether a StreamHMAC has
    been registered, and the session's hash objects (shared by reference with
    every StreamHMAC made from the bundle). *)
Record bundle := {
  b_salt : bytes;
  b_aad : bytes;
  b_iv : bytes;
  b_iv_is_fresh : bool;
  b_mode : option run_mode;
  b_registered : bool;
  b_mac : bytes;
  b_left : bytes;
  b_right : bytes;
}.

(** key_bundle.py 43-89 [SaltAADIV]: [salt or token_bytes(..)] also replaces an
    empty salt; [rsalt], [riv] are the values drawn from token_bytes. *)
Definition choose_salt (salt : option bytes) (rsalt : bytes) : bytes :=
  match salt with
  | None => rsalt
  | Some [] => rsalt
  | Some s => s
  end.
(** key_bundle.py 61-72; the flag is [_iv_given_by_user]. *)
Definition choose_iv (iv : option bytes) (riv : bytes) : bytes * bool :=
  match iv with
  | None => (riv, true)
  | Some v => (v, false)
  end.

(** key_bundle.py 187-233 [KeyAADBundle.__init__], [_initialize_session]. *)
Definition make_bundle (ks : kdfs) (salt : option bytes) (aad : bytes) (iv : option bytes)
    (rsalt riv : bytes) : result bundle :=
  let salt' := choose_salt salt rsalt in
  let '(iv', fresh) := choose_iv iv riv in
  if negb (blen salt' =? c_salt_bytes c) then Err InvalidLength
  else if negb (blen iv' =? c_iv_bytes c) then Err InvalidLength
  else
    summary <- canonical_pack [salt'; aad; iv'] 1 [x00] 4 ;;
    mac <- new_session_copy (c_shmac_kdf c) (kd_shmac ks) summary ;;
    match c_type c with
    | ShakePermute =>
      Ok {| b_salt := salt'; b_aad := aad; b_iv := iv'; b_iv_is_fresh := fresh;
            b_mode := None; b_registered := false;
            b_mac := mac; b_left := []; b_right := [] |}
    | DualOutput =>
      l <- new_session_copy (c_left_kdf c) (kd_left ks) summary ;;
      r <- new_session_copy (c_right_kdf c) (kd_right ks) summary ;;
      Ok {| b_salt := salt'; b_aad := aad; b_iv := iv'; b_iv_is_fresh := fresh;
            b_mode := None; b_registered := false;
            b_mac := mac; b_left := l; b_right := r |}
    end.

(** key_bundle.py 148-158 and shake_permute_cipher.py 92-105,
    dual_output_shake_cipher.py 175-191: the mode can be declared once (the slot
    is frozen: PermissionError). *)
Definition set_run_mode (m : run_mode) (b : bundle) : result bundle :=
  match b_mode b with
  | Some _ => Err PermissionErr
  | None =>
    Ok {| b_salt := b_salt b; b_aad := b_aad b; b_iv := b_iv b;
          b_iv_is_fresh := b_iv_is_fresh b; b_mode := Some m;
          b_registered := b_registered b;
          b_mac := b_mac b; b_left := b_left b; b_right := b_right b |}
  end.

(** key_bundle.py 235-243 [_register_shmac]. *)
Definition register_shmac (b : bundle) : result bundle :=
  if b_registered b then Err PermissionErr
  else Ok {| b_salt := b_salt b; b_aad := b_aad b; b_iv := b_iv b;
             b_iv_is_fresh := b_iv_is_fresh b; b_mode := b_mode b;
             b_registered := true;
             b_mac := b_mac b; b_left := b_left b; b_right := b_right b |}.

(** No counterpart: the hash objects of the session absorb more. *)
Definition set_hashes (b : bundle) (mac left right : bytes) : bundle :=
  {| b_salt := b_salt b; b_aad := b_aad b; b_iv := b_iv b;
     b_iv_is_fresh := b_iv_is_fresh b; b_mode := b_mode b;
     b_registered := b_registered b;
     b_mac := mac; b_left := left; b_right := right |}.
(** No counterpart: the hash object of the authenticator absorbs more. *)
Definition set_mac (b : bundle) (mac : bytes) : bundle :=
  set_hashes b mac (b_left b) (b_right b).

(** ** Authenticators: stream_hmac.py. stream_hmac.py 102-108, 130, 146: the modes. *)
Inductive cipher_mode := Encryption | Decryption.

(** stream_hmac.py 39-74: the attributes of an instance.  [s_result] is set when
    [_result_is_ready]; the digests and the reference to the hash object are
    deleted by [finalize], so they must not be read once [s_finalized]. *)
Record shmac := {
  s_mode : option cipher_mode;
  s_finalized : bool;
  s_result : option bytes;
  s_prev : bytes;
  s_cur : bytes;
  s_perm : chain;
}.

(** stream_hmac.py 59-100 [__init__]: the bundle's run mode must be declared
    (KDFModeNotDeclared is an AttributeError). *)
Definition make_shmac (b : bundle) : result shmac :=
  match b_mode b with
  | None => Err AttributeErr
  | Some _ =>
    let primer := h_digest H (b_mac b) primer_key_bytes in
    let first := take rate primer in
    perm <- make_chain (c_perm c) (last_n permutation_key_bytes primer) ;;
    Ok {| s_mode := None; s_finalized := false; s_result := None;
          s_prev := first; s_cur := first; s_perm := perm |}
  end.

(** stream_hmac.py 130, 146. *)
Definition set_cipher_mode (s : shmac) (m : cipher_mode) : shmac :=
  {| s_mode := Some m; s_finalized := s_finalized s; s_result := s_result s;
     s_prev := s_prev s; s_cur := s_cur s; s_perm := s_perm s |}.

(** stream_hmac.py 120-134 [_for_encryption]. *)
Definition for_encryption (b : bundle) (s : shmac) : result shmac :=
  match s_mode s with
  | Some _ => Err PermissionErr
  | None => if negb (b_iv_is_fresh b) then Err PermissionErr
            else Ok (set_cipher_mode s Encryption)
  end.
(** stream_hmac.py 136-150 [_for_decryption]. *)
Definition for_decryption (b : bundle) (s : shmac) : result shmac :=
  match s_mode s with
  | Some _ => Err PermissionErr
  | None => if b_iv_is_fresh b then Err PermissionErr
            else Ok (set_cipher_mode s Decryption)
  end.

(** stream_hmac.py 189-192. *)
Definition set_digests (s : shmac) (prev cur : bytes) : shmac :=
  {| s_mode := s_mode s; s_finalized := s_finalized s; s_result := s_result s;
     s_prev := prev; s_cur := cur; s_perm := s_perm s |}.

(** A bundle and the authenticator made from it. No counterpart: what key_bundle.py 167-300 and
    stream_hmac.py 32-423 share in one use of a cipher. *)
Definition session := (bundle * shmac)%type.

(** stream_hmac.py 182-193 [_update_mac]. *)
Definition update_mac (st : session) (ciphertext_block : bytes) : session :=
  let '(b, s) := st in
  let mac := b_mac b ++ ciphertext_block in
  (set_mac b mac, set_digests s (s_cur s) (h_digest H mac rate)).

(** stream_hmac.py 195-209 [_test_block_id_size]. *)
Definition test_block_id_size (size : N) : result unit :=
  if size <? c_min_block_id_bytes c then Err PermissionErr
  else if c_max_block_id_bytes c <? size then Err PermissionErr
  else Ok tt.

(** stream_hmac.py 211-221 [_get_block_id_mac]; after [finalize] the attribute
    is gone. *)
Definition get_block_id_mac (s : shmac) : result bytes :=
  if s_finalized s then Err AttributeErr
  else match s_mode s with
       | Some Encryption => Ok (s_prev s)
       | _ => Ok (s_cur s)
       end.

(** stream_hmac.py 284-293: what is absorbed after the factory's prefix. *)
Definition block_id_payload (digest : bytes) (size : N) (aad next_block : bytes)
    : result bytes :=
  sz <- to_bytes_be 1 size ;;
  la <- to_bytes_be 8 (blen aad) ;;
  lb <- to_bytes_be 8 (blen next_block) ;;
  Ok (digest ++ sz ++ la ++ aad ++ lb ++ next_block).

(** stream_hmac.py 260-294 [next_block_id]. *)
Definition next_block_id (s : shmac) (next_block : bytes) (size : option N) (aad : bytes)
    : result bytes :=
  let size := size_or size (c_block_id_bytes c) in
  _ <- test_block_id_size size ;;
  f <- kdf_factory (c_block_id_kdf c) ;;
  digest <- get_block_id_mac s ;;
  payload <- block_id_payload digest size aad next_block ;;
  Ok (h_digest H (f ++ payload) size).

(** stream_hmac.py 376-401 [test_next_block_id]. *)
Definition test_next_block_id (s : shmac) (untrusted_block_id next_block aad : bytes)
    : result unit :=
  block_id <- next_block_id s next_block (Some (blen untrusted_block_id)) aad ;;
  if bytes_eqb untrusted_block_id block_id then Ok tt else Err InvalidBlockID.

(** stream_hmac.py 307-315 [_set_final_result]: the tag, without its side effects. *)
Definition shmac_result (mac : bytes) : bytes :=
  last_n (c_shmac_bytes c) (h_digest H mac (2 * rate)).
(** stream_hmac.py 333-347 [finalize]. *)
Definition finalize (b : bundle) (s : shmac) : result (bytes * shmac) :=
  if s_finalized s then Err PermissionErr
  else
    let r := shmac_result (b_mac b) in
    Ok (r, {| s_mode := s_mode s; s_finalized := true; s_result := Some r;
              s_prev := s_prev s; s_cur := s_cur s; s_perm := s_perm s |}).

(** stream_hmac.py 110-118 [result] (ValidationIncomplete is an
    AttributeError), 414-423 [test_shmac]. *)
Definition result_of (s : shmac) : result bytes :=
  match s_result s with
  | None => Err AttributeErr
  | Some r => Ok r
  end.
(** stream_hmac.py 414-423 [test_shmac]. *)
Definition test_shmac (s : shmac) (untrusted_shmac : bytes) : result unit :=
  r <- result_of s ;;
  if bytes_eqb untrusted_shmac r then Ok tt else Err InvalidSHMAC.

(** ** Block transformations *)

(** shake_permute_cipher.py 145-170 [_encipher_then_hash]. *)
Definition shake_encipher (st : session) (plaintext : bytes) : result (bytes * session) :=
  let '(b, s) := st in
  if s_finalized s then Err AttributeErr
  else
    let bs := c_blocksize c in
    let digest := slice (2 * bs) rate (s_cur s) in
    let in_key := be_z (slice 0 bs (s_cur s)) in
    let out_key := be_z (slice bs (2 * bs) (s_cur s)) in
    x <- chain_uncapped_permute (s_perm s) (Z.lxor in_key (be_z plaintext)) ;;
    ciphertext <- z_to_bytes bs BigEndian (Z.lxor out_key x) ;;
    Ok (ciphertext, update_mac st (plaintext ++ ciphertext ++ digest)).

(** shake_permute_cipher.py 201-226 [_hash_then_decipher]. *)
Definition shake_decipher (st : session) (ciphertext : bytes) : result (bytes * session) :=
  let '(b, s) := st in
  if s_finalized s then Err AttributeErr
  else
    let bs := c_blocksize c in
    let digest := slice (2 * bs) rate (s_cur s) in
    let in_key := be_z (slice 0 bs (s_cur s)) in
    let out_key := be_z (slice bs (2 * bs) (s_cur s)) in
    x <- chain_uncapped_invert (s_perm s) (Z.lxor out_key (be_z ciphertext)) ;;
    plaintext <- z_to_bytes bs BigEndian (Z.lxor in_key x) ;;
    Ok (plaintext, update_mac st (plaintext ++ ciphertext ++ digest)).

(** chunky_2048_config.py 79, 87: [slice(0, None, 2)] and [slice(1, None, 2)]. *)
Fixpoint evens (l : bytes) : bytes :=
  match l with
  | [] => []
  | [x] => [x]
  | x :: _ :: l' => x :: evens l'
  end.
(** chunky_2048_config.py 87: [slice(1, None, 2)]. *)
Definition odds (l : bytes) : bytes :=
  match l with
  | [] => []
  | _ :: l' => evens l'
  end.

(** dual_output_shake_cipher.py 152-172 [_new_keystream]: one [send]. *)
Definition keystream_send (b : bundle) (ratchet_key : bytes) : bytes * bundle :=
  let left := b_left b ++ evens ratchet_key in
  let right := b_right b ++ odds ratchet_key in
  (h_digest H left rate ++ h_digest H right rate, set_hashes b (b_mac b) left right).

(** dual_output_shake_cipher_config.py 320-354: slices of the round key.
    [key[0:n]], [key[-n:]], [key[n:-n]]. *)
Definition left_capacity (key : bytes) : bytes := take embedded_capacity_bytes key.
(** dual_output_shake_cipher_config.py 320-354: [key[-n:]]. *)
Definition right_capacity (key : bytes) : bytes := last_n embedded_capacity_bytes key.
(** [key[n:-n]]; for n = 0 this is [key[0:0]]. *)
Definition trim (n : N) (key : bytes) : bytes :=
  if n =? 0 then [] else drop n (but_last_n n key).
(** dual_output_shake_cipher_config.py 320-354: [key[n:-n]]. *)
Definition embedded_key (key : bytes) : bytes := trim embedded_capacity_bytes key.
(** dual_output_shake_cipher_config.py 320-354, used in dual_output_shake_cipher.py 466-472 and
    534-540. *)
Definition first_key (key : bytes) : bytes :=
  trim (embedded_capacity_bytes + inner_header_bytes / 2) key.

(** dual_output_shake_cipher.py 444-474 [_unique_cipher]. *)
Definition dual_first_encipher (st : session) (block : bytes) : result (bytes * session) :=
  let '(b, s) := st in
  let header := take inner_header_bytes block in
  m <- chain_permute (s_perm s) (be_z header) ;;
  masked_header <- z_to_bytes inner_header_bytes BigEndian m ;;
  if s_finalized s then Err AttributeErr
  else
    let mac := b_mac b ++ header ++ masked_header ++ drop (2 * inner_header_bytes) (s_cur s) in
    let '(key, b) := keystream_send (set_mac b mac) (h_digest H mac (2 * rate)) in
    body <- z_to_bytes first_content_bytes BigEndian
              (Z.lxor (be_z (first_key key)) (be_z (drop inner_header_bytes block))) ;;
    let ciphertext := masked_header ++ body in
    Ok (ciphertext,
        update_mac (b, s) (left_capacity key ++ ciphertext ++ right_capacity key)).

(** dual_output_shake_cipher.py 512-542 [_unique_decipher]. *)
Definition dual_first_decipher (st : session) (block : bytes) : result (bytes * session) :=
  let '(b, s) := st in
  let masked_header := take inner_header_bytes block in
  m <- chain_invert (s_perm s) (be_z masked_header) ;;
  header <- z_to_bytes inner_header_bytes BigEndian m ;;
  if s_finalized s then Err AttributeErr
  else
    let mac := b_mac b ++ header ++ masked_header ++ drop (2 * inner_header_bytes) (s_cur s) in
    let '(key, b) := keystream_send (set_mac b mac) (h_digest H mac (2 * rate)) in
    body <- z_to_bytes first_content_bytes BigEndian
              (Z.lxor (be_z (first_key key)) (be_z (drop inner_header_bytes block))) ;;
    Ok (header ++ body,
        update_mac (b, s) (left_capacity key ++ block ++ right_capacity key)).

(** dual_output_shake_cipher.py 214-224 [_ratchet_key] and 252-276
    [_encipher_then_hash], as called in 597-600. *)
Definition dual_encipher (st : session) (plaintext_block : bytes) : result (bytes * session) :=
  let '(b, s) := st in
  if s_finalized s then Err AttributeErr
  else
    let '(key, b) := keystream_send b (s_cur s ++ s_prev s) in
    ciphertext_block <- z_to_bytes (c_blocksize c) BigEndian
                          (Z.lxor (be_z (embedded_key key)) (be_z plaintext_block)) ;;
    Ok (ciphertext_block,
        update_mac (b, s) (left_capacity key ++ ciphertext_block ++ right_capacity key)).

(** dual_output_shake_cipher.py 303-326 [_hash_then_decipher].  The hash is
    updated before a possible OverflowError. *)
Definition dual_decipher (st : session) (ciphertext_block : bytes) : result (bytes * session) :=
  let '(b, s) := st in
  if s_finalized s then Err AttributeErr
  else
    let '(key, b) := keystream_send b (s_cur s ++ s_prev s) in
    let st' := update_mac (b, s) (left_capacity key ++ ciphertext_block ++ right_capacity key) in
    plaintext_block <- z_to_bytes (c_blocksize c) BigEndian
                         (Z.lxor (be_z (embedded_key key)) (be_z ciphertext_block)) ;;
    Ok (plaintext_block, st').

(** One step of the generator returned by [combine_streams]: shake_permute
    254-268, dual_output 583-600 with synthetic_iv.py 64-88.  [first] tells
    whether this is the first block pulled through the generator. *)
Definition transform (m : cipher_mode) (first : bool) (st : session) (block : bytes)
    : result (bytes * session) :=
  match c_type c, m with
  | ShakePermute, Encryption => shake_encipher st block
  | ShakePermute, Decryption => shake_decipher st block
  | DualOutput, Encryption =>
    if first then dual_first_encipher st block else dual_encipher st block
  | DualOutput, Decryption =>
    if first then dual_first_decipher st block else dual_decipher st block
  end.

(** Exhausting the generator over a list of blocks. shake_permute_cipher.py 253-268,
    dual_output_shake_cipher.py 582-600. *)
Fixpoint transform_blocks (m : cipher_mode) (first : bool) (st : session) (blocks : list bytes)
    : result (list bytes * session) :=
  match blocks with
  | [] => Ok ([], st)
  | block :: blocks' =>
    ' (out, st1) <- transform m first st block ;;
    ' (outs, st2) <- transform_blocks m false st1 blocks' ;;
    Ok (out :: outs, st2)
  end.

(** shake_permute_cipher.py 253-268, dual_output_shake_cipher.py 582-600: an empty stream is refused by
    the dual output ciphers (synthetic_iv.py 81-84). *)
Definition combine_streams (m : cipher_mode) (st : session) (blocks : list bytes)
    : result (list bytes * session) :=
  match c_type c, blocks with
  | DualOutput, [] => Err ValueErr
  | _, _ => transform_blocks m true st blocks
  end.

(** stream_junction.py 67-96 [bytes_encipher], 124-148 [bytes_decipher] (and the
    async versions): register first, then check the modes. *)
Definition mode_eqb (m n : cipher_mode) : bool :=
  match m, n with
  | Encryption, Encryption | Decryption, Decryption => true
  | _, _ => false
  end.
(** No counterpart: equality of modes, key_bundle.py 118-124. *)
Definition run_mode_eqb (m n : run_mode) : bool :=
  match m, n with Async, Async | Sync, Sync => true | _, _ => false end.
(** stream_junction.py 67-96, 124-148: the checks behind the registration. *)
Definition check_modes (m : cipher_mode) (r : run_mode) (st : session) : result unit :=
  let '(b, s) := st in
  match s_mode s with
  | Some m' => if mode_eqb m' m
               then match b_mode b with
                    | Some r' => if run_mode_eqb r' r then Ok tt else Err ValueErr
                    | None => Err AttributeErr
                    end
               else Err ValueErr
  | None => Err ValueErr
  end.
(** stream_junction.py 67-96 [bytes_encipher], 124-148 [bytes_decipher]: registration and
    checks. *)
Definition junction (m : cipher_mode) (r : run_mode) (st : session) : result session :=
  let '(b, s) := st in
  b <- register_shmac b ;;
  _ <- check_modes m r (b, s) ;;
  Ok (b, s).

(** ** One-shot encryption: cipher_interface.py *)

(** Everything an encryption draws from the outside: random salt, IV, SIV-key, a frame of random
    padding and the time. key_bundle.py 43-72, padding.py 103-126, 184-199. *)
Record coins := {
  r_salt : bytes;
  r_iv : bytes;
  r_siv : bytes;
  r_extra : bytes;
  r_now : Z;
}.

(** cipher_interface.py 183-238 [bytes_encrypt], 123-180 [abytes_encrypt]. *)
Definition bytes_encrypt (ks : kdfs) (r : coins) (data : bytes) (salt : option bytes)
    (aad : bytes) : result bytes :=
  b <- make_bundle ks salt aad None (r_salt r) (r_iv r) ;;
  b <- set_run_mode Sync b ;;
  s <- make_shmac b ;;
  s <- for_encryption b s ;;
  padded <- pad_plaintext (r_now r) (r_siv r) (r_extra r) data ;;
  st <- junction Encryption Sync (b, s) ;;
  ' (blocks, (b, s)) <- combine_streams Encryption st (batch padded (c_blocksize c)) ;;
  ' (tag, _) <- finalize b s ;;
  Ok (tag ++ b_salt b ++ b_iv b ++ concat blocks).

(** cipher_interface.py 282-317 [bytes_decrypt], 241-280 [abytes_decrypt].  The
    salt argument of the bundle is the parsed one: never [None], but
    [b"" or token_bytes] would be redrawn if SALT_BYTES were 0; [rsalt] is that
    draw.  [now] is the time of the expiry check. *)
Definition bytes_decrypt (ks : kdfs) (rsalt : bytes) (now : Z) (data aad : bytes)
    (ttl : option Z) : result bytes :=
  d <- parse_ciphertext data ;;
  b <- make_bundle ks (Some (ct_salt d)) aad (Some (ct_iv d)) rsalt [] ;;
  b <- set_run_mode Sync b ;;
  s <- make_shmac b ;;
  s <- for_decryption b s ;;
  st <- junction Decryption Sync (b, s) ;;
  ' (blocks, (b, s)) <- combine_streams Decryption st (batch (ct_body d) (c_blocksize c)) ;;
  ' (_, s) <- finalize b s ;;
  _ <- test_shmac s (ct_shmac d) ;;
  depad_plaintext now (concat blocks) ttl.

(** cipher_interface.py 361-401 [json_encrypt], 426-447 [json_decrypt]: [dumps] and
    [loads] are the standard library's serialiser (composed with UTF-8
    encoding), arbitrary functions here. *)
Definition json_encrypt {J : Type} (dumps : J -> result bytes) (ks : kdfs) (r : coins)
    (data : J) (salt : option bytes) (aad : bytes) : result bytes :=
  text <- dumps data ;;
  bytes_encrypt ks r text salt aad.
(** cipher_interface.py 426-447 [json_decrypt]. *)
Definition json_decrypt {J : Type} (loads : bytes -> result J) (ks : kdfs) (rsalt : bytes)
    (now : Z) (data aad : bytes) (ttl : option Z) : result J :=
  text <- bytes_decrypt ks rsalt now data aad ttl ;;
  loads text.

(** cipher_interface.py 471-491 [make_token], 519-543 [read_token]. *)
Definition make_token (ks : kdfs) (r : coins) (data aad : bytes) : result bytes :=
  ciphertext <- bytes_encrypt ks r data None aad ;;
  Ok (bytes_to_urlsafe ciphertext).
(** cipher_interface.py 519-543 [read_token]. *)
Definition read_token (ks : kdfs) (rsalt : bytes) (now : Z) (token aad : bytes)
    (ttl : option Z) : result bytes :=
  ciphertext <- urlsafe_to_bytes token ;;
  bytes_decrypt ks rsalt now ciphertext aad ttl.

End Config.

(** ** The shipped configurations *)

(** slick_256_config.py 31, chunky_2048_config.py 31. *)
Definition name_block_id_kdf : bytes := [x62;x6c;x6f;x63;x6b;x5f;x69;x64;x5f;x6b;x64;x66].
(** slick_256_config.py 32, chunky_2048_config.py 32. *)
Definition name_shmac_kdf : bytes := [x73;x68;x6d;x61;x63;x5f;x6b;x64;x66].
(** chunky_2048_config.py 33. *)
Definition name_left_kdf : bytes := [x6c;x65;x66;x74;x5f;x6b;x64;x66].
(** chunky_2048_config.py 34. *)
Definition name_right_kdf : bytes := [x72;x69;x67;x68;x74;x5f;x6b;x64;x66].
(** slick_256_config.py 60-76, chunky_2048_config.py 62-94: the arguments of [ShakeConfig]. *)
Definition kdf_of (name : bytes) (pad : byte) : kdf_config :=
  {| kc_name := name; kc_pad := [pad]; kc_offset_amount := 0 |}.

(** slick_256_config.py 34-80.  [meta] is PACKED_METADATA and [mult] the
    permutation's multiplier. *)
Definition slick256 (meta : bytes) (mult : Z) : result cfg :=
  perm <- make_chain_config FastChain 32 mult ;;
  Ok {| c_type := ShakePermute;
        c_config_id := [x53;x6c;x69;x63;x6b;x32;x35;x36];
        c_metadata := meta;
        c_blocksize := 32; c_min_padding_blocks := 0;
        c_clock := {| ck_unit := Seconds; ck_epoch := EPOCH_NS |};
        c_timestamp_bytes := 4; c_siv_key_bytes := 8; c_shmac_bytes := 24;
        c_block_id_bytes := 16; c_max_block_id_bytes := 32; c_min_block_id_bytes := 16;
        c_salt_bytes := 8; c_iv_bytes := 8;
        c_block_id_kdf := kdf_of name_block_id_kdf x9a;
        c_shmac_kdf := kdf_of name_shmac_kdf xac;
        c_left_kdf := kdf_of name_left_kdf x5c;     (* not used *)
        c_right_kdf := kdf_of name_right_kdf x36;   (* not used *)
        c_perm := perm |}.

(** chunky_2048_config.py 36-96. *)
Definition chunky2048 (meta : bytes) (mult : Z) : result cfg :=
  perm <- make_chain_config FastChain 20 mult ;;
  Ok {| c_type := DualOutput;
        c_config_id := [x43;x68;x75;x6e;x6b;x79;x32;x30;x34;x38];
        c_metadata := meta;
        c_blocksize := 256; c_min_padding_blocks := 0;
        c_clock := {| ck_unit := Seconds; ck_epoch := EPOCH_NS |};
        c_timestamp_bytes := 4; c_siv_key_bytes := 16; c_shmac_bytes := 32;
        c_block_id_bytes := 24; c_max_block_id_bytes := 32; c_min_block_id_bytes := 16;
        c_salt_bytes := 8; c_iv_bytes := 8;
        c_block_id_kdf := kdf_of name_block_id_kdf xac;
        c_shmac_kdf := kdf_of name_shmac_kdf x9a;
        c_left_kdf := kdf_of name_left_kdf x5c;
        c_right_kdf := kdf_of name_right_kdf x36;
        c_perm := perm |}.
