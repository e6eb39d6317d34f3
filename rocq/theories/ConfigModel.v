(** * Model of the construction of cipher configurations:
    aiootp/ciphers/shake_permute_cipher_config.py 147-345,
    aiootp/ciphers/dual_output_shake_cipher_config.py 176-434,
    aiootp/ciphers/cipher_kdfs.py 60-101. *)
From Coq Require Import ZArith Decimal DecimalN.
From Verif Require Import Base CanonModel PermModel ClockModel CipherModel.
Local Open Scope N_scope.

(** [str(int)]. For shake_permute_cipher_config.py 288-331 and
    dual_output_shake_cipher_config.py 357-409, which print settings as text. *)
Fixpoint digits (u : Decimal.uint) : bytes :=
  match u with
  | Decimal.Nil => []
  | Decimal.D0 u => x30 :: digits u
  | Decimal.D1 u => x31 :: digits u
  | Decimal.D2 u => x32 :: digits u
  | Decimal.D3 u => x33 :: digits u
  | Decimal.D4 u => x34 :: digits u
  | Decimal.D5 u => x35 :: digits u
  | Decimal.D6 u => x36 :: digits u
  | Decimal.D7 u => x37 :: digits u
  | Decimal.D8 u => x38 :: digits u
  | Decimal.D9 u => x39 :: digits u
  end.
(** [str(int)], as in the lines above. *)
Definition str_int (z : Z) : bytes :=
  if Z.ltb z 0 then x2d :: digits (N.to_uint (Z.to_N (- z))) else digits (N.to_uint (Z.to_N z)).

(** [str(x)] for an int or None. No counterpart: the text of None, for [str_opt]. *)
Definition NONE_TEXT : bytes := [x4e; x6f; x6e; x65].
(** No counterpart of its own: [str] of a start, stop or step of a slice. *)
Definition str_opt (x : option Z) : bytes :=
  match x with Some z => str_int z | None => NONE_TEXT end.

(** [slice(start, stop, step)] and its [str]. The slices in cipher_kdfs.py 60-81 and
    dual_output_shake_cipher_config.py 320-354. *)
Definition pyslice : Type := option Z * option Z * option Z.
(** No counterpart: a piece of the text of a slice. *)
Definition COMMA : bytes := [x2c; x20].
(** No counterpart of its own: [str] of a slice. *)
Definition str_slice (s : pyslice) : bytes :=
  let '(a, b, c) := s in
  [x73; x6c; x69; x63; x65; x28] ++ str_opt a ++ COMMA ++ str_opt b ++ COMMA ++ str_opt c ++ [x29].
(** [slice(a, b, 1)]. *)
Definition sl (a b : Z) : pyslice := (Some a, Some b, Some 1%Z).
(** [slice(a, None, 1)]. *)
Definition sl_from (a : Z) : pyslice := (Some a, None, Some 1%Z).

(** cipher_kdfs.py 60-81: the arguments of a KDF's configuration.  [ks_hasher_name]
    is [hasher().name]; the hasher itself is the one hasher of the model. *)
Record kdf_settings := {
  ks_name : bytes;
  ks_pad : bytes;
  ks_offset_amount : N;
  ks_hasher_name : bytes;
  ks_key_slice : option pyslice;
}.
(** cipher_kdfs.py 60-101: what CipherModel.v uses of it. *)
Definition kdf_config_of (k : kdf_settings) : kdf_config :=
  {| kc_name := ks_name k; kc_pad := ks_pad k; kc_offset_amount := ks_offset_amount k |}.
(** [str(kdf.key_slice)]. shake_permute_cipher_config.py 288-331,
    dual_output_shake_cipher_config.py 357-409. *)
Definition str_key_slice (k : kdf_settings) : bytes :=
  match ks_key_slice k with Some s => str_slice s | None => NONE_TEXT end.

(** shake_permute_cipher_config.py 147-168; dual_output_shake_cipher_config.py 176-202: the arguments.  Of
    the keys of KDF_CONFIGS (shmac_kdf, left_kdf, right_kdf) it is assumed that
    they are different; block_id_kdf is not used further.  Sizes are not negative. *)
Record settings := {
  st_type : cipher_type;
  st_name : bytes;
  st_config_id : bytes;
  st_blocksize : N;
  st_min_padding_blocks : N;
  st_epoch_ns : Z;
  st_time_unit : time_unit;
  st_timestamp_bytes : N;
  st_siv_key_bytes : N;
  st_shmac_bytes : N;
  st_block_id_bytes : N;
  st_max_block_id_bytes : N;
  st_min_block_id_bytes : N;
  st_salt_bytes : N;
  st_iv_bytes : N;
  st_block_id_kdf : kdf_settings;
  st_shmac_kdf : kdf_settings;
  st_left_kdf : kdf_settings;
  st_right_kdf : kdf_settings;
  st_permutation : chain_kind;
}.

(** The configuration object, once PACKED_METADATA is known: shake_permute_cipher_config.py 169-194; dual_output_shake_cipher_config.py 203-231. *)
Definition cfg_of (s : settings) (perm : chain_config) (meta : bytes) : cfg :=
  {| c_type := st_type s;
     c_config_id := st_config_id s;
     c_metadata := meta;
     c_blocksize := st_blocksize s;
     c_min_padding_blocks := st_min_padding_blocks s;
     c_clock := {| ck_unit := st_time_unit s; ck_epoch := st_epoch_ns s |};
     c_timestamp_bytes := st_timestamp_bytes s;
     c_siv_key_bytes := st_siv_key_bytes s;
     c_shmac_bytes := st_shmac_bytes s;
     c_block_id_bytes := st_block_id_bytes s;
     c_max_block_id_bytes := st_max_block_id_bytes s;
     c_min_block_id_bytes := st_min_block_id_bytes s;
     c_salt_bytes := st_salt_bytes s;
     c_iv_bytes := st_iv_bytes s;
     c_block_id_kdf := kdf_config_of (st_block_id_kdf s);
     c_shmac_kdf := kdf_config_of (st_shmac_kdf s);
     c_left_kdf := kdf_config_of (st_left_kdf s);
     c_right_kdf := kdf_config_of (st_right_kdf s);
     c_perm := perm |}.

(** PERMUTATION_CONFIG_ID: shake_permute_cipher_config.py 196-211, 250-274; dual_output_shake_cipher_config.py 290-307. *)
Definition permutation_size (s : settings) : N :=
  match st_type s with
  | ShakePermute => st_blocksize s
  | DualOutput => st_timestamp_bytes s + st_siv_key_bytes s
  end.

Section Settings.
Variable H : hasher.

(** PERMUTATION_TEST_VECTOR: shake_permute_cipher_config.py 250-274; dual_output_shake_cipher_config.py 290-307, 320-354. *)
Definition test_vector (s : settings) (perm : chain_config) : result bytes :=
  chain <- make_chain perm (h_digest H (st_config_id s) (Z.to_N (cc_key_size perm))) ;;
  x <- chain_permute chain 0 ;;
  z_to_bytes (permutation_size s) BigEndian x.

(** EMBEDDED_CAPACITY_BYTES, dual_output_shake_cipher_config.py 320-354; the floor of a possibly negative
    quotient. *)
Definition embedded_capacity (s : settings) : Z :=
  Z.div (Z.of_N (2 * rate H) - Z.of_N (st_blocksize s)) 2.

(** shake_permute_cipher_config.py 288-331; dual_output_shake_cipher_config.py 357-409 [_construct_metadata_constant]: the
    packed items.  [slices] are the items that only one of the two types has. *)
Definition metadata_items (s : settings) (perm : chain_config) : result (list bytes) :=
  let c := cfg_of s perm [] in
  let n := Z.of_N in
  epoch <- z_to_bytes 16 BigEndian (st_epoch_ns s) ;;
  blocksize <- to_bytes_be 2 (st_blocksize s) ;;
  min_padding <- to_bytes_be 2 (st_min_padding_blocks s) ;;
  primer <- to_bytes_be 2 (primer_key_bytes H c) ;;
  vector <- test_vector s perm ;;
  let ih := n (inner_header_bytes c) in
  let ec := embedded_capacity s in
  Ok ([st_name s;
       st_config_id s;
       epoch;
       blocksize;
       min_padding;
       str_slice (sl 0 (n (st_shmac_bytes s)));
       str_slice (sl 0 (n (st_block_id_bytes s)));
       str_slice (sl (n (st_shmac_bytes s)) (n (st_shmac_bytes s + st_salt_bytes s)));
       str_slice (sl (n (st_shmac_bytes s + st_salt_bytes s)) (n (header_bytes c)));
       str_slice (sl 0 (n (st_timestamp_bytes s)));
       str_slice (sl (n (st_timestamp_bytes s)) ih);
       str_slice (sl_from (- n (sentinel_bytes c)));
       primer;
       str_slice (sl 0 (n (rate H)));
       vector;
       str_int (n (permutation_size s));
       str_slice (sl_from (- n (permutation_key_bytes c)))]
      ++ match st_type s with
         | ShakePermute =>
           [str_slice (sl (n (2 * st_blocksize s)) (n (rate H)));
            str_slice (sl 0 (n (st_blocksize s)));
            str_slice (sl (n (st_blocksize s)) (n (2 * st_blocksize s)))]
         | DualOutput =>
           [str_slice (sl 0 ec);
            str_slice (sl_from (- ec));
            str_slice (sl ec (- ec));
            str_slice (sl_from ih);
            str_slice (sl (ec + Z.div ih 2) (- ec - Z.div ih 2));
            str_slice (sl_from (2 * ih))]
         end
      ++ [str_slice (sl_from (- n (st_shmac_bytes s)));
          ks_pad (st_block_id_kdf s);
          ks_hasher_name (st_block_id_kdf s);
          str_key_slice (st_block_id_kdf s);
          ks_pad (st_shmac_kdf s);
          ks_hasher_name (st_shmac_kdf s);
          str_key_slice (st_shmac_kdf s)]
      ++ match st_type s with
         | ShakePermute => []
         | DualOutput =>
           [ks_pad (st_left_kdf s);
            ks_hasher_name (st_left_kdf s);
            str_key_slice (st_left_kdf s);
            ks_pad (st_right_kdf s);
            ks_hasher_name (st_right_kdf s);
            str_key_slice (st_right_kdf s)]
         end).

(** PACKED_METADATA. shake_permute_cipher_config.py 288-331, dual_output_shake_cipher_config.py
    357-409. *)
Definition packed_metadata (s : settings) (perm : chain_config) : result bytes :=
  items <- metadata_items s perm ;;
  canonical_pack items 1 [x00] 1.

(** shake_permute_cipher_config.py 333-343, dual_output_shake_cipher_config.py 411-421 [_prepare_kdf_factories]. *)
Definition prepare_factories (c : cfg) : result unit :=
  _ <- kdf_factory H c (c_block_id_kdf c) ;;
  _ <- kdf_factory H c (c_shmac_kdf c) ;;
  match c_type c with
  | ShakePermute => Ok tt
  | DualOutput =>
    _ <- kdf_factory H c (c_left_kdf c) ;;
    _ <- kdf_factory H c (c_right_kdf c) ;;
    Ok tt
  end.

(** shake_permute_cipher_config.py 169-194, 345-355, dual_output_shake_cipher_config.py 203-231, 423-434 [__init__]; [mult] is the multiplier
    of the component permutation of that size.  Whether the time unit is one of the
    nine is not checked here (clocks.py 281). *)
Definition make_config (mult : Z) (s : settings) : result cfg :=
  perm <- make_chain_config (st_permutation s) (Z.of_N (permutation_size s)) mult ;;
  meta <- packed_metadata s perm ;;
  let c := cfg_of s perm meta in
  _ <- prepare_factories c ;;
  _ <- check_config H c ;;
  Ok c.

End Settings.

(** slick_256_config.py 35-79 and chunky_2048_config.py 37-97: the settings. *)
Definition SHAKE_128_NAME : bytes := [x73; x68; x61; x6b; x65; x5f; x31; x32; x38].
(** The default [key_slice], cipher_kdfs.py 60-81. *)
Definition WHOLE : pyslice := (None, None, None).
(** slick_256_config.py 35-79, chunky_2048_config.py 37-97. *)
Definition kdf_settings_of (name : bytes) (pad : byte) (s : pyslice) : kdf_settings :=
  {| ks_name := name; ks_pad := [pad]; ks_offset_amount := 0; ks_hasher_name := SHAKE_128_NAME;
     ks_key_slice := Some s |}.
(** slick_256_config.py 35-79. *)
Definition slick256_settings : settings :=
  {| st_type := ShakePermute;
     st_name := [x53;x6c;x69;x63;x6b;x32;x35;x36];
     st_config_id := [x53;x6c;x69;x63;x6b;x32;x35;x36];
     st_blocksize := 32; st_min_padding_blocks := 0;
     st_epoch_ns := EPOCH_NS; st_time_unit := Seconds;
     st_timestamp_bytes := 4; st_siv_key_bytes := 8; st_shmac_bytes := 24;
     st_block_id_bytes := 16; st_max_block_id_bytes := 32; st_min_block_id_bytes := 16;
     st_salt_bytes := 8; st_iv_bytes := 8;
     st_block_id_kdf := kdf_settings_of name_block_id_kdf x9a WHOLE;
     st_shmac_kdf := kdf_settings_of name_shmac_kdf xac WHOLE;
     st_left_kdf := kdf_settings_of name_left_kdf x5c WHOLE;     (* not used *)
     st_right_kdf := kdf_settings_of name_right_kdf x36 WHOLE;   (* not used *)
     st_permutation := FastChain |}.
(** chunky_2048_config.py 37-97. *)
Definition chunky2048_settings : settings :=
  {| st_type := DualOutput;
     st_name := [x43;x68;x75;x6e;x6b;x79;x32;x30;x34;x38];
     st_config_id := [x43;x68;x75;x6e;x6b;x79;x32;x30;x34;x38];
     st_blocksize := 256; st_min_padding_blocks := 0;
     st_epoch_ns := EPOCH_NS; st_time_unit := Seconds;
     st_timestamp_bytes := 4; st_siv_key_bytes := 16; st_shmac_bytes := 32;
     st_block_id_bytes := 24; st_max_block_id_bytes := 32; st_min_block_id_bytes := 16;
     st_salt_bytes := 8; st_iv_bytes := 8;
     st_block_id_kdf := kdf_settings_of name_block_id_kdf xac WHOLE;
     st_shmac_kdf := kdf_settings_of name_shmac_kdf x9a WHOLE;
     st_left_kdf := kdf_settings_of name_left_kdf x5c (Some 0%Z, None, Some 2%Z);
     st_right_kdf := kdf_settings_of name_right_kdf x36 (Some 1%Z, None, Some 2%Z);
     st_permutation := FastChain |}.
