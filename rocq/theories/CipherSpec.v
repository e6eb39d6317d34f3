(** * Specification vocabulary for the ciphers. *)
From Coq Require Import ZArith.
From Verif Require Import Base PermModel ClockModel CanonModel GentoolsModel CipherModel.
Local Open Scope N_scope.

(** An extendable output function of a given block size ("rate"): it returns
    as many bytes as it is asked for.  Nothing else is assumed of it. *)
Record an_xof (r : N) (H : hasher) : Prop := {
  xof_is : h_is_xof H = true;
  xof_rate : h_block_size H = r;
  xof_len : forall absorbed n, blen (h_digest H absorbed n) = n;
}.

(** shake_128's block size. *)
Definition like_shake128 (H : hasher) : Prop := an_xof 168 H.

(** A cipher configuration that the constructors accept, whose permutation has
    the size of a block (or of the inner header), with a tag that the XOF can
    fill, one byte pads, and a sentinel of one byte. *)
Record valid_cfg (H : hasher) (c : cfg) : Prop := {
  vc_rate : 0 < h_block_size H < 2 ^ 56;
  vc_checked : check_config H c = Ok tt;
  vc_frame : padding_frame c <= 256;
  vc_tag : 1 <= c_shmac_bytes c <= 2 * h_block_size H;
  vc_salt : 1 <= c_salt_bytes c < 2 ^ 32;
  vc_iv : c_iv_bytes c < 2 ^ 32;
  vc_pads : forall k, In k [c_shmac_kdf c; c_left_kdf c; c_right_kdf c] ->
            exists p, kc_pad k = [p];
  vc_kdfs : forall k, In k [c_shmac_kdf c; c_left_kdf c; c_right_kdf c; c_block_id_kdf c] ->
            exists f, kdf_factory H c k = Ok f;
  vc_perm : exists kind mult,
            make_chain_config kind
              (Z.of_N (match c_type c with
                       | ShakePermute => c_blocksize c
                       | DualOutput => inner_header_bytes c
                       end)) mult = Ok (c_perm c);
}.

(** What an encryption draws has the right sizes, and the time can be written
    in the timestamp field. *)
Record valid_coins (c : cfg) (r : coins) : Prop := {
  vr_salt : blen (r_salt r) = c_salt_bytes c;
  vr_iv : blen (r_iv r) = c_iv_bytes c;
  vr_siv : blen (r_siv r) = c_siv_key_bytes c;
  vr_extra : blen (r_extra r) = padding_frame c;
  vr_now : (0 <= clock_time (c_clock c) (r_now r) < 256 ^ Z.of_N (c_timestamp_bytes c))%Z;
}.

(** The caller's salt has the right size if there is one. *)
Definition valid_salt (c : cfg) (salt : option bytes) : Prop :=
  match salt with None => True | Some s => blen s = c_salt_bytes c end.

(** Opening, at moment [now], data which was sealed at moment [made]: refused
    exactly when it is older than the limit, by that many units too late. *)
Definition opened (ck : clock) (made now : Z) (limit : option Z) (data : bytes)
    : result bytes :=
  match limit with
  | None => Ok data
  | Some l =>
    let age := (clock_time ck now - clock_time ck made)%Z in
    if (age <=? l)%Z then Ok data else Err (TimestampExpired (age - l)%Z)
  end.

(** The encrypting side's procedure for given padded text, salt and IV. *)
Definition seal (H : hasher) (c : cfg) (ks : kdfs) (salt aad iv padded : bytes)
    : result bytes :=
  b <- make_bundle H c ks (Some salt) aad None [] iv ;;
  b <- set_run_mode Sync b ;;
  s <- make_shmac H c b ;;
  s <- for_encryption b s ;;
  st <- junction Encryption Sync (b, s) ;;
  ' (blocks, (b, s)) <- combine_streams H c Encryption st (batch padded (c_blocksize c)) ;;
  ' (tag, _) <- finalize H c b s ;;
  Ok (tag ++ salt ++ iv ++ concat blocks).

(** Everything the tag's hash object has absorbed when a session with this key,
    salt, associated data and IV has processed this ciphertext body. *)
Definition absorbed (H : hasher) (c : cfg) (ks : kdfs) (salt aad iv body : bytes)
    : result bytes :=
  b <- make_bundle H c ks (Some salt) aad (Some iv) salt iv ;;
  b <- set_run_mode Sync b ;;
  s <- make_shmac H c b ;;
  ' (_, (b, _)) <- transform_blocks H c Decryption true (b, s) (batch body (c_blocksize c)) ;;
  Ok (b_mac b).

(** Two sessions with keys of one length, or with keys of any lengths but associated
    data, IVs and bodies of one length. *)
Definition comparable (key1 aad1 iv1 body1 key2 aad2 iv2 body2 : bytes) : Prop :=
  length key1 = length key2 \/
  (length aad1 = length aad2 /\ length iv1 = length iv2 /\ length body1 = length body2).

(** The tag squeezed from it: the last bytes of two output blocks. *)
Definition tag_of (H : hasher) (c : cfg) (x : bytes) : bytes :=
  drop (2 * h_block_size H - c_shmac_bytes c) (h_digest H x (2 * h_block_size H)).
