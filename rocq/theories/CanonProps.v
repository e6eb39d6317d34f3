(** * Properties C01-C07 (canonical encoding and hashing inputs). *)
From Verif Require Import Base BaseFacts CanonModel CanonSpec CanonProofs.
Local Open Scope N_scope.

(** C01: unpacking a packed sequence returns the sequence. *)
Theorem C01_canonical_roundtrip : forall items blocksize pad int_bytes x,
  canonical_pack items blocksize pad int_bytes = Ok x -> python_sized x ->
  canonical_unpack x = Ok items.
Proof. exact canonical_roundtrip. Qed.
Print Assumptions C01_canonical_roundtrip.

(** C01: and packing succeeds whenever the metadata fits the width. *)
Theorem C01_canonical_pack_total : forall items blocksize p int_bytes,
  fits int_bytes blocksize items ->
  exists x, canonical_pack items blocksize [p] int_bytes = Ok x.
Proof. exact canonical_pack_total. Qed.
Print Assumptions C01_canonical_pack_total.

(** C01: failures of packing are TypeError for a pad that is not one byte,
    or metadata that does not fit. *)
Theorem C01_canonical_pack_errors : forall items blocksize pad int_bytes e,
  canonical_pack items blocksize pad int_bytes = Err e ->
  (e = OverflowErr \/ e = ZeroDivisionErr \/ e = TypeErr) /\
  (length pad = 1%nat -> ~ fits int_bytes blocksize items).
Proof. exact canonical_pack_errors. Qed.
Print Assumptions C01_canonical_pack_errors.

Example C01_case :
  exists x, canonical_pack [[x61]; []; [x62; x00]] 16 [x00] 8 = Ok x /\ python_sized x.
Proof. eexists. split. { vm_compute; reflexivity. } { vm_compute; reflexivity. } Qed.
Example C01_case_fits : fits 8 16 [[x61]; []; [x62; x00]].
Proof.
  unfold fits. split; [split; vm_compute; discriminate|].
  split; [split; [vm_compute; discriminate|vm_compute; reflexivity]|].
  split; [vm_compute; reflexivity|].
  repeat (apply Forall_cons; [vm_compute; reflexivity|]). apply Forall_nil.
Qed.

(** C02: the packed bytes determine items, blocksize, pad and width. *)
Theorem C02_canonical_pack_injective : forall i1 b1 p1 w1 i2 b2 p2 w2 x,
  canonical_pack i1 b1 p1 w1 = Ok x -> canonical_pack i2 b2 p2 w2 = Ok x ->
  i1 = i2 /\ b1 = b2 /\ p1 = p2 /\ w1 = w2.
Proof. exact canonical_pack_inj. Qed.
Print Assumptions C02_canonical_pack_injective.

Example C02_case : is_ok (canonical_pack [[x61; x62]] 8 [x00] 2) = true /\
  is_ok (canonical_pack [[x61]; [x62]] 8 [x00] 2) = true.
Proof. vm_compute. split; reflexivity. Qed.

(** C03: the packed bytes are laid out as documented: width, field count,
    framed blocksize, pad and items, then fewer than [blocksize] pads, up to a
    multiple of [blocksize]. *)
Theorem C03_canonical_pack_layout : forall items blocksize pad int_bytes x,
  canonical_pack items blocksize pad int_bytes = Ok x ->
  exists p k blob, pad = [p] /\ fits int_bytes blocksize items /\
    layout int_bytes blob p items k x /\
    blen blob = int_bytes /\ be_int blob = blocksize /\
    N.of_nat k < blocksize /\ blen x mod blocksize = 0.
Proof. exact canonical_pack_layout. Qed.
Print Assumptions C03_canonical_pack_layout.

Example C03_case : exists x, canonical_pack [[x61]] 7 [x2d] 3 = Ok x /\ blen x = 21.
Proof. eexists. split; [vm_compute; reflexivity|reflexivity]. Qed.

(** C04 (restricted): accepted bytes are an encoding of the returned items,
    except that zero bytes at the very end may be missing if the last item is
    empty.  The full statement (no exception) is refuted below. *)
Theorem C04_canonical_unpack_sound_partial : forall x items,
  canonical_unpack x = Ok items ->
  exists w blob p k j,
    layout w blob p items k (x ++ repeat x00 j) /\ be_int blob <> 0 /\
    blen x mod be_int blob = 0 /\
    (j = O \/ (k = O /\ exists init, items = init ++ [[]])).
Proof. exact canonical_unpack_sound. Qed.
Print Assumptions C04_canonical_unpack_sound_partial.

(** C04: every well-formed encoding is accepted. *)
Theorem C04_canonical_unpack_complete : forall w blob p items k x,
  python_sized x ->
  layout w blob p items k x -> be_int blob <> 0 -> blen x mod be_int blob = 0 ->
  canonical_unpack x = Ok items.
Proof. exact canonical_unpack_complete. Qed.
Print Assumptions C04_canonical_unpack_complete.

(** C04: the full statement is false: a truncated encoding is accepted. *)
Theorem C04_canonical_unpack_exact_refuted : exists x items,
  canonical_unpack x = Ok items /\
  forall w blob p k, ~ layout w blob p items k x.
Proof.
  exact (ex_intro _ _ (ex_intro _ _
    (conj truncated_accepted (fun w blob p k => truncated_no_layout w blob p _ k)))).
Qed.
Print Assumptions C04_canonical_unpack_exact_refuted.

(** C04: an impossible item count is refused outright. *)
Theorem C04_inflated_count_rejected : forall s count rest,
  blen count = bval s ->
  1 + blen count + blen rest < bval s * (be_int count + 1) + 3 ->
  canonical_unpack (s :: count ++ rest) = Err (CanonicalEncodingError InflatedSizeDeclaration).
Proof. exact inflated_rejected. Qed.
Print Assumptions C04_inflated_count_rejected.

Example C04_case : exists x, canonical_pack [[x61]; []] 4 [x00] 2 = Ok x /\
  canonical_unpack x = Ok [[x61]; []] /\
  canonical_unpack (x ++ repeat x00 4) = Ok [[x61]; []].
Proof. eexists. split; [vm_compute; reflexivity|]. split; vm_compute; reflexivity. Qed.
Example C04_case_inflated : blen [xff; xff] = bval x02 /\
  1 + blen [xff; xff] + blen (repeat x00 40) < bval x02 * (be_int [xff; xff] + 1) + 3.
Proof. vm_compute. split; reflexivity. Qed.

(** C05 (restricted): the only exceptions which escape besides the documented
    family are ZeroDivisionError and OverflowError. *)
Theorem C05_canonical_unpack_errors_partial : forall x e,
  canonical_unpack x = Err e ->
  canonical_error e \/ e = ZeroDivisionErr \/ e = OverflowErr.
Proof. exact canonical_unpack_err. Qed.
Print Assumptions C05_canonical_unpack_errors_partial.

(** C05: a six byte input with declared blocksize zero: ZeroDivisionError. *)
Theorem C05_zero_blocksize_refuted :
  canonical_unpack [x01; x02; x00; x01; x00; x00] = Err ZeroDivisionErr.
Proof. exact (eq_refl (Err ZeroDivisionErr)). Qed.
Print Assumptions C05_zero_blocksize_refuted.

(** C05: a declared item length of 2^64-1: OverflowError. *)
Theorem C05_huge_item_refuted :
  canonical_unpack ([x08] ++ be_enc 8 1 ++ repeat xff 8 ++ [x00; x00]) = Err OverflowErr.
Proof. exact (eq_refl (Err OverflowErr)). Qed.
Print Assumptions C05_huge_item_refuted.

(** C06: a key encoding is the key, its length, the blocksize, then pads, up to
    a multiple of the blocksize; empty keys are refused. *)
Theorem C06_encode_key_layout : forall key blocksize pad x,
  encode_key key blocksize pad = Ok x <->
  exists p k, pad = [p] /\ key <> [] /\ blocksize <> 0 /\ blocksize < 2 ^ 64 /\
    blen key < 2 ^ 64 /\
    x = key ++ le_enc 8 (blen key) ++ le_enc 8 blocksize ++ repeat p (S k) /\
    N.of_nat k < blocksize /\ blen x mod blocksize = 0.
Proof. exact encode_key_ok. Qed.
Print Assumptions C06_encode_key_layout.

Theorem C06_encode_key_injective : forall k1 k2 blocksize p1 p2 x,
  blocksize < 2 ^ 56 ->
  encode_key k1 blocksize p1 = Ok x -> encode_key k2 blocksize p2 = Ok x ->
  k1 = k2 /\ p1 = p2.
Proof. exact encode_key_inj. Qed.
Print Assumptions C06_encode_key_injective.

Theorem C06_encode_key_total : forall key blocksize p,
  key <> [] -> 0 < blocksize < 2 ^ 64 -> blen key < 2 ^ 64 ->
  exists x, encode_key key blocksize [p] = Ok x.
Proof. exact encode_key_total. Qed.
Print Assumptions C06_encode_key_total.

Theorem C06_encode_key_empty : forall blocksize pad,
  encode_key [] blocksize pad = Err ValueErr.
Proof. exact (fun _ _ => eq_refl). Qed.
Print Assumptions C06_encode_key_empty.

Example C06_case : exists x, encode_key [x01; x02] 72 [x00] = Ok x /\ blen x = 72 /\ 72 < 2 ^ 56.
Proof. eexists. split; [vm_compute; reflexivity|]. split; reflexivity. Qed.

(** C07: under one key (or keys of one length, or no key) the absorbed bytes
    determine all inputs of the hash. *)
Theorem C07_hash_inputs_separated : forall h c1 p1 s1 k1 c2 p2 s2 k2 x,
  keys_comparable k1 k2 -> h_block_size h < 2 ^ 56 ->
  hash_bytes_absorbed h c1 p1 s1 k1 = Ok x ->
  hash_bytes_absorbed h c2 p2 s2 k2 = Ok x ->
  c1 = c2 /\ p1 = p2 /\ k1 = k2 /\
  size_or s1 (h_digest_size h) = size_or s2 (h_digest_size h).
Proof. exact hash_absorbed_inj. Qed.
Print Assumptions C07_hash_inputs_separated.

(** Likewise for keys of different lengths, as long as they fill up the same number
    of blocks. *)
Theorem C07_hash_inputs_separated_by_blocks : forall h c1 p1 s1 k1 c2 p2 s2 k2 x,
  keys_of_same_blocks (h_block_size h) k1 k2 -> h_block_size h < 2 ^ 56 ->
  hash_bytes_absorbed h c1 p1 s1 k1 = Ok x ->
  hash_bytes_absorbed h c2 p2 s2 k2 = Ok x ->
  c1 = c2 /\ p1 = p2 /\ k1 = k2 /\
  size_or s1 (h_digest_size h) = size_or s2 (h_digest_size h).
Proof. exact hash_absorbed_inj_blocks. Qed.
Print Assumptions C07_hash_inputs_separated_by_blocks.

Example C07_case_blocks : forall digest,
  keys_of_same_blocks (h_block_size (sha3_512_like digest)) (Some [x01]) (Some (repeat x02 55)) /\
  is_ok (hash_bytes_absorbed (sha3_512_like digest) [[x61]; [x62]] [x00] None (Some (repeat x02 55))) = true.
Proof. intros. vm_compute. split; reflexivity. Qed.

(** C07: keys of all lengths, and unkeyed calls, are separated if the two
    collections are of items as long as each other. *)
Theorem C07_keys_of_all_lengths_separated : forall h c1 p1 s1 k1 c2 p2 s2 k2 x,
  map blen c1 = map blen c2 -> h_block_size h < 2 ^ 56 ->
  hash_bytes_absorbed h c1 p1 s1 k1 = Ok x -> hash_bytes_absorbed h c2 p2 s2 k2 = Ok x ->
  c1 = c2 /\ p1 = p2 /\ k1 = k2 /\
  size_or s1 (h_digest_size h) = size_or s2 (h_digest_size h).
Proof. exact hash_absorbed_inj_items. Qed.
Print Assumptions C07_keys_of_all_lengths_separated.

(** C07: the digest is that of what was absorbed, of the size that was asked for or else of the
    size of the function.  A function without a size of its own must be told one, the others must
    not: TypeError. *)
Theorem C07_digest_of_what_was_absorbed : forall h c p s k x, hash_bytes_absorbed h c p s k = Ok x ->
  hash_bytes h c p s k =
    match s with
    | Some (Npos n) => if h_is_xof h then Ok (h_digest h x (Npos n)) else Err TypeErr
    | _ => if h_is_xof h then Err TypeErr else Ok (h_digest h x (h_digest_size h))
    end.
Proof. intros h c p s k x E. unfold hash_bytes. rewrite E. destruct s as [[|n]|]; cbn; destruct (h_is_xof h); reflexivity. Qed.
Print Assumptions C07_digest_of_what_was_absorbed.
Example C07_case_lengths : forall digest,
  let h := {| h_block_size := 168; h_digest_size := 0; h_is_xof := true; h_digest := digest |} in
  exists x y, hash_bytes_absorbed h [[x41]] [x00] (Some 64) (Some [x01]) = Ok x /\
    hash_bytes_absorbed h [[x42]] [x00] (Some 64) (Some (repeat x01 200)) = Ok y /\ bytes_eqb x y = false.
Proof. intros digest h. eexists _, _. split; [vm_compute; reflexivity|]. split; [vm_compute; reflexivity|]. vm_compute. reflexivity. Qed.

(** C07, negative side: a keyed and an unkeyed call can absorb the same bytes,
    so they have the same digest for every hash function of block size 72. *)
Theorem C07_keyed_unkeyed_separation_refuted : forall digest,
  exists key item d,
    hash_bytes (sha3_512_like digest) [] [x00] None (Some key) = Ok d /\
    hash_bytes (sha3_512_like digest) [item] [x00] None None = Ok d.
Proof. exact (fun digest => ex_intro _ coll_key (ex_intro _ coll_item (coll_hash digest))). Qed.
Print Assumptions C07_keyed_unkeyed_separation_refuted.

Example C07_case : forall digest, h_block_size (sha3_512_like digest) < 2 ^ 56 /\
  keys_comparable (Some [x01]) (Some [x02]) /\
  is_ok (hash_bytes_absorbed (sha3_512_like digest) [[x61]; [x62]] [x00] None (Some [x01])) = true.
Proof. intros. vm_compute. repeat split. Qed.
