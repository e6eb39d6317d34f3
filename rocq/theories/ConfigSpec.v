(** * Vocabulary for statements about configurations. *)
From Coq Require Import ZArith.
From Verif Require Import Base CanonModel PermModel ClockModel CipherModel DomainsModel ConfigModel.
Local Open Scope N_scope.

(** What the fingerprint of a configuration binds: everything but the time unit, the
    limits of block IDs, and the names and offsets of the KDFs. *)
Definition bound_kdf (k : kdf_settings) := (ks_pad k, ks_hasher_name k, ks_key_slice k).
Definition bound (s : settings) :=
  (st_type s, st_name s, st_config_id s, st_blocksize s, st_min_padding_blocks s, st_epoch_ns s,
   (st_timestamp_bytes s, st_siv_key_bytes s, st_shmac_bytes s, st_block_id_bytes s, st_salt_bytes s, st_iv_bytes s),
   st_permutation s,
   bound_kdf (st_block_id_kdf s), bound_kdf (st_shmac_kdf s),
   match st_type s with
   | ShakePermute => None
   | DualOutput => Some (bound_kdf (st_left_kdf s), bound_kdf (st_right_kdf s))
   end).

(** The same settings with another time unit. *)
Definition with_unit (u : time_unit) (s : settings) : settings :=
  {| st_type := st_type s; st_name := st_name s; st_config_id := st_config_id s;
     st_blocksize := st_blocksize s; st_min_padding_blocks := st_min_padding_blocks s;
     st_epoch_ns := st_epoch_ns s; st_time_unit := u;
     st_timestamp_bytes := st_timestamp_bytes s; st_siv_key_bytes := st_siv_key_bytes s;
     st_shmac_bytes := st_shmac_bytes s; st_block_id_bytes := st_block_id_bytes s;
     st_max_block_id_bytes := st_max_block_id_bytes s; st_min_block_id_bytes := st_min_block_id_bytes s;
     st_salt_bytes := st_salt_bytes s; st_iv_bytes := st_iv_bytes s;
     st_block_id_kdf := st_block_id_kdf s; st_shmac_kdf := st_shmac_kdf s;
     st_left_kdf := st_left_kdf s; st_right_kdf := st_right_kdf s;
     st_permutation := st_permutation s |}.

(** The same draws at another time. *)
Definition at_time (now : Z) (r : coins) : coins :=
  {| r_salt := r_salt r; r_iv := r_iv r; r_siv := r_siv r; r_extra := r_extra r; r_now := now |}.

(** The domain constant that a KDF of a configuration starts from. *)
Definition kdf_constant (H : hasher) (c : cfg) (k : kdf_config) : encoding :=
  {| e_constant := kc_name k ++ [x5f; x73; x61; x6c; x74] (* _salt *);
     e_size := 2 * h_block_size H; e_domain := c_config_id c; e_aad := c_metadata c; e_pad := [x00] |}.

(** The measures of a configuration which its checks accept.  The last block is what remains of
    whole blocks when the inner header and the sentinel are taken away. *)
Definition accepted_measures (H : hasher) (c : cfg) : Prop :=
  let header := c_timestamp_bytes c + c_siv_key_bytes c in
  let last_block := Z.modulo (Z.of_N (c_blocksize c) - Z.of_N header - Z.of_N (sentinel_bytes c)) (Z.of_N (c_blocksize c)) in
  match c_type c with
  | ShakePermute =>
      0 < c_blocksize c /\ 2 * c_blocksize c + 32 <= h_block_size H /\
      c_min_block_id_bytes c <= c_max_block_id_bytes c /\ (16 <= last_block)%Z
  | DualOutput =>
      (N.Even header /\ N.Even (c_blocksize c)) /\ 0 < c_blocksize c /\ c_blocksize c + 2 <= 2 * h_block_size H /\
      (16 <= last_block)%Z /\ c_min_block_id_bytes c <= c_max_block_id_bytes c /\
      header <= c_blocksize c /\ 2 * header <= h_block_size H
  end.

(** The positions that a slice of a long sequence selects, and what it selects of a list;
    for slices without a stop, with start and step not negative. *)
Definition selects (s : pyslice) (i : nat) : bool :=
  match s with
  | (start, None, step) =>
    let a := match start with Some a => a | None => 0%Z end in
    let n := match step with Some n => n | None => 1%Z end in
    ((a <=? Z.of_nat i) && ((Z.of_nat i - a) mod n =? 0))%Z
  | _ => false
  end.
Definition selection {A : Type} (s : pyslice) (l : list A) : list A :=
  map snd (filter (fun p => selects s (fst p)) (combine (seq 0 (length l)) l)).
