(** * Properties C74, C75 (names of salt files, names of files). *)
From Verif Require Import Base BaseFacts CanonModel CanonSpec CanonProofs TransformModel TransformSpec GentoolsModel NameModel NameSpec NameProofs.
Local Open Scope N_scope.

(** C74: condensing whole blocks is their bytewise XOR; *)
Theorem C74_condensed_is_xor : forall size blocks,
  0 < size -> Forall (fun b => blen b = size) blocks ->
  xi_mix (concat blocks) size = Ok (xor_blocks size blocks).
Proof. exact xi_mix_blocks. Qed.
Print Assumptions C74_condensed_is_xor.

(** a shorter last piece counts as if zeros came before it. *)
Theorem C74_short_last_piece : forall size blocks last,
  0 < size -> Forall (fun b => blen b = size) blocks -> 0 < blen last <= size ->
  xi_mix (concat blocks ++ last) size =
    Ok (xor_blocks size (blocks ++ [repeat x00 (N.to_nat (size - blen last)) ++ last])).
Proof. exact xi_mix_last. Qed.
Print Assumptions C74_short_last_piece.

(** C74: a name is made exactly for sizes of 1 to 16 and keys of at least twice the
    size; anything else is a ValueError. *)
Theorem C74_accepted : forall sha3_256 key size,
  if (Z.leb 1 size && Z.leb size 16 && Z.leb (2 * size) (Z.of_N (blen key)))%bool
  then exists name, deniable_filename sha3_256 key size = Ok name
  else deniable_filename sha3_256 key size = Err ValueErr.
Proof.
  intros sha key size. destruct (name_cases sha key size) as [(S1 & S2 & _)|[C E]].
  - destruct (name_ok sha key size S1 S2) as (m & f & _ & _ & E & _).
    destruct (Z.leb_spec 1 size); [|lia]. destruct (Z.leb_spec size 16); [|lia].
    destruct (Z.leb_spec (2 * size) (Z.of_N (blen key))); [|lia]. now exists f.
  - destruct (Z.leb_spec 1 size); [|exact E]. destruct (Z.leb_spec size 16); [|exact E].
    destruct (Z.leb_spec (2 * size) (Z.of_N (blen key))); [exfalso; apply C; lia|exact E].
Qed.
Print Assumptions C74_accepted.

(** C74: the name is deniable: whatever key it was made for, and whatever key its
    holder wants to show instead, replacing one block of the shown key gives the name. *)
Theorem C74_deniable : forall sha3_256 key size name before after,
  deniable_filename sha3_256 key size = Ok name ->
  whole_blocks (Z.to_N size) before -> Z.to_N size <= blen before + blen after ->
  exists block, blen block = Z.to_N size /\
    deniable_filename sha3_256 (before ++ block ++ after) size = Ok name.
Proof. exact name_forge. Qed.
Print Assumptions C74_deniable.

(** Exactly one block of that size gives a wanted condensed value. *)
Theorem C74_one_block : forall size before after wanted,
  0 < size -> whole_blocks size before -> blen wanted = size ->
  exists block, blen block = size /\ forall block', blen block' = size ->
    (xi_mix (before ++ block' ++ after) size = Ok wanted <-> block' = block).
Proof. exact xi_mix_forge. Qed.
Print Assumptions C74_one_block.

(** C74: two keys have the same name only if they condense to the same value or
    the two different values are a collision of the first 24 bytes of the hash. *)
Theorem C74_same_name : forall sha3_256 k1 s1 k2 s2 name,
  (forall x, blen (sha3_256 x) = 32) ->
  deniable_filename sha3_256 k1 s1 = Ok name -> deniable_filename sha3_256 k2 s2 = Ok name ->
  exists m1 m2, xi_mix k1 (Z.to_N s1) = Ok m1 /\ xi_mix k2 (Z.to_N s2) = Ok m2 /\
    (m1 = m2 \/ m1 <> m2 /\ take 24 (sha3_256 m1) = take 24 (sha3_256 m2)).
Proof.
  intros sha k1 s1 k2 s2 name HL E1 E2.
  destruct (name_collision sha k1 s1 k2 s2 name HL E1 E2) as (m1 & m2 & M1 & M2 & E).
  exists m1, m2. split; [exact M1|]. split; [exact M2|].
  destruct (bytes_eqb m1 m2) eqn:B; [left; now apply bytes_eqb_eq|right].
  apply bytes_eqb_neq in B. tauto.
Qed.
Print Assumptions C74_same_name.

(** With different sizes the condensed values differ. *)
Theorem C74_condensed_size : forall key size m, xi_mix key size = Ok m -> blen m = size.
Proof. exact (fun key size m => xi_mix_len size key m). Qed.
Print Assumptions C74_condensed_size.

(** A hash of 32 bytes that repeats its input. *)
Definition name_hash (x : bytes) : bytes := take 32 (x ++ repeat x07 32).
Lemma name_hash_len x : blen (name_hash x) = 32.
Proof. unfold name_hash. rewrite blen_take, blen_app, blen_repeat. lia. Qed.

Example C74_case : exists name,
  deniable_filename name_hash [x01; x02; x03; x04; x05] 2 = Ok name /\
  whole_blocks (Z.to_N 2) [x61; x62] /\ Z.to_N 2 <= blen [x61; x62] + blen [x7a] /\
  deniable_filename name_hash ([x61; x62] ++ [x63; x1b] ++ [x7a]) 2 = Ok name.
Proof.
  eexists. split; [vm_compute; reflexivity|]. split; [reflexivity|]. split; [vm_compute; discriminate|].
  vm_compute. reflexivity.
Qed.
Example C74_case_blocks : Forall (fun b => blen b = 2) [[x01; x02]; [x03; x04]] /\
  xi_mix [x01; x02; x03; x04; x05] 2 = Ok [x02; x03] /\ 0 < blen [x05] <= 2.
Proof. split; [repeat constructor|]. split; [reflexivity|]. vm_compute. split; [reflexivity|discriminate]. Qed.

(** C75: whatever bytes a file name is made of, it consists of lower case letters,
    digits, minus and underscore and is not empty, so that it stays in its directory
    and names that differ still differ where case does not count. *)
Theorem C75_names_safe : forall value, exists name,
  bytes_to_filename value = Ok name /\ name <> [] /\ Forall safe_char name /\
  name <> [x2e] /\ name <> [x2e; x2e] /\ ~ In x2f name /\ ~ In x5c name /\ ~ In x00 name.
Proof.
  intros value. destruct (filename_shape value) as (f & E & NE & S0 & _). exists f.
  assert (Bad : forall c, ~ safe_char c -> ~ In c f).
  { intros c C I. apply C. eapply Forall_forall in S0; eauto. }
  assert (D : forall c, c = x2e \/ c = x2f \/ c = x5c \/ c = x00 -> ~ safe_char c).
  { intros c C [H|[H|[H|H]]]; destruct C as [->|[->|[->| ->]]]; try discriminate H;
      destruct H as [H1 H2]; vm_compute in H1, H2; congruence. }
  split; [exact E|]. split; [exact NE|]. split; [exact S0|].
  split; [intros ->; apply (Bad x2e); [apply D; tauto|now left]|].
  split; [intros ->; apply (Bad x2e); [apply D; tauto|now left]|].
  split; [|split]; apply Bad, D; tauto.
Qed.
Print Assumptions C75_names_safe.

(** C75: the names of salt files (and of all values of 24 bytes) have at most 37
    characters. *)
Theorem C75_names_short : forall sha3_256 key size name,
  (forall x, blen (sha3_256 x) = 32) ->
  deniable_filename sha3_256 key size = Ok name -> 1 <= blen name <= 37.
Proof. exact name_short. Qed.
Print Assumptions C75_names_short.
Theorem C75_hashed_names_short : forall value name,
  blen value = 24 -> bytes_to_filename value = Ok name -> 1 <= blen name <= 37.
Proof. exact filename_len24. Qed.
Print Assumptions C75_hashed_names_short.

(** 37 is reached. *)
Example C75_case : exists name, bytes_to_filename (repeat xff 24) = Ok name /\ blen name = 37.
Proof. eexists. split; vm_compute; reflexivity. Qed.

(** C75: the guards of two files are the same only if the paths (and what else was
    given) are, or the two hashed inputs are a collision. *)
Theorem C75_guards_of_files : forall shake_128 domain f1 aad1 f2 aad2 size key d,
  h_block_size shake_128 < 2 ^ 56 ->
  filename_to_index_key shake_128 domain f1 aad1 size key = Ok d ->
  filename_to_index_key shake_128 domain f2 aad2 size key = Ok d ->
  (f1, aad1) <> (f2, aad2) ->
  exists x y, x <> y /\
    hash_bytes_absorbed shake_128 (domain :: f1 :: aad1) [x00] (Some size) key = Ok x /\
    hash_bytes_absorbed shake_128 (domain :: f2 :: aad2) [x00] (Some size) key = Ok y /\
    call_digest shake_128 x (truthy_size (Some size)) = Ok d /\ call_digest shake_128 y (truthy_size (Some size)) = Ok d.
Proof.
  intros H dom f1 a1 f2 a2 size key d B E1 E2 NE. unfold filename_to_index_key, hash_bytes in *.
  apply bind_ok in E1 as (x & X & E1). apply bind_ok in E2 as (y & Y & E2).
  exists x, y. split; [|auto]. intros <-. apply NE.
  assert (C : keys_comparable key key) by (destruct key; cbn; auto).
  destruct (hash_absorbed_inj H _ _ _ _ _ _ _ _ x C B X Y) as (E & _). congruence.
Qed.
Print Assumptions C75_guards_of_files.
