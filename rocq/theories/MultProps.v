From Coq Require Import ZArith Znumtheory Strings.String.
From Verif Require Import Base BaseFacts CanonModel CanonSpec PermModel PermSpec PermProofs PermProps CipherModel CipherSpec
  DomainsModel DomainsSpec DomainsProofs ConfigModel ConfigProofs MultModel MultSpec MultProofs
  PrimeProofs PrimeCerts1 PrimeCerts2 PrimeCerts3 PrimeCerts4.
Import ListNotations.
Local Open Scope list_scope.
Local Open Scope Z_scope.

(** C78: the number of bit switches that is computed is the number of neighbouring
    binary digits that differ. *)
Theorem C78_switches : forall n, 0 < n -> count_bit_switches n = changes n.
Proof. exact switches_changes. Qed.
Print Assumptions C78_switches.

Example C78_case_switches : count_bit_switches 307 = 4 /\ changes 307 = 4.
Proof. vm_compute. split; reflexivity. Qed.

(** C78: the multiplier that is derived is suitable, and it is the first candidate
    that is. *)
Theorem C78_first_suitable : forall H fuel size aad p k,
  prime_of size = Ok p -> derive_new_multiplier H fuel (Z.to_N size) aad p = Ok k ->
  suitable size k /\
  exists i, 0 <= i < Z.of_nat fuel /\ candidate H size aad p i k /\
    forall j, 0 <= j < i -> exists k', candidate H size aad p j k' /\ ~ suitable size k'.
Proof.
  intros H fuel size aad p k P E. rewrite (derive_search H size aad p P) in E.
  destruct (search_ok H size aad p P fuel 0 k E) as (i & I & C & S0 & B). split; [exact S0|]. exists i. auto.
Qed.
Print Assumptions C78_first_suitable.

(** C78: the search ends as soon as there is a suitable candidate; with one in the
    first 2^64 it raises nothing before. *)
Theorem C78_stops : forall H r size aad p i k fuel,
  an_xof r H -> (0 < r < 2 ^ 56)%N -> prime_of size = Ok p -> (blen aad < 2 ^ 64)%N ->
  0 <= i < 2 ^ 64 -> candidate H size aad p i k -> suitable size k -> i < Z.of_nat fuel ->
  exists k', derive_new_multiplier H fuel (Z.to_N size) aad p = Ok k'.
Proof.
  intros H r size aad p i k fuel X R P A I C S0 F. rewrite (derive_search H size aad p P).
  apply (search_stops H size aad p P (Z.to_nat i) 0 k); [| |exact S0|lia].
  - intros j J. apply (candidate_hash_total H r); auto. lia.
  - replace (0 + Z.of_nat (Z.to_nat i)) with i by lia. exact C.
Qed.
Print Assumptions C78_stops.

(** C78: for every registered size there are suitable numbers, and every one of them
    is the candidate made from some digest, so the search is not bound to fail. *)
Theorem C78_suitable_exists : forall size, shipped_size size ->
  exists k, suitable size k.
Proof. intros size S0. eexists. now apply witness_suitable. Qed.
Print Assumptions C78_suitable_exists.

Theorem C78_suitable_reachable : forall size k, 1 <= size -> suitable size k ->
  exists digest, blen digest = Z.to_N size /\ k = 2 ^ (4 * size) + be_z digest mod 2 ^ (4 * size).
Proof.
  intros size k S0 [_ R _].
  assert (P : 0 < 2 ^ (4 * size)) by (apply Z.pow_pos_nonneg; lia).
  assert (P2 : 2 ^ (4 * size + 1) = 2 * 2 ^ (4 * size)) by (rewrite Z.pow_add_r by lia; change (2 ^ 1) with 2; lia).
  set (h := Z.to_N (k - 2 ^ (4 * size))).
  assert (F : (h < 256 ^ Z.to_N size)%N).
  { apply N2Z.inj_lt. rewrite N2Z.inj_pow, Z2N.id by lia. unfold h. rewrite Z2N.id by lia.
    change (Z.of_N 256) with (2 ^ 8). rewrite <- Z.pow_mul_r by lia.
    assert (2 ^ (4 * size) <= 2 ^ (8 * size)) by (apply Z.pow_le_mono_r; lia). lia. }
  pose proof (to_bytes_be_fit (Z.to_N size) h F) as D. set (d := be_enc _ h) in D.
  exists d. split; [exact (to_bytes_be_len _ _ _ D)|].
  unfold be_z. rewrite (to_bytes_be_int _ _ _ D). unfold h. rewrite Z2N.id by lia. rewrite Z.mod_small by lia. lia.
Qed.
Print Assumptions C78_suitable_reachable.

(** C78: candidates of different numbers, sizes or additional data are digests of
    different hash inputs. *)
Theorem C78_candidates_apart : forall H s1 a1 i s2 a2 j p x,
  (h_block_size H < 2 ^ 56)%N -> 1 <= s1 -> 1 <= s2 -> 0 <= i -> 0 <= j ->
  hashed H (candidate_encoding (Z.to_N s1) a1 i p) = Ok x ->
  hashed H (candidate_encoding (Z.to_N s2) a2 j p) = Ok x ->
  s1 = s2 /\ a1 = a2 /\ i = j.
Proof.
  intros H s1 a1 i s2 a2 j p x B S1 S2 I J E1 E2.
  assert (E : candidate_encoding (Z.to_N s1) a1 i p = candidate_encoding (Z.to_N s2) a2 j p).
  { apply (hashed_inj H _ _ x B); cbn [candidate_encoding e_size]; auto; lia. }
  unfold candidate_encoding in E.
  assert (candidate_text i p = candidate_text j p /\ Z.to_N s1 = Z.to_N s2 /\ a1 = a2) as (T & S0 & A)
    by (split; [|split]; congruence).
  split; [lia|]. split; [exact A|]. exact (candidate_text_inj i j p I J T).
Qed.
Print Assumptions C78_candidates_apart.

(** C78: the moduli of the sizes up to 32 bytes are prime. *)
Theorem C78_modulus_prime : forall size, 1 <= size <= 32 ->
  exists p, prime_of size = Ok p /\ prime p /\ 2 ^ (8 * size) < p.
Proof.
  intros size B.
  assert (C : exists p, prime_of size = Ok p /\ prime p).
  { assert (In size [1;2;3;4;5;6;7;8;9;10;11;12;13;14;15;16;17;18;19;20;21;22;23;24;25;26;27;28;29;30;31;32])
      as I by (cbn [In]; lia).
    repeat (destruct I as [<-|I]; [|]); [..|destruct I].
    all: eexists; (split; [reflexivity|]).
    all: first [exact modulus_1|exact modulus_2|exact modulus_3|exact modulus_4|exact modulus_5|exact modulus_6
      |exact modulus_7|exact modulus_8|exact modulus_9|exact modulus_10|exact modulus_11|exact modulus_12
      |exact modulus_13|exact modulus_14|exact modulus_15|exact modulus_16|exact modulus_17|exact modulus_18
      |exact modulus_19|exact modulus_20|exact modulus_21|exact modulus_22|exact modulus_23|exact modulus_24
      |exact modulus_25|exact modulus_26|exact modulus_27|exact modulus_28|exact modulus_29|exact modulus_30
      |exact modulus_31|exact modulus_32]. }
  destruct C as (p & E & P). exists p. split; [exact E|]. split; [exact P|]. now destruct (prime_bits size p E) as (_ & _ & _ & L).
Qed.
Print Assumptions C78_modulus_prime.

(** C78: with a prime modulus a permutation can be made with every multiplier below
    it, so every derived multiplier has an inverse. *)
Theorem C78_config_made : forall H fuel size aad p k,
  prime_of size = Ok p -> prime p -> derive_new_multiplier H fuel (Z.to_N size) aad p = Ok k ->
  exists c, new_aff_config H fuel size aad = Ok c /\ make_aff_config size k = Ok c.
Proof.
  intros H fuel size aad p k P Q E. destruct (C78_first_suitable _ _ _ _ _ _ P E) as [[_ R _] _].
  destruct (prime_bits size p P) as (S0 & _ & _ & L).
  assert (1 <= size <= 256) by (unfold shipped_size in S0; lia).
  assert (0 < 2 ^ (4 * size)) by (apply Z.pow_pos_nonneg; lia).
  assert (2 ^ (4 * size + 1) <= 2 ^ (8 * size)) by (apply Z.pow_le_mono_r; lia).
  destruct (config_made size p k P Q ltac:(lia)) as [c C]. exists c. split; [|exact C].
  unfold new_aff_config. unfold process_size at 1. destruct (Z.geb_spec 4096 size); [|lia].
  destruct (Z.gtb_spec size 0); [|lia]. cbn [andb bind]. rewrite P. cbn [bind]. rewrite E. exact C.
Qed.
Print Assumptions C78_config_made.

(** C78: all together, for the sizes up to 32: if a candidate is suitable, the
    configuration is made and its permutations are bijections with inverses. *)
Theorem C78_permutation_made : forall H r size aad p i k fuel key,
  an_xof r H -> (0 < r < 2 ^ 56)%N -> 1 <= size <= 32 -> prime_of size = Ok p -> (blen aad < 2 ^ 64)%N ->
  0 <= i < 2 ^ 64 -> candidate H size aad p i k -> suitable size k -> i < Z.of_nat fuel ->
  zlen key = 2 * size ->
  exists c a, new_aff_config H fuel size aad = Ok c /\ make_aff c key = Ok a /\
    inverse_bijections size (aff_permute a) (aff_invert a).
Proof.
  intros H r size aad p i k fuel key X R S0 P A I C S1 F L.
  destruct (C78_stops H r size aad p i k fuel X R P A I C S1 F) as [k' E].
  destruct (C78_modulus_prime size S0) as (p' & P' & Q & _). rewrite P in P'. apply Ok_inj in P'. subst p'.
  destruct (C78_config_made H fuel size aad p k' P Q E) as (c & N & M).
  destruct (make_aff_config_wf _ _ _ M) as (W & Es & _).
  assert (ac_key_size c = 2 * size).
  { unfold make_aff_config, process_size in M. destruct (_ && _)%bool; [|discriminate M]. cbn [bind] in M.
    rewrite P in M. cbn [bind] in M. apply bind_ok in M as (inv & _ & M). apply Ok_inj in M. subst c. reflexivity. }
  exists c, {| af_config := c; af_add := be_z key |}. split; [exact N|].
  assert (K : make_aff c key = Ok {| af_config := c; af_add := be_z key |}).
  { unfold make_aff. destruct (Z.eqb_spec (zlen key) (ac_key_size c)); [reflexivity|lia]. }
  split; [exact K|]. exact (C11_affine_bijection size k' c key _ M K).
Qed.
Print Assumptions C78_permutation_made.

(** A case: a hash function of which the first candidate for one byte is 5 = 101 after
    the top bit, 21, and the search returns it at once; and one whose
    candidates all have too few changes for 16 bytes, so that the search goes on. *)
Definition constant_xof (b : byte) : hasher :=
  {| h_block_size := 168; h_digest_size := 0; h_is_xof := true; h_digest := fun _ n => repeat b (N.to_nat n) |}.
Example C78_case : an_xof 168 (constant_xof x05) /\
  candidate (constant_xof x05) 1 [] 257 0 21 /\ suitable 1 21 /\
  derive_new_multiplier (constant_xof x05) 1 1 [] 257 = Ok 21 /\
  derive_new_multiplier (constant_xof x01) 3 16 [] (2 ^ 128 + 51) = Err Diverges.
Proof.
  split; [constructor; try reflexivity; intros; cbn; unfold blen; now rewrite repeat_length, N2Nat.id|].
  split; [eexists; split; vm_compute; reflexivity|].
  split; [apply suitableb_ok; [lia|reflexivity]|].
  split; vm_compute; reflexivity.
Qed.
