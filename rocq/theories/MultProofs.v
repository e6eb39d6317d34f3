From Coq Require Import ZArith Znumtheory Decimal DecimalFacts DecimalN Strings.String.
From Verif Require Import Base BaseFacts CanonModel CanonSpec CanonProofs PermModel PermSpec PermProofs CipherModel CipherSpec CipherProofs
  ShippedProofs DomainsModel DomainsSpec DomainsProofs ConfigModel ConfigProofs MultModel MultSpec.
Import ListNotations.
Local Open Scope list_scope.
Local Open Scope Z_scope.

(** ** Counting the changes *)
Lemma count_loop_app l : forall cur c b,
  count_loop cur c (l ++ [b]) = count_loop cur c l + (if Bool.eqb b (last l cur) then 0 else 1).
Proof.
  induction l as [|x l IH]; intros cur c b.
  - cbn. destruct (Bool.eqb b cur); cbn; lia.
  - cbn [app count_loop]. destruct (Bool.eqb x cur) eqn:E; cbn [negb].
    + rewrite IH. apply Bool.eqb_prop in E. subst x. f_equal. f_equal. now destruct l.
    + rewrite IH. f_equal. f_equal. destruct l; [reflexivity|]. cbn [last].
      generalize b0. clear. induction l as [|y l IH]; intros z; [reflexivity|]. cbn [last]. apply IH.
Qed.
Lemma count_loop_shift l : forall cur c, count_loop cur c l = count_loop cur 0 l + c.
Proof.
  induction l as [|x l IH]; intros cur c; [cbn; lia|]. cbn [count_loop]. destruct (negb _).
  - rewrite IH, (IH x (0 + 1)). lia.
  - now rewrite IH.
Qed.

Lemma binary_last p : forall d, last (binary_pos p) d = Z.odd (Zpos p).
Proof. destruct p; intros d; cbn [binary_pos]; rewrite ?last_last; reflexivity. Qed.
Lemma binary_not_nil p : binary_pos p <> [].
Proof. destruct p; cbn; [| |discriminate]; intros E; now apply app_eq_nil in E as [_ E]. Qed.
Lemma binary_first p : exists l, binary_pos p = true :: l.
Proof.
  induction p as [p [l E]|p [l E]|]; cbn [binary_pos].
  - exists (l ++ [true]). now rewrite E.
  - exists (l ++ [false]). now rewrite E.
  - now exists [].
Qed.
Lemma switches_pos p : count_bit_switches (Zpos p) = count_loop true 0 (binary_pos p).
Proof. unfold count_bit_switches. cbn [binary]. destruct (binary_first p) as [l ->]. reflexivity. Qed.

Lemma changes_step b p :
  let n := 2 * Zpos p + Z.b2z b in
  changes n = changes (Zpos p) + (if Bool.eqb b (Z.odd (Zpos p)) then 0 else 1).
Proof.
  intros n. unfold changes.
  assert (L : Z.log2 n = Z.succ (Z.log2 (Zpos p))).
  { unfold n. destruct b; cbn [Z.b2z].
    - apply Z.log2_succ_double. lia.
    - rewrite Z.add_0_r. apply Z.log2_double. lia. }
  rewrite L, Z2Nat.inj_succ by apply Z.log2_nonneg. cbn [seq filter].
  assert (T0 : Z.testbit n 0 = b) by (unfold n; apply Z.testbit_0_r).
  assert (TS : forall j, 0 <= j -> Z.testbit n (j + 1) = Z.testbit (Zpos p) j).
  { intros j J. unfold n. change (j + 1) with (Z.succ j). now apply Z.testbit_succ_r. }
  assert (F : length (filter (fun j => xorb (Z.testbit n (Z.of_nat j)) (Z.testbit n (Z.of_nat j + 1)))
                        (seq 1 (Z.to_nat (Z.log2 (Zpos p)))))
            = length (filter (fun j => xorb (Z.testbit (Zpos p) (Z.of_nat j)) (Z.testbit (Zpos p) (Z.of_nat j + 1)))
                        (seq 0 (Z.to_nat (Z.log2 (Zpos p)))))).
  { rewrite <- seq_shift. generalize (seq 0 (Z.to_nat (Z.log2 (Z.pos p)))) as l.
    induction l as [|j l IH]; [reflexivity|]. cbn [map filter].
    replace (Z.of_nat (Datatypes.S j)) with (Z.of_nat j + 1) by lia.
    rewrite (TS (Z.of_nat j)) by lia. rewrite (TS (Z.of_nat j + 1)) by lia.
    destruct (xorb _ _); cbn [length]; now rewrite IH. }
  change (Z.of_nat 0) with 0. change (0 + 1) with (0 + 1). rewrite T0, (TS 0) by lia.
  rewrite Z.bit0_odd. destruct b, (Z.odd (Z.pos p)); cbn [xorb Bool.eqb length]; rewrite F; lia.
Qed.

Lemma switches_changes n : 0 < n -> count_bit_switches n = changes n.
Proof.
  destruct n as [|p|p]; [lia| |lia]. intros _. induction p as [p IH|p IH|].
  - rewrite switches_pos in *. cbn [binary_pos]. rewrite count_loop_app, binary_last, IH.
    pose proof (changes_step true p) as C. cbn zeta in C. cbn [Z.b2z] in C.
    change (Z.pos p~1) with (2 * Z.pos p + 1). rewrite C. reflexivity.
  - rewrite switches_pos in *. cbn [binary_pos]. rewrite count_loop_app, binary_last, IH.
    pose proof (changes_step false p) as C. cbn zeta in C. cbn [Z.b2z] in C. rewrite Z.add_0_r in C.
    change (Z.pos p~0) with (2 * Z.pos p). rewrite C. reflexivity.
  - reflexivity.
Qed.

(** ** The modulus *)
Lemma prime_bits size p : prime_of size = Ok p ->
  shipped_size size /\ 257 <= p /\ bit_length p = 8 * size + 1 /\ 2 ^ (8 * size) < p.
Proof.
  unfold prime_of. destruct (prime_offset size) as [off|] eqn:O; [|discriminate]. intros E. apply Ok_inj in E. subst p.
  destruct (prime_offset_spec _ _ O) as [S0 B]. split; [exact S0|].
  assert (P : 1 <= size) by (unfold shipped_size in S0; lia).
  assert (U : 2 ^ (8 * size) + off < 2 ^ (8 * size + 1)).
  { rewrite Z.pow_add_r by lia. change (2 ^ 1) with 2.
    destruct (Z.eq_dec size 1) as [->|N1]; [injection O as <-; reflexivity|].
    assert (2 ^ 16 <= 2 ^ (8 * size)) by (apply Z.pow_le_mono_r; lia). change (2 ^ 16) with 65536 in *. lia. }
  assert (256 <= 2 ^ (8 * size)).
  { change 256 with (2 ^ 8). apply Z.pow_le_mono_r; lia. }
  split; [lia|]. split; [|lia]. unfold bit_length. destruct (Z.eqb_spec (2 ^ (8 * size) + off) 0); [lia|].
  f_equal. apply Z.log2_unique; [lia|]. change (Z.succ (8 * size)) with (8 * size + 1). lia.
Qed.

Lemma land_odd k : negb (Z.land k 1 =? 0) = Z.odd k.
Proof.
  change 1 with (Z.ones 1). rewrite Z.land_ones by lia. change (2 ^ 1) with 2. rewrite Zmod_odd.
  destruct (Z.odd k); reflexivity.
Qed.

Lemma safe_spec size p k : prime_of size = Ok p -> 2 ^ (4 * size) <= k < 2 ^ (4 * size + 1) ->
  exists b, is_likely_safe_multiplier k p = Ok b /\ (b = true <-> suitable size k).
Proof.
  intros P K. destruct (prime_bits size p P) as (S0 & L & B & _).
  assert (SP : 1 <= size) by (unfold shipped_size in S0; lia).
  assert (0 < 2 ^ (4 * size)) by (apply Z.pow_pos_nonneg; lia).
  unfold is_likely_safe_multiplier. destruct (Z.ltb_spec p 257); [lia|].
  rewrite B, land_odd, switches_changes by lia.
  replace ((8 * size + 1) / 2) with (4 * size) by (rewrite (Z.add_comm (8 * size)), (Z.mul_comm 8);
     replace (size * 8) with ((size * 4) * 2) by lia; rewrite Z.div_add by lia; change (1 / 2) with 0; lia).
  rewrite Z.shiftl_1_l. rewrite Z.shiftl_mul_pow2 by lia. change (2 ^ 2) with 4.
  rewrite Z.pow_add_r in K by lia. change (2 ^ 1) with 2 in K.
  eexists. split; [reflexivity|]. rewrite !andb_true_iff, !Z.gtb_lt. split.
  - intros [[O [R1 R2]] [C1 C2]]. constructor; [exact O| |lia].
    rewrite Z.pow_add_r by lia. change (2 ^ 1) with 2. lia.
  - intros [O R C]. split; [split; [exact O|]|]; lia.
Qed.

(** ** The search *)
Lemma top_mask size : 1 <= size -> make_multiplier_mask (8 * size + 1) = (2 ^ (4 * size), 2 ^ (4 * size) - 1).
Proof.
  intros S0. unfold make_multiplier_mask.
  replace ((8 * size + 1) / 2) with (4 * size) by (rewrite (Z.add_comm (8 * size)), (Z.mul_comm 8);
     replace (size * 8) with ((size * 4) * 2) by lia; rewrite Z.div_add by lia; change (1 / 2) with 0; lia).
  now rewrite Z.shiftl_1_l.
Qed.
Lemma candidate_value e h : 0 <= e -> Z.lor (2 ^ e) (Z.land h (2 ^ e - 1)) = 2 ^ e + h mod 2 ^ e.
Proof.
  intros E. assert (O : 2 ^ e - 1 = Z.ones e) by (rewrite Z.ones_equiv; lia).
  rewrite O, Z.land_ones by lia.
  assert (D : Z.land (2 ^ e) (h mod 2 ^ e) = 0).
  { apply Z.bits_inj'. intros n N. rewrite Z.land_spec, Z.bits_0, Z.pow2_bits_eqb by lia.
    destruct (Z.eqb_spec e n) as [->|]; [|reflexivity]. cbn [andb]. apply Z.mod_pow2_bits_high. lia. }
  rewrite Z.add_nocarry_lxor by exact D. symmetry. now apply Z.lxor_lor.
Qed.

Lemma candidate_iff H size aad p i k : candidate H size aad p i k <->
  exists h, candidate_hash H (Z.to_N size) aad i p = Ok h /\ k = 2 ^ (4 * size) + h mod 2 ^ (4 * size).
Proof.
  unfold candidate, candidate_hash. split.
  - intros (d & -> & K). eexists. split; [reflexivity|exact K].
  - intros (h & E & K). apply bind_ok in E as (d & D & E). apply Ok_inj in E. subst h. exists d. auto.
Qed.

Lemma candidate_range H size aad p i k : 1 <= size -> candidate H size aad p i k ->
  2 ^ (4 * size) <= k < 2 ^ (4 * size + 1).
Proof.
  intros S0 (d & _ & ->). set (h := be_z d). pose proof (Z.mod_pos_bound h (2 ^ (4 * size)) ltac:(apply Z.pow_pos_nonneg; lia)).
  rewrite Z.pow_add_r by lia. lia.
Qed.

Section Search.
Variables (H : hasher) (size : Z) (aad : bytes) (p : Z).
Hypothesis P : prime_of size = Ok p.
Let S1 : 1 <= size.
Proof. destruct (prime_bits size p P) as (S0 & _). unfold shipped_size in S0. lia. Qed.

Lemma search_ok fuel : forall i k,
  search H (Z.to_N size) aad p (2 ^ (4 * size)) (2 ^ (4 * size) - 1) fuel i = Ok k ->
  exists j, i <= j < i + Z.of_nat fuel /\ candidate H size aad p j k /\ suitable size k /\
    forall j', i <= j' < j -> exists k', candidate H size aad p j' k' /\ ~ suitable size k'.
Proof.
  induction fuel as [|fuel IH]; intros i k E; cbn [search] in E; [discriminate|].
  apply bind_ok in E as (h & Hh & E). rewrite candidate_value in E by lia.
  assert (C : candidate H size aad p i (2 ^ (4 * size) + h mod 2 ^ (4 * size))) by (apply candidate_iff; exists h; auto).
  destruct (safe_spec size p _ P (candidate_range _ _ _ _ _ _ S1 C)) as (b & Q & W). rewrite Q in E. cbn [bind] in E.
  destruct b.
  - apply Ok_inj in E. subst k. exists i. split; [lia|]. split; [exact C|]. split; [now apply W|]. intros j' J. lia.
  - destruct (IH _ _ E) as (j & J & Cj & Sj & Bj). exists j. split; [lia|]. split; [exact Cj|]. split; [exact Sj|].
    intros j' J'. destruct (Z.eq_dec j' i) as [->|]; [|apply Bj; lia].
    eexists. split; [exact C|]. intros Q'. apply W in Q'. discriminate Q'.
Qed.

Lemma search_stops n : forall i k,
  (forall j, i <= j <= i + Z.of_nat n -> exists h, candidate_hash H (Z.to_N size) aad j p = Ok h) ->
  candidate H size aad p (i + Z.of_nat n) k -> suitable size k ->
  forall fuel, (n < fuel)%nat ->
  exists k', search H (Z.to_N size) aad p (2 ^ (4 * size)) (2 ^ (4 * size) - 1) fuel i = Ok k'.
Proof.
  induction n as [|n IH]; intros i k T C S0 fuel F; (destruct fuel as [|fuel]; [lia|]); cbn [search].
  - apply candidate_iff in C. destruct C as (h & Hh & ->). rewrite Z.add_0_r in Hh. rewrite Hh. cbn [bind]. rewrite candidate_value by lia.
    assert (C : candidate H size aad p i (2 ^ (4 * size) + h mod 2 ^ (4 * size))) by (apply candidate_iff; exists h; auto).
    destruct (safe_spec size p _ P (candidate_range _ _ _ _ _ _ S1 C)) as (b & -> & W). cbn [bind].
    rewrite (proj2 W S0). eexists. reflexivity.
  - destruct (T i ltac:(lia)) as [h Hh]. rewrite Hh. cbn [bind]. rewrite candidate_value by lia.
    assert (C' : candidate H size aad p i (2 ^ (4 * size) + h mod 2 ^ (4 * size))) by (apply candidate_iff; exists h; auto).
    destruct (safe_spec size p _ P (candidate_range _ _ _ _ _ _ S1 C')) as (b & -> & W). cbn [bind].
    destruct b; [eexists; reflexivity|].
    apply (IH (i + 1) k); [|replace (i + 1 + Z.of_nat n) with (i + Z.of_nat (Datatypes.S n)) by lia; exact C|exact S0|lia].
    intros j J. apply T. lia.
Qed.

Lemma derive_search fuel :
  derive_new_multiplier H fuel (Z.to_N size) aad p =
  search H (Z.to_N size) aad p (2 ^ (4 * size)) (2 ^ (4 * size) - 1) fuel 0.
Proof.
  unfold derive_new_multiplier. destruct (prime_bits size p P) as (_ & _ & -> & _). rewrite top_mask by exact S1. reflexivity.
Qed.
End Search.

(** ** Candidates exist and are hashes of different inputs *)
Lemma candidate_text_inj i j p : 0 <= i -> 0 <= j -> candidate_text i p = candidate_text j p -> i = j.
Proof.
  intros I J E. unfold candidate_text in E. apply app_inv_head in E.
  assert (D : forall z, 0 <= z -> ~ In x5f (str_int z)).
  { intros z Z0 B. unfold str_int in B. destruct (Z.ltb_spec z 0); [lia|].
    pose proof (digits_digit (N.to_uint (Z.to_N z))) as F. eapply Forall_forall in F; [|exact B].
    destruct F as [_ F]. vm_compute in F. congruence. }
  cbn [app] in E. apply split_at in E as [E _]; auto. now apply str_int_inj.
Qed.

(** Lengths of decimal texts. *)
Lemma little_double u : (nb_digits (Little.double u) <= Datatypes.S (nb_digits u))%nat /\
  (nb_digits (Little.succ_double u) <= Datatypes.S (nb_digits u))%nat.
Proof. induction u; cbn; lia. Qed.
Lemma little_size q : (nb_digits (Pos.to_little_uint q) <= Pos.size_nat q)%nat.
Proof.
  induction q as [q IH|q IH|]; cbn [Pos.to_little_uint Pos.size_nat]; [| |cbn; lia];
    destruct (little_double (Pos.to_little_uint q)); lia.
Qed.
Lemma digits_len u : length (digits u) = nb_digits u.
Proof. induction u; cbn; congruence. Qed.
Lemma size_nat_bound q n : (Npos q < 2 ^ N.of_nat n)%N -> (Pos.size_nat q <= n)%nat.
Proof.
  revert n. induction q as [q IH|q IH|]; intros n L; cbn [Pos.size_nat].
  - destruct n as [|n]; [cbn in L; lia|]. apply le_n_S, IH. rewrite Nat2N.inj_succ, N.pow_succ_r' in L. lia.
  - destruct n as [|n]; [cbn in L; lia|]. apply le_n_S, IH. rewrite Nat2N.inj_succ, N.pow_succ_r' in L. lia.
  - destruct n as [|n]; [cbn in L; lia|]. lia.
Qed.
Lemma str_int_len z n : 0 <= z < 2 ^ Z.of_nat n -> (blen (str_int z) <= 1 + N.of_nat n)%N.
Proof.
  intros Z0. unfold str_int. destruct (Z.ltb_spec z 0); [lia|]. unfold blen. rewrite digits_len.
  destruct (Z.to_N z) as [|q] eqn:E; [change (nb_digits (N.to_uint 0)) with 1%nat; lia|]. unfold N.to_uint, Pos.to_uint.
  rewrite nb_digits_rev. pose proof (little_size q).
  assert ((Npos q < 2 ^ N.of_nat n)%N).
  { rewrite <- E. apply N2Z.inj_lt. rewrite N2Z.inj_pow. rewrite nat_N_Z. lia. }
  pose proof (size_nat_bound q n ltac:(assumption)). lia.
Qed.

Lemma candidate_hash_total H r size aad i p :
  an_xof r H -> (0 < r < 2 ^ 56)%N -> prime_of size = Ok p -> (blen aad < 2 ^ 64)%N -> 0 <= i < 2 ^ 64 ->
  exists h, candidate_hash H (Z.to_N size) aad i p = Ok h.
Proof.
  intros X R P A I. destruct (prime_bits size p P) as (S0 & Lp & B & _).
  assert (SB : 1 <= size <= 256) by (unfold shipped_size in S0; lia).
  unfold candidate_hash, encode. cbn [e_constant e_size e_domain e_aad e_pad candidate_encoding].
  destruct (encode_constant_total H r (candidate_text i p) (Z.to_N size) (text "affine_permutation_constant") aad x00 X R)
    as [x E]; [|..|rewrite E; eexists; reflexivity].
  - change (2 ^ 64)%N with 18446744073709551616%N. lia.
  - unfold candidate_text. rewrite !blen_app.
    assert (Li : (blen (str_int i) <= 1 + 64)%N) by (apply (str_int_len i 64); exact I).
    assert (Lq : (blen (str_int p) <= 1 + 2049)%N).
    { apply (str_int_len p 2049). split; [lia|].
      assert (p < 2 ^ (Z.log2 p + 1)) by (apply Z.log2_spec; lia).
      unfold bit_length in B. destruct (Z.eqb_spec p 0); [lia|].
      assert (2 ^ (Z.log2 p + 1) <= 2 ^ 2049) by (apply Z.pow_le_mono_r; lia).
      change (Z.of_nat 2049) with 2049. lia. }
    change (blen [x5f]) with 1%N. change (blen (text "multiplicative_key_")) with 19%N.
    change (2 ^ 64)%N with 18446744073709551616%N. lia.
  - reflexivity.
  - exact A.
Qed.

(** A suitable number for every size: 1 0011 0011 ... 0011. *)
Definition witness (size : Z) : Z := 2 ^ (4 * size) + 3 * ((2 ^ (4 * size) - 1) / 15).
Definition suitableb (size k : Z) : bool :=
  Z.odd k && (2 ^ (4 * size) <? k) && (k <? 2 ^ (4 * size + 1)) &&
  (Z.abs (4 * count_bit_switches k - (8 * size + 1)) <? 4 * (Z.log2 (8 * size + 1) - 1)).
Lemma suitableb_ok size k : 0 <= size -> suitableb size k = true -> suitable size k.
Proof.
  intros S0 E. unfold suitableb in E. rewrite !andb_true_iff, !Z.ltb_lt in E. destruct E as [[[E1 E2] E3] E4].
  assert (0 < 2 ^ (4 * size)) by (apply Z.pow_pos_nonneg; lia).
  rewrite switches_changes in E4 by lia. constructor; [exact E1|lia|exact E4].
Qed.
Definition all_sizes : list Z := [1;2;3;4;5;6;7;8;9;10;11;12;13;14;15;16;17;18;19;20;21;22;23;24;25;26;27;28;29;30;31;32;48;64;128;192;256].
Lemma witnesses : forallb (fun s => suitableb s (witness s)) all_sizes = true.
Proof. vm_compute. reflexivity. Qed.
Lemma shipped_in size : shipped_size size -> In size all_sizes.
Proof. unfold shipped_size, all_sizes. cbn [In]. lia. Qed.
Lemma witness_suitable size : shipped_size size -> suitable size (witness size).
Proof.
  intros S0. apply suitableb_ok; [unfold shipped_size in S0; lia|].
  pose proof witnesses as W. rewrite forallb_forall in W. apply W. now apply shipped_in.
Qed.

(** ** Inverses *)
Lemma prime_gcd p k : prime p -> 0 < k < p -> Z.gcd k p = 1.
Proof.
  intros P K. apply Zgcd_1_rel_prime. apply rel_prime_sym. apply prime_rel_prime; [exact P|].
  intros D. apply Z.divide_pos_le in D; lia.
Qed.

Lemma config_made size p k : prime_of size = Ok p -> prime p -> 0 < k < p ->
  exists c, make_aff_config size k = Ok c.
Proof.
  intros E P K. pose proof (prime_gcd p k P K) as G. destruct (prime_bits size p E) as (S0 & _).
  unfold prime_of in E. destruct (prime_offset size) as [off|] eqn:O; [|discriminate]. apply Ok_inj in E. subst p.
  apply (make_aff_config_total size k off S0 O). replace (256 ^ size) with (2 ^ (8 * size)); [exact G|].
  assert (0 <= size) by (unfold shipped_size in S0; lia). change 256 with (2 ^ 8). now rewrite Z.pow_mul_r by lia.
Qed.
