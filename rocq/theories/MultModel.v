(** * Model of the derivation of multipliers:
    aiootp/_permutations/affine_permutation_config.py 66-147. *)
From Coq Require Import Strings.String.
From Verif Require Import Base CanonModel PermModel CipherModel DomainsModel ConfigModel.
Import ListNotations.
Local Open Scope list_scope.
Local Open Scope Z_scope.

(** [int.bit_length()] of a positive number. As used in affine_permutation_config.py 66-111. *)
Definition bit_length (n : Z) : Z := if n =? 0 then 0 else Z.log2 n + 1.

(** affine_permutation_config.py 66-76 [_make_multiplier_mask]. *)
Definition make_multiplier_mask (bit_length : Z) : Z * Z :=
  let top_bit := Z.shiftl 1 (bit_length / 2) in
  let mask := top_bit - 1 in
  (top_bit, mask).

(** [f"{number:b}"]: the binary digits, the first one first. No counterpart: for [binary]. *)
Fixpoint binary_pos (p : positive) : list bool :=
  match p with
  | xH => [true]
  | xO p => binary_pos p ++ [false]
  | xI p => binary_pos p ++ [true]
  end.
(** As used in affine_permutation_config.py 78-91. *)
Definition binary (n : Z) : list bool :=
  match n with
  | Zpos p => binary_pos p
  | _ => [false]   (* zero; negative numbers do not occur *)
  end.

(** affine_permutation_config.py 78-91 [_count_bit_switches]. *)
Fixpoint count_loop (current : bool) (count : Z) (l : list bool) : Z :=
  match l with
  | [] => count
  | bit :: l =>
    if negb (Bool.eqb bit current) then count_loop bit (count + 1) l else count_loop current count l
  end.
(** affine_permutation_config.py 78-91. *)
Definition count_bit_switches (number : Z) : Z :=
  match binary number with
  | [] => 0
  | current :: _ => count_loop current 0 (binary number)
  end.

(** affine_permutation_config.py 93-111 [is_likely_safe_multiplier].  [int(log2(prime_size) - 1)] is computed with
    floats; for the sizes of primes (at most 32769 bits) it is the floor.  The
    comparison with [prime_size / 4], which a float represents exactly, is
    multiplied by four. *)
Definition is_likely_safe_multiplier (multiplier prime : Z) : result bool :=
  if prime <? 257 then Err ValueErr
  else
    let prime_size := bit_length prime in
    let sqrt_prime := Z.shiftl 1 (prime_size / 2) in
    let bit_flips := count_bit_switches multiplier in
    let span := Z.log2 prime_size - 1 in
    let max_flips := bit_flips + span in
    let min_flips := bit_flips - span in
    Ok (negb (Z.land multiplier 1 =? 0)
        && ((Z.shiftl sqrt_prime 2 >? multiplier) && (multiplier >? sqrt_prime))
        && ((4 * max_flips >? prime_size) && (prime_size >? 4 * min_flips)))%bool.

(** affine_permutation_config.py 121-128 [encode]: f"multiplicative_key_{i}_{prime}". *)
Definition candidate_text (i prime : Z) : bytes :=
  text "multiplicative_key_" ++ str_int i ++ [x5f] ++ str_int prime.
(** affine_permutation_config.py 121-128. *)
Definition candidate_encoding (size : N) (aad : bytes) (i prime : Z) : encoding :=
  {| e_constant := candidate_text i prime; e_size := size;
     e_domain := text "affine_permutation_constant"; e_aad := aad; e_pad := [x00] |}.
(** affine_permutation_config.py 121-128. *)
Definition candidate_hash (H : hasher) (size : N) (aad : bytes) (i prime : Z) : result Z :=
  hash_value <- encode H (candidate_encoding size aad i prime) ;;
  Ok (be_z hash_value).

(** affine_permutation_config.py 130-134: the loop over [counter()], from [i] on; [Diverges] when the fuel is
    exhausted. *)
Fixpoint search (H : hasher) (size : N) (aad : bytes) (prime top_bit mask : Z) (fuel : nat) (i : Z) : result Z :=
  match fuel with
  | O => Err Diverges
  | S fuel =>
    h <- candidate_hash H size aad i prime ;;
    let key := Z.lor top_bit (Z.land h mask) in
    ok <- is_likely_safe_multiplier key prime ;;
    if ok then Ok key else search H size aad prime top_bit mask fuel (i + 1)
  end.

(** affine_permutation_config.py 114-134 [_derive_new_multiplier]. *)
Definition derive_new_multiplier (H : hasher) (fuel : nat) (size : N) (aad : bytes) (prime : Z) : result Z :=
  let '(top_bit, mask) := make_multiplier_mask (bit_length prime) in
  search H size aad prime top_bit mask fuel 0.

(** affine_permutation_config.py 136-147 [__init__]. *)
Definition new_aff_config (H : hasher) (fuel : nat) (size : Z) (aad : bytes) : result aff_config :=
  size <- process_size size ;;
  prime <- prime_of size ;;
  mult <- derive_new_multiplier H fuel (Z.to_N size) aad prime ;;
  make_aff_config size mult.
