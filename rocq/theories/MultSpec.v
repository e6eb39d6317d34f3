(** * Vocabulary for statements about multipliers. *)
From Coq Require Import ZArith List.
From Verif Require Import Base CanonModel PermModel DomainsModel MultModel.
Import ListNotations.
Local Open Scope Z_scope.

(** The number of neighbouring binary digits of [n] that differ. *)
Definition changes (n : Z) : Z :=
  Z.of_nat (length (filter (fun j => xorb (Z.testbit n (Z.of_nat j)) (Z.testbit n (Z.of_nat j + 1)))
                           (seq 0 (Z.to_nat (Z.log2 n))))).

(** What a multiplier for a permutation of [size] bytes has to be: odd, of half the
    bits of the modulus, with about as many changes as a quarter of the bits of the
    modulus. *)
Record suitable (size k : Z) : Prop := {
  su_odd : Z.odd k = true;
  su_range : 2 ^ (4 * size) < k < 2 ^ (4 * size + 1);
  su_changes : Z.abs (4 * changes k - (8 * size + 1)) < 4 * (Z.log2 (8 * size + 1) - 1);
}.

(** [k] is the candidate number [i]: the top bit, then the low bits of the digest of
    the text multiplicative_key_i_prime. *)
Definition candidate (H : hasher) (size : Z) (aad : bytes) (prime i k : Z) : Prop :=
  exists digest, encode H (candidate_encoding (Z.to_N size) aad i prime) = Ok digest /\
    k = 2 ^ (4 * size) + be_z digest mod 2 ^ (4 * size).
