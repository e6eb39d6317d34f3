(** * Vocabulary for statements about domain constants. *)
From Verif Require Import Base CanonModel CipherModel DomainsModel.
Local Open Scope N_scope.

(** The input that the hash function is given for a constant. *)
Definition hashed (H : hasher) (e : encoding) : result bytes :=
  hash_bytes_absorbed H [DOMAIN_ENCODER; e_domain e; e_aad e; e_constant e] (e_pad e) (Some (e_size e)) None.

(** Two different inputs of the hash function whose digests of [size] bytes agree. *)
Definition same_digest (H : hasher) (size : N) (x y : bytes) : Prop :=
  x <> y /\ h_digest H x size = h_digest H y size.
