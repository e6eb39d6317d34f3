(** * Key derivation: vocabulary of the specification *)
From Verif Require Import Base CanonModel CanonSpec KdfModel.
Local Open Scope N_scope.

(** [made ... p]: an object created with this domain, data and key, and updated
    with these lists of values in this order, holds payload [p]. *)
Inductive made (H : hasher) (KDF_DOMAIN salt domain : bytes) (data : list bytes) (key : bytes)
  : list (list bytes) -> payload -> Prop :=
| made_new p : new_kdf H KDF_DOMAIN salt domain data key = Ok p ->
    made H KDF_DOMAIN salt domain data key [] p
| made_update ups p u p' : made H KDF_DOMAIN salt domain data key ups p ->
    update H p u = Ok p' -> made H KDF_DOMAIN salt domain data key (ups ++ [u]) p'.

(** Two different inputs with the same digest of [n] bytes. *)
Definition collision (H : hasher) (n : N) (x y : bytes) : Prop :=
  x <> y /\ h_digest H x n = h_digest H y n.

(** What the first hash call of a new object is given. *)
Definition first_input (H : hasher) (KDF_DOMAIN domain : bytes) (data : list bytes) (key x : bytes) : Prop :=
  hash_bytes_absorbed H (KDF_DOMAIN :: domain :: data) zero_pad (Some (h_block_size H)) (Some (key ++ domain)) = Ok x.

(** An extendable output function whose digest has the requested size. *)
Definition xof (H : hasher) : Prop :=
  h_is_xof H = true /\ h_digest_size H = 0 /\ (forall x n, blen (h_digest H x n) = n).

(** The keys together with their domains fill up the same number of blocks of the
    hash function; for instance when keys are as long as each other and so are
    domains, and whenever both fit into the first block. *)
Definition same_blocks (H : hasher) (k1 d1 k2 d2 : bytes) : Prop :=
  key_blocks (h_block_size H) (k1 ++ d1) = key_blocks (h_block_size H) (k2 ++ d2).

(** That is so, or the domains are of one length and the data items are too: then the
    keys can have any lengths. *)
Definition separable (H : hasher) (k1 d1 : bytes) (x1 : list bytes) (k2 d2 : bytes) (x2 : list bytes) : Prop :=
  same_blocks H k1 d1 k2 d2 \/ (blen d1 = blen d2 /\ map blen x1 = map blen x2).

Definition updates (c : call) (i : nat) : Prop := exists data, c = Update i data.
