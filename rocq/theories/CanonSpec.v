(** * Specification of the canonical encoding (the format diagram in the
    docstring of canonical_pack, canon.py 222-247), independent of the model. *)
From Verif Require Import Base.
Local Open Scope N_scope.

(** [framed w items x]: [x] is the items in order, each preceded by its length
    as a big-endian field of [w] bytes. *)
Inductive framed (w : N) : list bytes -> bytes -> Prop :=
| framed_nil : framed w [] []
| framed_cons len item items rest :
    blen len = w -> be_int len = blen item ->
    framed w items rest ->
    framed w (item :: items) (len ++ item ++ rest).

(** [layout w blob pad items k x]: [x] is the width byte, the number of framed
    fields, the framed fields (declared blocksize, pad, items), and [k] pads. *)
Definition layout (w : N) (blob : bytes) (pad : byte) (items : list bytes)
    (k : nat) (x : bytes) : Prop :=
  exists s count body,
    bval s = w /\
    blen count = w /\ be_int count = blen items + 2 /\
    framed w (blob :: [pad] :: items) body /\
    x = s :: count ++ body ++ repeat pad k.

(** The metadata fits in the integer width. *)
Definition fits (w blocksize : N) (items : list bytes) : Prop :=
  1 <= w <= 255 /\ 1 <= blocksize < 256 ^ w /\
  blen items + 2 < 256 ^ w /\
  Forall (fun item => blen item < 256 ^ w) items.

(** Python cannot hold a bytes object of 2^63 bytes or more. *)
Definition python_sized (x : bytes) : Prop := blen x < 2 ^ 63.

(** The error is one of the CanonicalEncodingError family. *)
Definition canonical_error (e : exn) : Prop := exists i, e = CanonicalEncodingError i.

(** Both calls are unkeyed, or keyed with keys of one length. *)
Definition keys_comparable (k1 k2 : option bytes) : Prop :=
  match k1, k2 with
  | None, None => True
  | Some a, Some b => length a = length b
  | _, _ => False
  end.

(** The number of blocks a key takes up with its length, the block size and at
    least one byte of padding. *)
Definition key_blocks (blocksize : N) (key : bytes) : N := (blen key + 17 + blocksize - 1) / blocksize.
(** Both calls are unkeyed, or keyed with keys that take up as many blocks. *)
Definition keys_of_same_blocks (blocksize : N) (k1 k2 : option bytes) : Prop :=
  match k1, k2 with
  | None, None => True
  | Some a, Some b => key_blocks blocksize a = key_blocks blocksize b
  | _, _ => False
  end.
