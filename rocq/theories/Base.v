(** * Base: Python-level vocabulary shared by all models.

    Byte strings are [list byte] (every value of that type is a legal Python
    [bytes] object).  Python's unbounded ints are [N] (or [Z] where negative
    values matter).  A raised exception is a value [Err e]. *)

From Coq Require Export NArith ZArith List Bool Lia.
From Coq Require Export Strings.Byte.
Export ListNotations.
Local Open Scope N_scope.

Definition bytes := list byte.

(** Issues of the canonical decoder, aiootp/_exceptions.py (class
    CanonicalIssue); all are instances of CanonicalEncodingError. *)
Inductive canon_issue :=
| InflatedSizeDeclaration
| ItemLengthMismatch
| MissingMetadataItems
| DataLengthBlocksizeMismatch
| InvalidPadding.

(** Exceptions of Python and of aiootp/_exceptions.py, as values.
    Messages are not modelled. *)
Inductive exn :=
| ValueErr            (* ValueError, Issue.value_must / invalid_value ... *)
| InvalidLength       (* Issue.invalid_length (a ValueError) *)
| TypeErr
| IndexErr
| KeyErr
| AttributeErr
| OverflowErr
| ZeroDivisionErr
| AssertionErr
| RuntimeErr
| PermissionErr
| FileNotFoundErr
| LookupErr
| StopIter
| BinasciiErr         (* binascii.Error *)
| CanonicalEncodingError (i : canon_issue)
| InvalidCiphertextSize
| InvalidSHMAC
| InvalidBlockID
| TimestampExpired (by_how_much : Z)
| UnderspecifiedModeErr
| AlreadyErr          (* Issue.already / cant_reassign / cant_overwrite ... *)
| NoMethodErr         (* Issue.no_value_specified, unset mode ... *)
| InvalidSignature
| InvalidDigest
| InvalidPassphrase
| ResourceLimitErr
| IncoherentConcurrencyState
| InvalidStateTransition
| CipherStreamIsClosed
| ImproperPassphrase
| UnpackErr           (* e.g. not enough values to unpack, bad serialisation *)
| Diverges            (* the Python loop does not terminate *)
| OtherErr.

Inductive result (A : Type) :=
| Ok (a : A)
| Err (e : exn).
Arguments Ok {A} a.
Arguments Err {A} e.

Definition bind {A B} (r : result A) (k : A -> result B) : result B :=
  match r with
  | Ok a => k a
  | Err e => Err e
  end.

Notation "x <- e ;; k" := (bind e (fun x => k))
  (at level 61, e at next level, right associativity).
Notation "' p <- e ;; k" := (bind e (fun p => k))
  (at level 61, p pattern, e at next level, right associativity).

(** Python [len(x)]. *)
Definition blen {A} (l : list A) : N := N.of_nat (length l).

(** [math.ceil(a / b)] for naturals with b <> 0.  The code divides as floats;
    the result is the exact ceiling for every a < 2^52. *)
Definition ceil_div (a b : N) : N := (a + b - 1) / b.

(** The byte with value [n mod 256]. *)
Definition byte_of (n : N) : byte :=
  match Byte.of_N (n mod 256) with
  | Some b => b
  | None => x00
  end.

Definition bval (b : byte) : N := Byte.to_N b.

(** [int.from_bytes(l, "big")] and [int.from_bytes(l, "little")]. *)
Definition be_int (l : bytes) : N :=
  fold_left (fun acc b => 256 * acc + bval b) l 0.
Fixpoint le_int (l : bytes) : N :=
  match l with
  | [] => 0
  | b :: l' => bval b + 256 * le_int l'
  end.

(** The low [w] base-256 digits of [n], little and big endian. *)
Fixpoint le_enc (w : nat) (n : N) : bytes :=
  match w with
  | O => []
  | S w' => byte_of n :: le_enc w' (n / 256)
  end.
Definition be_enc (w : nat) (n : N) : bytes := rev (le_enc w n).

(** [n.to_bytes(w, "big")], [n.to_bytes(w, "little")]: OverflowError if the
    value does not fit. *)
Definition to_bytes_be (w n : N) : result bytes :=
  if n <? 256 ^ w then Ok (be_enc (N.to_nat w) n) else Err OverflowErr.
Definition to_bytes_le (w n : N) : result bytes :=
  if n <? 256 ^ w then Ok (le_enc (N.to_nat w) n) else Err OverflowErr.

(** [l[:n]] and [l[n:]] for n >= 0.  The comparison avoids a huge unary
    number when n is an adversarial length. *)
Definition take {A} (n : N) (l : list A) : list A :=
  if blen l <=? n then l else firstn (N.to_nat n) l.
Definition drop {A} (n : N) (l : list A) : list A :=
  if blen l <=? n then [] else skipn (N.to_nat n) l.

(** [l[i:j]] for 0 <= i, 0 <= j. *)
Definition slice {A} (i j : N) (l : list A) : list A := drop i (take j l).

(** [l[-n:]] for n >= 0 ([l[-0:]] is the whole of [l]). *)
Definition last_n {A} (n : N) (l : list A) : list A :=
  if n =? 0 then l else drop (blen l - n) l.

(** [l[:-n]] for n > 0. *)
Definition but_last_n {A} (n : N) (l : list A) : list A := take (blen l - n) l.

(** [bytes.ljust(width, pad)]: the fill argument must have length one. *)
Definition ljust (data : bytes) (width : N) (pad : bytes) : result bytes :=
  match pad with
  | [p] => Ok (data ++ repeat p (N.to_nat (width - blen data)))
  | _ => Err TypeErr
  end.

(** [io.BytesIO(x).read(n)]: an n that does not fit in a C ssize_t raises
    OverflowError (64-bit CPython, PyNumber_AsSsize_t). *)
Definition ssize_limit : N := 2 ^ 63.
Definition bio_read (n : N) (rem : bytes) : result (bytes * bytes) :=
  if n <? ssize_limit then Ok (take n rem, drop n rem) else Err OverflowErr.

Definition byte_eqb (a b : byte) : bool := Byte.eqb a b.
Fixpoint bytes_eqb (a b : bytes) : bool :=
  match a, b with
  | [], [] => true
  | x :: a', y :: b' => byte_eqb x y && bytes_eqb a' b'
  | _, _ => false
  end.

(** Bytewise xor of two byte strings, truncated to the shorter one. *)
Definition bxor (a b : byte) : byte := byte_of (N.lxor (bval a) (bval b)).
Fixpoint xor_bytes (a b : bytes) : bytes :=
  match a, b with
  | x :: a', y :: b' => bxor x y :: xor_bytes a' b'
  | _, _ => []
  end.

(** Sequential map with exceptions. *)
Fixpoint mapM {A B} (f : A -> result B) (l : list A) : result (list B) :=
  match l with
  | [] => Ok []
  | x :: l' => y <- f x ;; ys <- mapM f l' ;; Ok (y :: ys)
  end.

Definition is_ok {A} (r : result A) : bool :=
  match r with Ok _ => true | Err _ => false end.
