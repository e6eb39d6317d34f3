(** * Model of aiootp/keygens/domain_kdf.py and aiootp/databases/dbkdf.py.

    The async variants repeat the same statements and are modelled by the same
    functions.  The hash functions of hashlib are parameters. *)
From Verif Require Import Base CanonModel.
Local Open Scope N_scope.

Section Kdf.
(** domain_kdf.py 150 [_type]: hashlib.shake_128. *)
Variable shake_128 : hasher.
(** domains.py [Domains.KDF] and the constant of [__init_subclass__]
    (domain_kdf.py 55-58), both fixed when the package is imported. *)
Variables KDF_DOMAIN salt : bytes.

(** canon.py 209-214, hashing.py 62-69: the default padding byte. *)
Definition zero_pad : bytes := [x00].

(** A [DomainKDF] object has one slot, [_payload], a shake_128 object: all bytes it has
    absorbed. domain_kdf.py 147-157. *)
Definition payload := bytes.

(** domain_kdf.py 60-82 [_initialize_payload], 152-157 [__init__]. *)
Definition new_kdf (domain : bytes) (data : list bytes) (key : bytes) : result payload :=
  canonicalized_hash <-
    hash_bytes shake_128 (KDF_DOMAIN :: domain :: data) zero_pad
      (Some (h_block_size shake_128)) (Some (key ++ domain)) ;;
  Ok (salt ++ canonicalized_hash).

(** domain_kdf.py 184-194 [update]; 168-182 [aupdate]. *)
Definition update (p : payload) (data : list bytes) : result payload :=
  match data with
  | [] => Err ValueErr
  | _ =>
    packed <- canonical_pack data (h_block_size shake_128) zero_pad INT_BYTES ;;
    Ok (p ++ packed)
  end.

(** domain_kdf.py 106-126 [_run_kdf]; 84-104 [_arun_kdf]: what is given to the
    final hash function. *)
Definition run_key (obj : hasher) (p : payload) : bytes := h_digest shake_128 p (h_block_size obj).
(** domain_kdf.py 106-126 [_run_kdf]. *)
Definition run_size (obj : hasher) (size : option N) : option N :=
  if h_digest_size obj =? 0 then size else None.
(** domain_kdf.py 106-126 [_run_kdf]. *)
Definition run_absorbed (obj : hasher) (p : payload) (data : list bytes) (size : option N) (aad : bytes)
    : result bytes :=
  hash_bytes_absorbed obj (aad :: data) zero_pad (run_size obj size) (Some (run_key obj p)).
(** The call itself; domain_kdf.py 196-280 are this with one of the four hash
    functions, without [size] for sha3_256 and sha3_512. *)
Definition run_kdf (obj : hasher) (p : payload) (data : list bytes) (size : option N) (aad : bytes)
    : result bytes :=
  hash_bytes obj (aad :: data) zero_pad (run_size obj size) (Some (run_key obj p)).

(** dbkdf.py 32-39; _constants: MIN_KEY_BYTES = 64. *)
Definition MIN_KEY_BYTES : N := 64.
(** dbkdf.py 32-39. *)
Definition new_dbkdf (domain : bytes) (data : list bytes) (key : bytes) : result payload :=
  if blen key <? MIN_KEY_BYTES then Err ValueErr else new_kdf domain data key.

(** Several objects, by number; each has its own payload. domain_kdf.py 152-194. *)
Inductive call :=
| New (domain : bytes) (data : list bytes) (key : bytes)
| Update (i : nat) (data : list bytes)
| Copy (i : nat).

(** No counterpart: an object changes. *)
Fixpoint replace (l : list payload) (i : nat) (p : payload) : list payload :=
  match l, i with
  | [], _ => []
  | _ :: l, O => p :: l
  | q :: l, S i => q :: replace l i p
  end.

(** A refused call raises in the caller and leaves all objects as they were.
    domain_kdf.py 159-166 [copy]: a new object with a copy of the payload. *)
Definition do_call (c : call) (l : list payload) : list payload :=
  match c with
  | New domain data key =>
    match new_kdf domain data key with Ok p => l ++ [p] | Err _ => l end
  | Update i data =>
    match nth_error l i with
    | Some p => match update p data with Ok p' => replace l i p' | Err _ => l end
    | None => l
    end
  | Copy i => match nth_error l i with Some p => l ++ [p] | None => l end
  end.

(** No counterpart: calls one after another. *)
Definition do_calls (cs : list call) (l : list payload) : list payload :=
  fold_left (fun l c => do_call c l) cs l.

End Kdf.
