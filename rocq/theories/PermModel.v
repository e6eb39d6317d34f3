(** * Model of aiootp/_permutations: AffinePermutation, AffineXORChain,
    FastAffineXORChain and their configurations.

    Values are Python ints, modelled by [Z]. *)
From Verif Require Import Base.
Local Open Scope Z_scope.

(** No counterpart: [len]. *)
Definition zlen {A} (l : list A) : Z := Z.of_nat (length l).
(** [int.from_bytes(l, "big")] as a [Z]. As used in affine_xor_chain.py 116-167. *)
Definition be_z (l : bytes) : Z := Z.of_N (be_int l).

(** aiootp/_constants/datasets.py 45-363 [PRIMES][8 * size + 1][0], for the
    sizes that are configured: the table writes each of them in hexadecimal as
    "01", zeros, and the offset which is listed here. Other sizes: KeyError. *)
Definition prime_offset (size : Z) : option Z :=
  match size with
  | 1 => Some 1 | 2 => Some 1 | 3 => Some 43 | 4 => Some 15 | 5 => Some 15
  | 6 => Some 21 | 7 => Some 81 | 8 => Some 13 | 9 => Some 15 | 10 => Some 13
  | 11 => Some 7 | 12 => Some 61 | 13 => Some 111 | 14 => Some 25 | 15 => Some 451
  | 16 => Some 51 | 17 => Some 85 | 18 => Some 175 | 19 => Some 253 | 20 => Some 7
  | 21 => Some 87 | 22 => Some 427 | 23 => Some 27 | 24 => Some 133 | 25 => Some 235
  | 26 => Some 375 | 27 => Some 423 | 28 => Some 735 | 29 => Some 357 | 30 => Some 115
  | 31 => Some 81 | 32 => Some 297 | 48 => Some 231 | 64 => Some 75 | 128 => Some 643
  | 192 => Some 75 | 256 => Some 981
  | _ => None
  end.
(** datasets.py 45-363. *)
Definition prime_of (size : Z) : result Z :=
  match prime_offset size with
  | Some off => Ok (2 ^ (8 * size) + off)
  | None => Err KeyErr
  end.

(** Extended Euclid: returns (gcd, s) with s * a = gcd modulo m. No counterpart: how
    [pow_inverse] is computed. *)
Fixpoint egcd (fuel : nat) (r0 r1 s0 s1 : Z) : Z * Z :=
  match fuel with
  | O => (r0, s0)
  | S fuel' =>
    if r1 =? 0 then (r0, s0)
    else egcd fuel' r1 (r0 mod r1) s1 (s0 - (r0 / r1) * s1)
  end.

(** Python's [pow(a, -1, m)] for m > 1: the inverse of a modulo m in [0, m), or ValueError if a
    is not invertible. As used in affine_permutation_config.py 136-147. *)
Definition pow_inverse (a m : Z) : result Z :=
  let '(g, s) := egcd (2 * Z.to_nat (Z.log2_up m) + 2) m (a mod m) 0 1 in
  if (g =? 1) && ((a * (s mod m)) mod m =? 1 mod m) then Ok (s mod m) else Err ValueErr.

(** affine_permutation_config.py 136-147, attributes of the configuration. *)
Record aff_config := {
  ac_size : Z;
  ac_key_size : Z;
  ac_max : Z;
  ac_prime : Z;
  ac_mult : Z;
  ac_inv : Z;
}.

(** affine_permutation_config.py 56-64 [_process_size]. *)
Definition process_size (size : Z) : result Z :=
  if (4096 >=? size) && (size >? 0) then Ok size else Err ValueErr.

(** affine_permutation_config.py 136-147 [__init__].  The derivation of the
    multiplicative key from a hash (lines 67-134) is in MultModel.v: here the key is
    an argument [mult], so results hold for every multiplier. *)
Definition make_aff_config (size mult : Z) : result aff_config :=
  size <- process_size size ;;
  prime <- prime_of size ;;
  inv <- pow_inverse mult prime ;;
  Ok {| ac_size := size; ac_key_size := 2 * size;
        ac_max := Z.shiftl 1 (8 * size) - 1;
        ac_prime := prime; ac_mult := mult; ac_inv := inv |}.

(** affine_permutation.py 85-94, attributes of an instance. *)
Record aff := { af_config : aff_config; af_add : Z }.

(** affine_permutation.py 74-83 [_process_additive_key], 85-94 [__init__]. *)
Definition make_aff (c : aff_config) (key : bytes) : result aff :=
  if zlen key =? ac_key_size c then Ok {| af_config := c; af_add := be_z key |}
  else Err InvalidLength.

(** The assignment repeated in affine_permutation.py 111-117. *)
Definition aff_round (a : aff) (value : Z) : Z :=
  (ac_mult (af_config a) * value + af_add a) mod ac_prime (af_config a).
(** The assignment repeated in affine_permutation.py 135-141. *)
Definition aff_unround (a : aff) (value : Z) : Z :=
  (ac_inv (af_config a) * (value - af_add a)) mod ac_prime (af_config a).

(** [while value > max: value = f(value)], with fuel; [Diverges] when the fuel is exhausted.
    affine_permutation.py 105-118, 129-142, affine_xor_chain.py 299-314, 355-368: the loops. *)
Fixpoint walk (fuel : nat) (f : Z -> Z) (max value : Z) : result Z :=
  if value >? max then
    match fuel with
    | O => Err Diverges
    | S fuel' => walk fuel' f max (f value)
    end
  else Ok value.

(** Fuel: the number of residues above the domain, plus one. No counterpart: see above. *)
Definition walk_fuel (c : aff_config) : nat := Z.to_nat (ac_prime c - ac_max c).

(** affine_permutation.py 105-118 [permute]; 96-103 async. *)
Definition aff_permute (a : aff) (value : Z) : result Z :=
  walk (walk_fuel (af_config a)) (aff_round a) (ac_max (af_config a)) (aff_round a value).

(** affine_permutation.py 129-142 [invert]; 120-127 async. *)
Definition aff_invert (a : aff) (value : Z) : result Z :=
  walk (walk_fuel (af_config a)) (aff_unround a) (ac_max (af_config a)) (aff_unround a value).

(** ** The xor chains *)

(** affine_xor_chain_config.py 59-72: the multiples in KEY_TYPES. *)
Inductive chain_kind := DefaultChain | FastChain.
(** affine_xor_chain_config.py 59-72. *)
Definition key_multiples (k : chain_kind) : list Z :=
  match k with
  | DefaultChain => [1; 2; 1; 2; 1; 2]
  | FastChain => [2; 1; 1; 1]
  end.

(** affine_xor_chain_config.py 133-161 [int(self.SIZE * "a3", 16)] etc. *)
Definition repeat_hex (size : Z) (b : byte) : Z := be_z (repeat b (Z.to_nat size)).

(** affine_xor_chain_config.py 133-161, attributes of the configuration. *)
Record chain_config := {
  cc_kind : chain_kind;
  cc_size : Z;
  cc_ipad : Z;
  cc_opad : Z;
  cc_xpad : Z;
  cc_domain : Z;
  cc_key_size : Z;
  cc_add_key_size : Z;
  cc_xor_key_size : Z;
  cc_perm : aff_config;   (* the configuration of the component permutation *)
}.

(** affine_xor_chain_config.py 133-161 [__init__], with the component
    permutation's configuration of the same size (affine_xor_chain.py 82-93,
    fast_affine_xor_chain.py 62-74). *)
Definition make_chain_config (k : chain_kind) (size mult : Z) : result chain_config :=
  size <- process_size size ;;
  perm <- make_aff_config size mult ;;
  Ok {| cc_kind := k; cc_size := size;
        cc_ipad := repeat_hex size xa3;
        cc_opad := repeat_hex size x1b;
        cc_xpad := repeat_hex size x8d;
        cc_domain := Z.shiftl 1 (8 * size);
        cc_key_size := size * fold_right Z.add 0 (key_multiples k);
        cc_add_key_size := 2 * size;
        cc_xor_key_size := size;
        cc_perm := perm |}.

(** affine_xor_chain.py 59-69, attributes of an instance. *)
Record chain := {
  ch_config : chain_config;
  ch_increment : Z;
  ch_in_key : Z;
  ch_in_mid_key : Z;
  ch_out_mid_key : Z;
  ch_out_key : Z;
  ch_aff_in : aff;
  ch_aff_mid : aff;
  ch_aff_out : aff;
}.

(** [key_reader(size)] over io.BytesIO. As used in affine_xor_chain.py 104-183. *)
Definition read_z (size : Z) (rem : bytes) : bytes * bytes :=
  (take (Z.to_N size) rem, drop (Z.to_N size) rem).

(** affine_xor_chain.py 116-130 [_process_in_key], 153-167 [_process_out_key]. *)
Definition process_xor_key (size : Z) (rem : bytes) : result (Z * bytes) :=
  let '(key, rem) := read_z size rem in
  if zlen key =? size then Ok (be_z key, rem) else Err InvalidLength.

(** affine_xor_chain.py 132-151 [_process_mid_key]. *)
Definition process_mid_key (c : chain_config) (size : Z) (rem : bytes)
    : result (Z * Z * bytes) :=
  let '(key, rem) := read_z size rem in
  if zlen key =? size
  then Ok (Z.lxor (be_z key) (cc_ipad c), Z.lxor (be_z key) (cc_opad c), rem)
  else Err InvalidLength.

(** affine_xor_chain.py 185-201 [_initialize_permutations];
    fast_affine_xor_chain.py 76-92 for the fast chain. *)
Definition initialize_permutations (c : chain_config) (size : Z) (rem : bytes)
    : result (aff * aff * aff) :=
  match cc_kind c with
  | DefaultChain =>
    let '(k1, rem) := read_z size rem in
    a1 <- make_aff (cc_perm c) k1 ;;
    let '(k2, rem) := read_z size rem in
    a2 <- make_aff (cc_perm c) k2 ;;
    a3 <- make_aff (cc_perm c) rem ;;
    Ok (a1, a2, a3)
  | FastChain =>
    let '(k1, _) := read_z size rem in
    a <- make_aff (cc_perm c) k1 ;;
    Ok (a, a, a)
  end.

(** affine_xor_chain.py 203-217 [__init__] with 104-114 [_ingest_key] and
    169-183 [_initialize_keys]. *)
Definition make_chain (c : chain_config) (key : bytes) : result chain :=
  if negb (zlen key =? cc_key_size c) then Err InvalidLength
  else
    ' (in_key, rem1) <- process_xor_key (cc_xor_key_size c) key ;;
    ' (in_mid, out_mid, rem2) <- process_mid_key c (cc_xor_key_size c) rem1 ;;
    ' (out_key, rem3) <- process_xor_key (cc_xor_key_size c) rem2 ;;
    ' (a1, a2, a3) <- initialize_permutations c (cc_add_key_size c) rem3 ;;
    Ok {| ch_config := c; ch_increment := cc_xpad c; ch_in_key := in_key;
          ch_in_mid_key := in_mid; ch_out_mid_key := out_mid; ch_out_key := out_key;
          ch_aff_in := a1; ch_aff_mid := a2; ch_aff_out := a3 |}.

(** No counterpart: assignment to a slot. *)
Definition set_increment (s : chain) (v : Z) : chain :=
  {| ch_config := ch_config s; ch_increment := v; ch_in_key := ch_in_key s;
     ch_in_mid_key := ch_in_mid_key s; ch_out_mid_key := ch_out_mid_key s;
     ch_out_key := ch_out_key s;
     ch_aff_in := ch_aff_in s; ch_aff_mid := ch_aff_mid s; ch_aff_out := ch_aff_out s |}.
(** No counterpart: assignment to a slot. *)
Definition set_in_key (s : chain) (v : Z) : chain :=
  {| ch_config := ch_config s; ch_increment := ch_increment s; ch_in_key := v;
     ch_in_mid_key := ch_in_mid_key s; ch_out_mid_key := ch_out_mid_key s;
     ch_out_key := ch_out_key s;
     ch_aff_in := ch_aff_in s; ch_aff_mid := ch_aff_mid s; ch_aff_out := ch_aff_out s |}.

(** affine_xor_chain.py 226-234 [update_increment]; the new state, or the
    exception (the state is then unchanged). *)
Definition chain_update_increment (s : chain) (value : Z) : result chain :=
  if (cc_domain (ch_config s) >? value) && (value >? 0)
  then Ok (set_increment s (Z.lor (Z.lxor (ch_increment s) value) 1))
  else Err ValueErr.

(** affine_xor_chain.py 246-254 [step]. *)
Definition chain_step (s : chain) : chain :=
  set_in_key s ((ch_in_key s + ch_increment s) mod cc_domain (ch_config s)).

(** affine_xor_chain.py 269-280 [uncapped_permute]. *)
Definition chain_uncapped_permute (s : chain) (value : Z) : result Z :=
  x <- aff_permute (ch_aff_in s) value ;;
  y <- aff_permute (ch_aff_mid s) (Z.lxor x (ch_in_mid_key s)) ;;
  aff_permute (ch_aff_out s) (Z.lxor y (ch_out_mid_key s)).

(** affine_xor_chain.py 299-314 [permute]. *)
Definition chain_permute (s : chain) (value : Z) : result Z :=
  x <- aff_permute (ch_aff_in s) (Z.lxor value (ch_in_key s)) ;;
  y <- aff_permute (ch_aff_mid s) (Z.lxor x (ch_in_mid_key s)) ;;
  z <- aff_permute (ch_aff_out s) (Z.lxor y (ch_out_mid_key s)) ;;
  Ok (Z.lxor z (ch_out_key s)).

(** affine_xor_chain.py 328-338 [uncapped_invert]. *)
Definition chain_uncapped_invert (s : chain) (value : Z) : result Z :=
  x <- aff_invert (ch_aff_out s) value ;;
  y <- aff_invert (ch_aff_mid s) (Z.lxor x (ch_out_mid_key s)) ;;
  aff_invert (ch_aff_in s) (Z.lxor y (ch_in_mid_key s)).

(** affine_xor_chain.py 355-368 [invert]. *)
Definition chain_invert (s : chain) (value : Z) : result Z :=
  x <- aff_invert (ch_aff_out s) (Z.lxor value (ch_out_key s)) ;;
  y <- aff_invert (ch_aff_mid s) (Z.lxor x (ch_out_mid_key s)) ;;
  z <- aff_invert (ch_aff_in s) (Z.lxor y (ch_in_mid_key s)) ;;
  Ok (Z.lxor z (ch_in_key s)).

(** State changing calls on an instance: a refused increment raises and leaves the instance as
    it was. affine_xor_chain.py 226-254. *)
Inductive chain_op := OpStep | OpUpdateIncrement (value : Z).
(** affine_xor_chain.py 226-254. *)
Definition chain_do (s : chain) (o : chain_op) : chain :=
  match o with
  | OpStep => chain_step s
  | OpUpdateIncrement v =>
    match chain_update_increment s v with Ok s' => s' | Err _ => s end
  end.
