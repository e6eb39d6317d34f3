(** * Model of [json.dumps] of the Python standard library, with its defaults

    aiootp/keygens/package_signer.py 235, aiootp/keygens/package_verifier.py 93,
    aiootp/ciphers/cipher_interface.py ([json_encrypt]) and the databases turn JSON
    values into bytes with it.  The function is not part of /repo: the model follows
    [json.encoder.JSONEncoder] of CPython with [ensure_ascii=True] and the separators
    [", "] and [": "]. *)
From Coq Require Import Strings.String Strings.Ascii.
From Coq Require Import Decimal DecimalZ.
From Verif Require Import Base StrModel.
Local Open Scope N_scope.

(** JSON values: what a Python program hands to [json.dumps]. Dictionaries have only string keys
    here (other keys are turned into strings by [json.dumps]). Floats are given by the text
    [float.__repr__] makes of them, or by [NaN], [Infinity], [-Infinity]. Arguments of
    package_signer.py 235. *)
Inductive json :=
| JNull
| JBool (b : bool)
| JInt (z : Z)
| JFloat (repr : str)
| JStr (s : str)
| JArr (l : list json)
| JObj (l : list (str * json)).

(** [int.__repr__]; its limit on the number of digits is not modelled. No counterpart: part of
    the standard library, see above. *)
Fixpoint uint_chars (u : Decimal.uint) : str :=
  match u with
  | Nil => []
  | D0 u => 48 :: uint_chars u | D1 u => 49 :: uint_chars u | D2 u => 50 :: uint_chars u
  | D3 u => 51 :: uint_chars u | D4 u => 52 :: uint_chars u | D5 u => 53 :: uint_chars u
  | D6 u => 54 :: uint_chars u | D7 u => 55 :: uint_chars u | D8 u => 56 :: uint_chars u
  | D9 u => 57 :: uint_chars u
  end.
(** No counterpart: [int.__repr__] of the standard library. *)
Definition int_repr (z : Z) : str :=
  match Z.to_int z with
  | Pos u => uint_chars u
  | Neg u => 45 :: uint_chars u
  end.

(** [json.encoder.py_encode_basestring_ascii]: the UTF-16 code units of a code point, and the
    escape of one unit. No counterpart: part of the standard library. *)
Definition units (c : N) : list N :=
  if c <? 65536 then [c]
  else [55296 + (c - 65536) / 1024; 56320 + (c - 65536) mod 1024].
(** No counterpart: part of [escape]. *)
Definition hex_char (d : N) : N := if d <? 10 then 48 + d else 87 + d.
(** No counterpart: [json.encoder.ESCAPE_ASCII] and its replacement function. *)
Definition escape (u : N) : str :=
  if u =? 34 then [92; 34]                      (* quotation mark *)
  else if u =? 92 then [92; 92]                 (* backslash *)
  else if u =? 10 then [92; 110]                (* \n *)
  else if u =? 13 then [92; 114]                (* \r *)
  else if u =? 9 then [92; 116]                 (* \t *)
  else if u =? 12 then [92; 102]                (* \f *)
  else if u =? 8 then [92; 98]                  (* \b *)
  else if (32 <=? u) && (u <=? 126) then [u]
  else [92; 117; hex_char (u / 4096 mod 16); hex_char (u / 256 mod 16); hex_char (u / 16 mod 16); hex_char (u mod 16)].
(** No counterpart: [json.encoder.py_encode_basestring_ascii]. *)
Definition dumps_str (s : str) : str := 34 :: flat_map escape (flat_map units s) ++ [34].

(** [json.encoder._make_iterencode]. No counterpart: part of [dumps]. *)
Definition intercalate (sep : str) (l : list str) : str :=
  match l with
  | [] => []
  | x :: l => x ++ flat_map (fun y => sep ++ y) l
  end.
(** No counterpart: [json.dumps] of the standard library. *)
Fixpoint dumps (v : json) : str :=
  match v with
  | JNull => lit "null"
  | JBool true => lit "true"
  | JBool false => lit "false"
  | JInt z => int_repr z
  | JFloat r => r
  | JStr s => dumps_str s
  | JArr l => 91 :: intercalate [44; 32] (map dumps l) ++ [93]
  | JObj l => 123 :: intercalate [44; 32] (map (fun '(k, v) => dumps_str k ++ [58; 32] ++ dumps v) l) ++ [125]
  end.
(** [str.encode()] of the result, which is ASCII. As in package_signer.py 235. *)
Definition ascii_encode (s : str) : bytes := map byte_of s.
(** package_signer.py 235, package_verifier.py 93. *)
Definition dumps_bytes (v : json) : bytes := ascii_encode (dumps v).
