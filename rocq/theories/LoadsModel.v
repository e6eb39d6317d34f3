(** * Model of [json.loads] of the Python standard library, with its defaults

    aiootp/ciphers/cipher_interface.py ([json_decrypt]), the databases and
    aiootp/keygens/package_verifier.py read JSON with it.  The function is not part of
    /repo: the model follows [json.decoder] and [json.scanner] of CPython. *)
From Coq Require Import Strings.String Decimal.
From Verif Require Import Base StrModel JsonModel.
Import ListNotations.
Local Open Scope list_scope.
Local Open Scope N_scope.

(** No counterpart: failure ends parsing. *)
Definition obind {A B} (o : option A) (f : A -> option B) : option B :=
  match o with Some a => f a | None => None end.

(** [json.decoder.WHITESPACE]. No counterpart: part of the standard library. *)
Fixpoint ws (s : str) : str :=
  match s with
  | c :: r => if (c =? 32) || (c =? 9) || (c =? 10) || (c =? 13) then ws r else s
  | [] => []
  end.

(** [json.decoder._decode_uXXXX]. No counterpart: part of the standard library. *)
Definition hex_value (c : N) : option N :=
  if (48 <=? c) && (c <=? 57) then Some (c - 48)
  else if (97 <=? c) && (c <=? 102) then Some (c - 87)
  else if (65 <=? c) && (c <=? 70) then Some (c - 55)
  else None.
(** No counterpart: [int(esc, 16)] in [json.decoder._decode_uXXXX]. *)
Definition hex4 (a b c d : N) : option N :=
  obind (hex_value a) (fun a => obind (hex_value b) (fun b => obind (hex_value c) (fun c => obind (hex_value d) (fun d =>
    Some (a * 4096 + b * 256 + c * 16 + d))))).

(** [json.decoder.BACKSLASH]. No counterpart: part of the standard library. *)
Definition backslash (c : N) : option N :=
  if c =? 34 then Some 34 else if c =? 92 then Some 92 else if c =? 47 then Some 47
  else if c =? 98 then Some 8 else if c =? 102 then Some 12 else if c =? 110 then Some 10
  else if c =? 114 then Some 13 else if c =? 116 then Some 9 else None.

(** [json.decoder.py_scanstring] from behind the opening quote, [strict=True]: the characters
    and escapes of the string, and the text behind it. No counterpart: part of the standard
    library. *)
Definition cons_unit (u : N) (x : option (str * str)) : option (str * str) :=
  obind x (fun '(l, s) => Some (u :: l, s)).
(** No counterpart: [json.decoder.py_scanstring]. *)
Fixpoint scan (s : str) : option (str * str) :=
  match s with
  | [] => None
  | c :: r =>
    if c =? 34 then Some ([], r)
    else if c =? 92 then
      match r with
      | [] => None
      | e :: r =>
        if e =? 117 then
          match r with
          | a :: b :: c :: d :: r => obind (hex4 a b c d) (fun u => cons_unit u (scan r))
          | _ => None
          end
        else obind (backslash e) (fun u => cons_unit u (scan r))
      end
    else if c <? 32 then None
    else cons_unit c (scan r)
  end.
(** The escapes of a surrogate pair make one character. (In [py_scanstring] only escapes are
    joined; a text from [str.decode] has no other surrogates.). No counterpart: part of the
    standard library. *)
Fixpoint join (l : list N) : str :=
  match l with
  | [] => []
  | u :: r =>
    match r with
    | v :: r' =>
      if (55296 <=? u) && (u <=? 56319) && (56320 <=? v) && (v <=? 57343)
      then (65536 + (u - 55296) * 1024 + (v - 56320)) :: join r'
      else u :: join r
    | [] => [u]
    end
  end.

(** [json.scanner.NUMBER_RE]: the longest number at the start of a text, and whether it has a
    fraction or an exponent. No counterpart: part of the standard library. *)
Definition is_digit (c : N) : bool := (48 <=? c) && (c <=? 57).
(** No counterpart: part of [json.scanner.NUMBER_RE]. *)
Fixpoint digits (s : str) : str * str :=
  match s with
  | c :: r => if is_digit c then let '(d, t) := digits r in (c :: d, t) else ([], s)
  | [] => ([], [])
  end.
(** No counterpart: part of [json.scanner.NUMBER_RE]. *)
Definition integer_part (s : str) : option (str * str) :=
  match s with
  | c :: r => if c =? 48 then Some ([c], r) else if is_digit c then let '(d, t) := digits r in Some (c :: d, t) else None
  | [] => None
  end.
(** No counterpart: part of [json.scanner.NUMBER_RE]. *)
Definition fraction (s : str) : str * str :=
  match s with
  | c :: r =>
    if c =? 46 then match digits r with ([], _) => ([], s) | (d, t) => (c :: d, t) end else ([], s)
  | [] => ([], [])
  end.
(** No counterpart: part of [json.scanner.NUMBER_RE]. *)
Definition sign (s : str) : str * str :=
  match s with x :: r => if (x =? 43) || (x =? 45) then ([x], r) else ([], s) | [] => ([], []) end.
(** No counterpart: part of [json.scanner.NUMBER_RE]. *)
Definition exponent (s : str) : str * str :=
  match s with
  | c :: r =>
    if (c =? 101) || (c =? 69) then
      let '(sg, r') := sign r in
      match digits r' with ([], _) => ([], s) | (d, t) => (c :: sg ++ d, t) end
    else ([], s)
  | [] => ([], [])
  end.
(** No counterpart: part of [json.scanner.NUMBER_RE]. *)
Definition minus (s : str) : str * str :=
  match s with c :: r => if c =? 45 then ([c], r) else ([], s) | [] => ([], []) end.
(** No counterpart: [json.scanner.NUMBER_RE.match]. *)
Definition number (s : str) : option (str * bool * str) :=
  let '(sg, s) := minus s in
  obind (integer_part s) (fun '(ip, s) =>
    let '(fp, s) := fraction s in
    let '(ep, s) := exponent s in
    Some (sg ++ ip ++ fp ++ ep, match fp, ep with [], [] => false | _, _ => true end, s)).

(** [int()] of the digits; its limit on their number is not modelled. No counterpart: part of
    the standard library. *)
Definition digit_uint (c : N) (u : Decimal.uint) : Decimal.uint :=
  if c =? 48 then D0 u else if c =? 49 then D1 u else if c =? 50 then D2 u else if c =? 51 then D3 u
  else if c =? 52 then D4 u else if c =? 53 then D5 u else if c =? 54 then D6 u else if c =? 55 then D7 u
  else if c =? 56 then D8 u else D9 u.
(** No counterpart: part of [int_of]. *)
Definition chars_uint (s : str) : Decimal.uint := fold_right digit_uint Nil s.
(** No counterpart: [int] of a text that [number] found. *)
Definition int_of (s : str) : Z :=
  match s with
  | c :: r => if c =? 45 then Z.of_int (Neg (chars_uint r)) else Z.of_int (Pos (chars_uint s))
  | [] => 0%Z
  end.

(** [json.scanner.py_make_scanner]: what is not a string, array or object. [float()] of a text
    is represented by the text itself. No counterpart: part of the standard library. *)
Fixpoint after (t s : str) : option str :=
  match t, s with
  | [], s => Some s
  | c :: t, d :: s => if c =? d then after t s else None
  | _ :: _, [] => None
  end.
(** No counterpart: [json.scanner.py_make_scanner]. *)
Definition scalar_at (s : str) : option (json * str) :=
  match after (lit "null") s with Some r => Some (JNull, r) | None =>
  match after (lit "true") s with Some r => Some (JBool true, r) | None =>
  match after (lit "false") s with Some r => Some (JBool false, r) | None =>
  match number s with
  | Some (t, true, r) => Some (JFloat t, r)
  | Some (t, false, r) => Some (JInt (int_of t), r)
  | None =>
  match after (lit "NaN") s with Some r => Some (JFloat (lit "NaN"), r) | None =>
  match after (lit "Infinity") s with Some r => Some (JFloat (lit "Infinity"), r) | None =>
  match after (lit "-Infinity") s with Some r => Some (JFloat (lit "-Infinity"), r) | None => None
  end end end end end end end.

(** [scan_once], [json.decoder.JSONArray] and [JSONObject]. [n] bounds the nesting; Python's
    recursion limit is not modelled. An object with a repeated key becomes a dict with the last
    value. No counterpart: part of the standard library. *)
Fixpoint value_at (n : nat) (s : str) : option (json * str) :=
  match n with
  | O => None
  | S n =>
    match s with
    | [] => None
    | c :: r =>
      if c =? 34 then obind (scan r) (fun '(x, r) => Some (JStr (join x), r))
      else if c =? 91 then
        match ws r with
        | d :: r' => if d =? 93 then Some (JArr [], r') else obind (elements_at n (ws r)) (fun '(l, r) => Some (JArr l, r))
        | [] => None
        end
      else if c =? 123 then
        match ws r with
        | d :: r' => if d =? 125 then Some (JObj [], r')
                     else obind (members_at n (ws r)) (fun '(l, r) => Some (JObj (dict_of str_eqb l), r))
        | [] => None
        end
      else scalar_at s
    end
  end
with elements_at (n : nat) (s : str) : option (list json * str) :=
  match n with
  | O => None
  | S n =>
    obind (value_at n s) (fun '(v, s) =>
      match ws s with
      | c :: r =>
        if c =? 93 then Some ([v], r)
        else if c =? 44 then obind (elements_at n (ws r)) (fun '(l, r) => Some (v :: l, r))
        else None
      | [] => None
      end)
  end
with members_at (n : nat) (s : str) : option (list (str * json) * str) :=
  match n with
  | O => None
  | S n =>
    match s with
    | [] => None
    | q :: s =>
      if q =? 34 then
        obind (scan s) (fun '(x, s) =>
          match ws s with
          | [] => None
          | d :: s =>
            if d =? 58 then
              obind (value_at n (ws s)) (fun '(v, s) =>
                match ws s with
                | c :: r =>
                  if c =? 125 then Some ([(join x, v)], r)
                  else if c =? 44 then obind (members_at n (ws r)) (fun '(l, r) => Some ((join x, v) :: l, r))
                  else None
                | [] => None
                end)
            else None
          end)
      else None
    end
  end.

(** [json.loads] of a text: [JSONDecoder.decode]. Called in cipher_interface.py,
    sync_database.py and package_verifier.py. *)
Definition loads (s : str) : option json :=
  obind (value_at (2 * List.length s + 2) (ws s)) (fun '(v, r) => match ws r with [] => Some v | _ => None end).

(** [json.loads] of bytes. Only ASCII is modelled, which is all [json.dumps] makes: other bytes,
    which Python would decode, are refused here. No counterpart: part of the standard library. *)
Definition chars (b : bytes) : str := map Byte.to_N b.
(** The same calls. *)
Definition loads_bytes (b : bytes) : result json :=
  if forallb (fun c => c <? 128) (chars b)
  then match loads (chars b) with Some v => Ok v | None => Err ValueErr end
  else Err ValueErr.

(** [json.dumps]; a float whose text is none of a Python float is not a Python value, and
    refused. No counterpart: whether a text is a number as JSON writes it. *)
Definition whole_number (r : str) : bool :=
  match number r with Some (_, true, []) => true | _ => false end.
(** No counterpart: the values a Python program can have. *)
Fixpoint writable (v : json) : bool :=
  match v with
  | JNull | JBool _ | JInt _ | JStr _ => true
  | JFloat r => whole_number r || str_eqb r (lit "NaN") || str_eqb r (lit "Infinity") || str_eqb r (lit "-Infinity")
  | JArr l => forallb writable l
  | JObj l => forallb (fun '(_, v) => writable v) l
  end.
(** package_signer.py 235. *)
Definition dumps_value (v : json) : result bytes := if writable v then Ok (dumps_bytes v) else Err TypeErr.
