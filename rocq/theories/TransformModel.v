(** * Model of aiootp/generics/transform.py and the encodings of
    aiootp/generics/byte_io.py.  Text is represented by its ASCII bytes. *)
From Verif Require Import Base CanonModel.
Local Open Scope N_scope.

(** [table.find(char)] (first occurrence). As used in transform.py 59-78. *)
Fixpoint find_index (c : byte) (table : bytes) : option N :=
  match table with
  | [] => None
  | t :: table' =>
    if byte_eqb c t then Some 0
    else match find_index c table' with
         | Some i => Some (i + 1)
         | None => None
         end
  end.

(** [base = len(table)] when no base is given. transform.py 59-78, 108-130. *)
Definition base_or (base : option N) (table : bytes) : N :=
  match base with Some b => b | None => blen table end.

(** transform.py 59-78 [base_as_int]; 35-56 [abase_as_int].  The loop runs over
    the reversed string.  Negative bases are not modelled. *)
Fixpoint base_as_int_loop (rev_string : bytes) (base power result_ : N)
    (base_table : bytes) : result N :=
  match rev_string with
  | [] => Ok result_
  | char :: rest =>
    match find_index char base_table with
    | None => Err ValueErr
    | Some i => base_as_int_loop rest base (power * base) (result_ + i * power) base_table
    end
  end.
(** transform.py 59-78. *)
Definition base_as_int (string : bytes) (base : option N) (table : bytes) : result N :=
  let base := base_or base table in
  base_as_int_loop (rev string) base 1 0 (take base table).

(** transform.py 108-130 [int_as_base]; 81-105 [aint_as_base]: the digits, least
    significant first ([digits.append]).  The fuel is exhausted only if the
    Python loop does not end (base 1). *)
Fixpoint int_as_base_loop (fuel : nat) (number base : N) (base_table : bytes)
    : result bytes :=
  if number =? 0 then Ok []
  else
    match fuel with
    | O => Err Diverges
    | S fuel' =>
      if base =? 0 then Err ZeroDivisionErr
      else
        match nth_error base_table (N.to_nat (number mod base)) with
        | None => Err IndexErr
        | Some digit =>
          digits <- int_as_base_loop fuel' (number / base) base base_table ;;
          Ok (digit :: digits)
        end
    end.
(** transform.py 108-130. *)
Definition int_as_base (number : N) (base : option N) (table : bytes) : result bytes :=
  if number =? 0 then Ok (take 1 table)
  else
    let base := base_or base table in
    digits <- int_as_base_loop (N.size_nat number) number base (take base table) ;;
    Ok (rev digits).

(** aiootp/_constants/datasets.py: BASE_38 = "-0123456789_abcdefghijklmnopqrstuvwxyz". As used
    in byte_io.py 97-125. *)
Definition BASE_38 : bytes :=
  [x2d; x30; x31; x32; x33; x34; x35; x36; x37; x38; x39; x5f;
   x61; x62; x63; x64; x65; x66; x67; x68; x69; x6a; x6b; x6c; x6d; x6e; x6f;
   x70; x71; x72; x73; x74; x75; x76; x77; x78; x79; x7a].

(** byte_io.py 97-107 [bytes_to_filename]; 83-94 async. *)
Definition bytes_to_filename (value : bytes) : result bytes :=
  int_as_base (be_int value) (Some 38) BASE_38.

(** byte_io.py 119-125 [filename_to_bytes]; 109-116 async.
    [ceil(result.bit_length() / 8)]. *)
Definition filename_to_bytes (filename : bytes) : result bytes :=
  n <- base_as_int filename (Some 38) BASE_38 ;;
  to_bytes_be (ceil_div (N.size n) 8) n.

(** *** base64, as the Python standard library computes it *)

(** Alphabet of urlsafe_b64encode. No counterpart: part of the standard library. *)
Definition b64_char (i : N) : byte :=
  if i <? 26 then byte_of (65 + i)
  else if i <? 52 then byte_of (97 + (i - 26))
  else if i <? 62 then byte_of (48 + (i - 52))
  else if i =? 62 then x2d else x5f.

(** binascii.b2a_base64 with the urlsafe alphabet, including '='. As used in byte_io.py 54-60. *)
Fixpoint urlsafe_b64encode (v : bytes) : bytes :=
  match v with
  | [] => []
  | [a] =>
    let a := bval a in
    [b64_char (a / 4); b64_char ((a mod 4) * 16); x3d; x3d]
  | [a; b] =>
    let a := bval a in let b := bval b in
    [b64_char (a / 4); b64_char ((a mod 4) * 16 + b / 16);
     b64_char ((b mod 16) * 4); x3d]
  | a :: b :: c :: v' =>
    let a := bval a in let b := bval b in let c := bval c in
    b64_char (a / 4) :: b64_char ((a mod 4) * 16 + b / 16) ::
    b64_char ((b mod 16) * 4 + c / 64) :: b64_char (c mod 64) :: urlsafe_b64encode v'
  end.

(** urlsafe_b64decode: '-' -> '+', '_' -> '/'. No counterpart: part of the standard library. *)
Definition urlsafe_translate (c : byte) : byte :=
  if byte_eqb c x2d then x2b else if byte_eqb c x5f then x2f else c.

(** table_a2b_base64 of binascii (None: not in the alphabet). No counterpart: part of the
    standard library. *)
Definition a2b_char (c : byte) : option N :=
  let n := bval c in
  if (65 <=? n) && (n <=? 90) then Some (n - 65)
  else if (97 <=? n) && (n <=? 122) then Some (n - 97 + 26)
  else if (48 <=? n) && (n <=? 57) then Some (n - 48 + 52)
  else if n =? 43 then Some 62
  else if n =? 47 then Some 63
  else None.

(** binascii.a2b_base64, non-strict: characters outside the alphabet are
    skipped; a complete pad sequence ends the input. *)
Fixpoint a2b_base64 (s : bytes) (quad_pos left pads : N) : result bytes :=
  match s with
  | [] => if quad_pos =? 0 then Ok [] else Err BinasciiErr
  | c :: s' =>
    if byte_eqb c x3d then
      if (2 <=? quad_pos) && (4 <=? quad_pos + (pads + 1)) then Ok []
      else a2b_base64 s' quad_pos left (if 2 <=? quad_pos then pads + 1 else pads)
    else
      match a2b_char c with
      | None => a2b_base64 s' quad_pos left pads
      | Some ch =>
        if quad_pos =? 0 then a2b_base64 s' 1 ch 0
        else if quad_pos =? 1 then
          out <- a2b_base64 s' 2 (ch mod 16) 0 ;; Ok (byte_of (left * 4 + ch / 16) :: out)
        else if quad_pos =? 2 then
          out <- a2b_base64 s' 3 (ch mod 4) 0 ;; Ok (byte_of (left * 16 + ch / 4) :: out)
        else
          out <- a2b_base64 s' 0 0 0 ;; Ok (byte_of (left * 64 + ch) :: out)
      end
  end.
(** As used in byte_io.py 74-81. *)
Definition urlsafe_b64decode (s : bytes) : result bytes :=
  a2b_base64 (map urlsafe_translate s) 0 0 0.

(** byte_io.py 54-60 [bytes_to_urlsafe]; 45-51 async. *)
Definition bytes_to_urlsafe (value : bytes) : bytes :=
  filter (fun c => negb (byte_eqb c x3d)) (urlsafe_b64encode value).

(** byte_io.py 74-81 [urlsafe_to_bytes]; 62-71 async ([str] input is the same
    ASCII bytes). *)
Definition urlsafe_to_bytes (value : bytes) : result bytes :=
  padded <- fullblock_ljust value 4 [x3d] ;;
  urlsafe_b64decode padded.
