(** * Model of aiootp/generics/canon.py and aiootp/generics/hashing.py.

    The async variants (acanonical_pack etc.) repeat the same statements with
    event-loop switches in between; they are modelled by the same functions. *)
From Verif Require Import Base.
Local Open Scope N_scope.

(** aiootp/_constants/misc.py: INT_BYTES = 8. *)
Definition INT_BYTES : N := 8.

(** canon.py 72-82 [fullblock_ljust]; 58-69 [afullblock_ljust].
    [ceil(len(data) / blocksize)] raises ZeroDivisionError for 0. *)
Definition fullblock_ljust (data : bytes) (blocksize : N) (pad : bytes) : result bytes :=
  if blocksize =? 0 then Err ZeroDivisionErr
  else ljust data (blocksize * ceil_div (blen data) blocksize) pad.

(** canon.py 107-126 [encode_key]; 85-104 [aencode_key]. *)
Definition encode_key (key : bytes) (blocksize : N) (pad : bytes) : result bytes :=
  match key with
  | [] => Err ValueErr
  | _ =>
    key_length <- to_bytes_le 8 (blen key) ;;
    bsize <- to_bytes_le 8 blocksize ;;
    fullblock_ljust (key ++ key_length ++ bsize ++ pad) blocksize pad
  end.

(** canon.py 143-153 [encode_items]: one yielded chunk per item. *)
Definition encode_item (int_bytes : N) (item : bytes) : result bytes :=
  size <- to_bytes_be int_bytes (blen item) ;;
  Ok (size ++ item).

(** canon.py 143-153 [encode_items], the list of all yielded chunks. *)
Definition encode_items (int_bytes : N) (items : list bytes) : result (list bytes) :=
  c0 <- to_bytes_be 1 int_bytes ;;
  c1 <- to_bytes_be int_bytes (blen items) ;;
  cs <- mapM (encode_item int_bytes) items ;;
  Ok (c0 :: c1 :: cs).

(** canon.py 209-251 [canonical_pack]; 156-206 [acanonical_pack]. *)
Definition canonical_pack (items : list bytes) (blocksize : N) (pad : bytes)
    (int_bytes : N) : result bytes :=
  blocksize_blob <- to_bytes_be int_bytes blocksize ;;
  chunks <- encode_items int_bytes (blocksize_blob :: pad :: items) ;;
  fullblock_ljust (concat chunks) blocksize pad.

(** canon.py 275-293 [decode_items]; 254-272 [adecode_items].  The [read]
    callable over io.BytesIO is the list of bytes not read yet. *)
Fixpoint decode_items (item_count : nat) (int_bytes : N) (rem : bytes)
    : result (list bytes * bytes) :=
  match item_count with
  | O => Ok ([], rem)
  | S n =>
    ' (size, rem1) <- bio_read int_bytes rem ;;
    let item_size := be_int size in
    ' (item, rem2) <- bio_read item_size rem1 ;;
    if negb (blen item =? item_size) then Err (CanonicalEncodingError ItemLengthMismatch)
    else
      ' (items, rem3) <- decode_items n int_bytes rem2 ;;
      Ok (item :: items, rem3)
  end.

(** canon.py 296-313 [test_canonical_padding].  Returns the items left in the
    deque after the two [popleft]s.  [total_size % 0] raises
    ZeroDivisionError; [set(pad).issuperset(read())] with a one byte pad. *)
Definition test_canonical_padding (rem : bytes) (items : list bytes) (total_size : N)
    : result (list bytes) :=
  match items with
  | blob :: pad :: items' =>
    let blocksize := be_int blob in
    if blocksize =? 0 then Err ZeroDivisionErr
    else if negb (total_size mod blocksize =? 0)
    then Err (CanonicalEncodingError DataLengthBlocksizeMismatch)
    else
      match pad with
      | [p] =>
        if forallb (byte_eqb p) rem then Ok items'
        else Err (CanonicalEncodingError InvalidPadding)
      | _ => Err (CanonicalEncodingError InvalidPadding)
      end
  | _ => Err (CanonicalEncodingError MissingMetadataItems)
  end.

(** canon.py 336-353 [canonical_unpack]; 316-333 [acanonical_unpack]. *)
Definition canonical_unpack (data : bytes) : result (list bytes) :=
  let total_size := blen data in
  ' (s, rem0) <- bio_read 1 data ;;
  let int_bytes := be_int s in
  ' (c, rem1) <- bio_read int_bytes rem0 ;;
  let item_count := be_int c in
  if total_size <? int_bytes * (item_count + 1) + 3
  then Err (CanonicalEncodingError InflatedSizeDeclaration)
  else
    ' (items, rem2) <- decode_items (N.to_nat item_count) int_bytes rem1 ;;
    test_canonical_padding rem2 items total_size.

(** A hashlib constructor: block size, default digest size, and the digest
    function of everything absorbed.  For XOFs (shake) [digest_size] is 0 and
    the digest takes a length; for the others [digest(size)] is a TypeError. *)
Record hasher := {
  h_block_size : N;
  h_digest_size : N;
  h_is_xof : bool;
  h_digest : bytes -> N -> bytes;   (* absorbed bytes, output length *)
}.

(** Calling [obj.digest(size)] / [obj.digest()]. hashing.py 57-59, 89-91. *)
Definition call_digest (h : hasher) (absorbed : bytes) (size : option N) : result bytes :=
  match size, h_is_xof h with
  | Some n, true => Ok (h_digest h absorbed n)
  | None, false => Ok (h_digest h absorbed (h_digest_size h))
  | _, _ => Err TypeErr
  end.

(** Python truthiness of [size or obj.digest_size]. hashing.py 51, 83. *)
Definition size_or (size : option N) (dflt : N) : N :=
  match size with
  | None => dflt
  | Some n => if n =? 0 then dflt else n
  end.
(** hashing.py 57, 89: [if size]. *)
Definition truthy_size (size : option N) : option N :=
  match size with
  | None => None
  | Some n => if n =? 0 then None else Some n
  end.

(** hashing.py 62-91 [hash_bytes], 30-59 [ahash_bytes]: everything that is
    given to [obj.update]. *)
Definition hash_bytes_absorbed (h : hasher) (collection : list bytes) (pad : bytes)
    (size : option N) (key : option bytes) : result bytes :=
  prefix <- match key with
            | None => Ok []
            | Some k => encode_key k (h_block_size h) pad
            end ;;
  size_blob <- to_bytes_be INT_BYTES (size_or size (h_digest_size h)) ;;
  packed <- canonical_pack (size_blob :: collection) (h_block_size h) pad INT_BYTES ;;
  Ok (prefix ++ packed).

(** hashing.py 62-91 [hash_bytes]. *)
Definition hash_bytes (h : hasher) (collection : list bytes) (pad : bytes)
    (size : option N) (key : option bytes) : result bytes :=
  absorbed <- hash_bytes_absorbed h collection pad size key ;;
  call_digest h absorbed (truthy_size size).
