(** * Model of the names of salt files: aiootp/generics/transform.py 131-152 and
    aiootp/_paths.py 65-160.  Text is represented by its ASCII bytes. *)
From Verif Require Import Base CanonModel TransformModel GentoolsModel.
Local Open Scope N_scope.

(** transform.py 144-152 [xi_mix]; 133-141 [axi_mix].  Negative sizes are not
    modelled. *)
Definition xi_mix (bytes_hash : bytes) (size : N) : result bytes :=
  to_bytes_be size (fold_left (fun result chunk => N.lxor result (be_int chunk)) (batch bytes_hash size) 0).

(** _constants/misc.py 31, 253 [FILENAME_HASH_SLICE]. *)
Definition FILENAME_HASH_BYTES : N := 24.

(** _paths.py 123-134 [deniable_filename]; 109-120 [adeniable_filename].
    [sha3_256 x] stands for [sha3_256(x).digest()]. *)
Definition deniable_filename (sha3_256 : bytes -> bytes) (key : bytes) (size : Z) : result bytes :=
  if negb (Z.leb size 16 && Z.leb 1 size) then Err ValueErr
  else if negb (Z.leb (2 * size) (Z.of_N (blen key))) then Err ValueErr
  else
    mix <- xi_mix key (Z.to_N size) ;;
    bytes_to_filename (take FILENAME_HASH_BYTES (sha3_256 mix)).

(** _constants/misc.py 131, domains.py 124-126: [Domains.FILENAME_TO_INDEX] is an
    argument.  _paths.py 89-106 [filename_to_index_key]; 68-86 the asynchronous one:
    the key under which the guards of a file are kept ([filename] is the UTF-8 of the
    path). *)
Definition filename_to_index_key (shake_128 : hasher) (FILENAME_TO_INDEX : bytes) (filename : bytes) (aad : list bytes)
    (size : N) (key : option bytes) : result bytes :=
  hash_bytes shake_128 (FILENAME_TO_INDEX :: filename :: aad) [x00] (Some size) key.
