(** * Model of aiootp/keygens/mnemonics.py and of the phrase encoding in
    aiootp/generics/byte_io.py.

    The async variants repeat the same statements. *)
From Verif Require Import Base BaseFacts CanonModel TransformModel GentoolsModel KdfModel PasscryptModel WordLists.
Local Open Scope N_scope.

Section Mnemonic.
Variables shake_128 shake_256 : hasher.
(** domains.py: constants of the package. *)
Variables KDF_DOMAIN salt_128 PRNG MNEMONIC : bytes.

(** mnemonics.py 56-76 [keyed_choices], 33-53 [akeyed_choices]: everything the
    generator yields when it is run to its end, or the first exception.
    [selection_size] is any int; a negative one fails in [to_bytes]. *)
Definition choose {A} (choices : list A) (index : bytes) : result A :=
  let total_choices := blen choices in
  if total_choices =? 0 then Err ZeroDivisionErr
  else match nth_error choices (N.to_nat (be_int index mod total_choices)) with
       | Some a => Ok a
       | None => Err IndexErr
       end.
(** mnemonics.py 56-76. *)
Definition choice_sizes {A} (choices : list A) (selection_size : Z) : result (list bytes) :=
  total <- to_bytes_be INT_BYTES (blen choices) ;;
  size <- (if (selection_size <? 0)%Z then Err OverflowErr else to_bytes_be INT_BYTES (Z.to_N selection_size)) ;;
  Ok [total; size].
(** mnemonics.py 56-76. *)
Definition keyed_choices {A} (choices : list A) (selection_size : Z) (domain key : bytes) : result (list A) :=
  sizes <- choice_sizes choices selection_size ;;
  kdf <- new_kdf shake_128 KDF_DOMAIN salt_128 domain sizes key ;;
  stream <- run_kdf shake_128 shake_256 kdf [] (Some (16 * Z.to_N selection_size)) PRNG ;;
  mapM (choose choices) (batch stream 16).

(** The settings a caller may pass for passcrypt; the missing ones have the
    defaults of interface.py 232-241. *)
Record settings := { set_mb : Z; set_cpu : Z; set_cores : Z; set_salt_size : Z; set_config : config }.
Variable defaults : settings.
Variable passcrypt_domain kdf_salt PEPPER : bytes.

(** mnemonics.py 109-135 [mnemonic], 79-106 [amnemonic].  [random] is what [csprng]
    returns, [None] settings are an empty dictionary.  The associated data of
    [Passcrypt.new] is its default. *)
Variable DEFAULT_AAD : bytes.
(** mnemonics.py 109-135. *)
Definition passphrase_key (passphrase salt : bytes) (cfg : settings) : result bytes :=
  _ <- validate_settings (set_config cfg) (set_mb cfg) (set_cpu cfg) (set_cores cfg) (Z.of_N MIN_KEY_BYTES) (set_salt_size cfg) ;;
  fst (new (set_config cfg) passcrypt_domain kdf_salt shake_128 PEPPER passphrase salt DEFAULT_AAD
         (set_mb cfg) (set_cpu cfg) (set_cores cfg) (Z.of_N MIN_KEY_BYTES)).
(** No counterpart: a missing argument is false, as an empty one. *)
Definition or_empty (x : option bytes) : bytes := match x with Some x => x | None => [] end.
(** mnemonics.py 109-135. *)
Definition mnemonic (random : bytes) (passphrase : option bytes) (size : Z) (salt : option bytes) (words : option (list bytes))
    (passcrypt_settings : option settings) : result (list bytes) :=
  let words := match words with Some (w :: ws) => w :: ws | _ => WORD_LIST end in
  salt <- canonical_pack [or_empty salt; MNEMONIC] 1 [x00] INT_BYTES ;;
  key <- (match passphrase, passcrypt_settings with
          | Some (b :: bs), _ =>
            passphrase_key (b :: bs) salt (match passcrypt_settings with Some s => s | None => defaults end)
          | _, None => Ok random
          | _, Some _ => Err ValueErr
          end) ;;
  keyed_choices words size MNEMONIC key.
End Mnemonic.

(** ** Phrases *)

(** byte_io.py 151-172 [_bytes_to_phrase], 128-149 [_abytes_to_phrase]:
    [b" ".join]; indexing a tuple of 256 words with a byte never fails. *)
Fixpoint join_words (ws : list bytes) : bytes :=
  match ws with
  | [] => []
  | [w] => w
  | w :: ws => w ++ [x20] ++ join_words ws
  end.
(** byte_io.py 151-172. *)
Definition word_of (b : byte) : bytes := nth (N.to_nat (bval b)) WORD_LIST_256 [].
(** byte_io.py 151-172. *)
Definition bytes_to_phrase (value : bytes) : bytes := join_words (map word_of value).

(** [bytes.strip()]: ASCII whitespace. For byte_io.py 198-219. *)
Definition is_space (b : byte) : bool :=
  existsb (Byte.eqb b) [x20; x09; x0a; x0b; x0c; x0d].
(** No counterpart: [bytes.lstrip()]. *)
Fixpoint lstrip (l : bytes) : bytes :=
  match l with
  | b :: l' => if is_space b then lstrip l' else l
  | [] => []
  end.
(** As used in byte_io.py 198-219. *)
Definition strip (l : bytes) : bytes := rev (lstrip (rev (lstrip l))).

(** [bytes.split(b" ")]: always at least one piece. As used in byte_io.py 198-219. *)
Fixpoint split_spaces (acc l : bytes) : list bytes :=
  match l with
  | [] => [rev acc]
  | b :: l => if Byte.eqb b x20 then rev acc :: split_spaces [] l else split_spaces (b :: acc) l
  end.

(** datasets.py 2683 [_WORD_LIST_256_INVERSE]: a dict made from pairs, where the
    last pair with a key counts. *)
Fixpoint last_index (w : bytes) (ws : list bytes) (i : N) (found : option N) : option N :=
  match ws with
  | [] => found
  | v :: ws => last_index w ws (i + 1) (if bytes_eqb v w then Some i else found)
  end.
(** datasets.py 2683. *)
Definition byte_of_word (w : bytes) : result byte :=
  match last_index w WORD_LIST_256 0 None with
  | Some i => Ok (byte_of i)
  | None => Err KeyErr
  end.
(** byte_io.py 198-219 [_phrase_to_bytes], 174-196 [_aphrase_to_bytes]. *)
Definition phrase_to_bytes (phrase : bytes) : result bytes :=
  mapM byte_of_word (split_spaces [] (strip phrase)).
