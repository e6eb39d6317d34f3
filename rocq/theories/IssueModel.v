(** * Model of the messages of exceptions

    aiootp/_exceptions.py.  A message is made from a template by replacing the names in it.  What [repr] and [str] give
    for the values is an argument here, except for numbers. *)
From Coq Require Import ZArith Strings.String DecimalString.
From Verif Require Import Base StrModel.
Local Open Scope Z_scope.
Open Scope list_scope.

(** No counterpart: [s.startswith(old)]. *)
Fixpoint starts_with (old s : str) : bool :=
  match old, s with
  | [], _ => true
  | x :: old, y :: s => N.eqb x y && starts_with old s
  | _ :: _, [] => false
  end.
(** No counterpart: part of Python.  [s.replace(old, new)] from left to right, for [old] that is not empty, with [skip]
    characters of an occurrence still to be passed. *)
Fixpoint replace_from (old new s : str) (skip : nat) : str :=
  match s with
  | [] => []
  | c :: s' =>
    match skip with
    | S skip => replace_from old new s' skip
    | O => if starts_with old s then new ++ replace_from old new s' (length old - 1) else c :: replace_from old new s' 0
    end
  end.
(** No counterpart: part of Python.  [s.replace(old, new)]. *)
Definition replace (old new s : str) : str := replace_from old new s 0.
(** No counterpart: part of Python.  [repr] and [str] of an int. *)
Definition decimal (n : Z) : str := lit (NilZero.string_of_int (Z.to_int n)).

(** No counterpart: an exception, with its class and its text. *)
Record issue := { class : string; text : str }.

(** _exceptions.py 70-90 [Metadata]: of a value, whether its class is [bytes], and its size (used only then). *)
Record metadata := { m_bytes : bool; m_size : Z }.
(** No counterpart: a value given as a passphrase or salt. *)
Inductive given := GivenBytes (b : bytes) | GivenOther (size : Z) (content : str).
(** _exceptions.py 80-82. *)
Definition metadata_of (v : given) : metadata :=
  match v with
  | GivenBytes b => {| m_bytes := true; m_size := Z.of_nat (length b) |}
  | GivenOther size _ => {| m_bytes := false; m_size := size |}
  end.

(** _exceptions.py 497-497. *)
Definition INVALID_VALUE : str := lit "Invalid NAME!".
(** _exceptions.py 498-498. *)
Definition INVALID_LENGTH : str := lit "len(NAME) != LENGTH.".
(** _exceptions.py 499-499. *)
Definition VALUE_MUST : str := lit "The NAME value must CONTEXT.".
(** _exceptions.py 500-500. *)
Definition MUST_SET_VALUE : str := lit "Must set NAME for CONTEXT.".
(** _exceptions.py 502-502. *)
Definition VALUE_ALREADY_SET : str := lit "The OBJECT is already set to CONTEXT.".
(** _exceptions.py 503-503. *)
Definition VALUE_MUST_BE_TYPE : str := lit "The NAME value must be a TYPE object.".
(** _exceptions.py 504-506. *)
Definition VALUE_MUST_BE_SUBTYPE : str := lit "The NAME value must match or subclass TYPE.".
(** _exceptions.py 507-507. *)
Definition EXCEEDED_BLOCKSIZE : str := lit "Data block MUST NOT exceed BLOCKSIZE bytes.".
(** _exceptions.py 508-510. *)
Definition CANT_REASSIGN_ATTRIBUTE : str := lit "Can't re-assign the existing NAME attribute.".
(** _exceptions.py 511-513. *)
Definition CANT_DEASSIGN_ATTRIBUTE : str := lit "Can't de-assign the existing NAME attribute.".
(** _exceptions.py 514-516. *)
Definition UNUSED_PARAMETERS : str := lit "The PARAMETERS parameters are not used when CONTEXT.".
(** _exceptions.py 520-522. *)
Definition SLOTS_CONFLICTS_WITH_CLASS_VARIABLES : str := lit "'CONFLICTS' in __slots__ conflicts with class variable".
(** _exceptions.py 672-674. *)
Definition INVALID_KEY_SIZE : str := lit "`key` was KEY_SIZE bytes, but must be at least MIN_SIZE bytes.".
(** _exceptions.py 676-678. *)
Definition MODE_ISNT_CORRECT : str := lit "The KDF mode must be set to MODE to use MODE key derivation.".
(** _exceptions.py 710-713. *)
Definition BLOCK_ID_IS_TOO_SMALL : str := lit "A block id of SIZE bytes is too small. It must be at least MIN bytes to securely authenticate a block.".
(** _exceptions.py 714-716. *)
Definition BLOCK_ID_IS_TOO_BIG : str := lit "A block id of SIZE bytes is too big. It can be at most MAX bytes.".
(** _exceptions.py 774-785. *)
Definition IMPROPER_PASSPHRASE : str := lit "The given passphrase is too short, at least NEED more characters need to be added. 
Try using aiootp.mnemonic, it can help in generating a strong passphrase.
 _____________________________________
|                                     |
|            Usage Example:           |
|_____________________________________|

my_new_passphrase = b'-'.join(aiootp.mnemonic())

print(my_new_passphrase)
b'review-letter-blast-giant-connect-ring-balcony-frown'".
(** _exceptions.py 786-788. *)
Definition IMPROPER_SALT : str := lit "len(salt) must be >= MIN_SALT_SIZE and <= MAX_SALT_SIZE".
(** _exceptions.py 789-789. *)
Definition INVALID_MB : str := lit "mb:MB must be int >= MIN_MB and <= MAX_MB".
(** _exceptions.py 790-790. *)
Definition INVALID_CPU : str := lit "cpu:CPU must be int >= MIN_CPU and <= MAX_CPU".
(** _exceptions.py 791-793. *)
Definition INVALID_CORES : str := lit "cores:CORES must be int >= MIN_CORES and <= MAX_CORES".
(** _exceptions.py 794-794. *)
Definition INVALID_TAG_SIZE : str := lit "tag_size:SIZE must be int >= MIN_TAG_SIZE".
(** _exceptions.py 795-797. *)
Definition INVALID_SALT_SIZE : str := lit "salt_size:SIZE must be int >= MIN_SALT_SIZE and <= MAX_SALT_SIZE".
(** _exceptions.py 798-832. *)
Definition UNTRUSTED_RESOURCE_CONSUMPTION : str := lit "The PARAMETER parameter was blocked from being processed because it fell outside of the allowed range of resource consumption set by the verification method. To continue verifying the provided hash, explicit permission must be given in the form of a `builtins.range` object which includes the value VALUE.

 _____________________________________
|                                     |
|            Usage Example:           |
|_____________________________________|

from aiootp import Passcrypt

allowed_resource_consumption = dict(
    mb_allowed=range(16, 256),  # Less than 256 MiB allowed
    cpu_allowed=range(2, 8),    # Less than 8 complexity allowed
    cores_allowed=range(1, 5),  # Less than 5 processes allowed
)
try:
    Passcrypt.verify(hashed_pw, pw, **allowed_resource_consumption)
except ResourceWarning as danger:
    admin.log(danger)
    hard_limits_exceeded = (
        danger.requested_resources.mb > 512
        or danger.requested_resources.cpu > 11
        or danger.requested_resources.cores > 8
    )
    below_security_guidelines = (
        danger.requested_resources.mb < 16
        or danger.requested_resources.cpu < 2
    )
    if hard_limits_exceeded:
        raise danger
    elif below_security_guidelines:
        raise PermissionError('Minimum hash difficulty unmet.')
    Passcrypt.verify(hashed_pw, pw)
".
(** _exceptions.py 977-977. *)
Definition FILE_NOT_FOUND : str := lit "The NAME filename was not located.".
(** _exceptions.py 978-978. *)
Definition NO_EXISTING_METATAG : str := lit "No metatag database named TAG.".
(** _exceptions.py 980-980. *)
Definition TAG_FILE_DOESNT_EXIST : str := lit "TAG tag data isn't in the database.".
(** _exceptions.py 1005-1008. *)
Definition INVALID_FILE_DIGEST : str := lit "The summary & the hash digest of the given file don't match: FILENAME.".
(** _exceptions.py 320-323. *)
Definition UNDEFINED : str := lit "The following required attributes remained undefined after object initialization: UNDEFINED_ATTRIBUTES.".
(** _exceptions.py 375-377. *)
Definition CIPHERTEXT_SIZE : str := lit "The given ciphertext length of SIZE isn't a valid size.".
(** _exceptions.py 452-455. *)
Definition OVERSPECIFIED : str := lit "Specifying the type of the NAME variable is redundant or unnecessary.".
(** _exceptions.py 470-474. *)
Definition UNCHECKABLE : str := lit "The NAME variable's type was declared using VALUE_TYPE, which isn't checkable at runtime. Perhaps use a `Protocol` decorated with `@typing.runtime_checkable` instead?".

(** _exceptions.py 524-529 [invalid_value]. *)
Definition invalid_value (name problem : str) : issue :=
  let issue := replace (lit "NAME") name INVALID_VALUE in
  {| class := "ValueError";
     text := match problem with [] => issue | _ => issue ++ lit " The " ++ name ++ lit " can't be " ++ problem ++ lit "." end |}.
(** _exceptions.py 532-534 [invalid_length]. *)
Definition invalid_length (name : str) (length : Z) : issue := {| class := "ValueError"; text := replace (lit "LENGTH") (decimal length) (replace (lit "NAME") name INVALID_LENGTH) |}.
(** _exceptions.py 537-539 [value_must]. *)
Definition value_must (name context : str) : issue := {| class := "ValueError"; text := replace (lit "CONTEXT") context (replace (lit "NAME") name VALUE_MUST) |}.
(** _exceptions.py 542-544 [must_set_value]. *)
Definition must_set_value (name context : str) : issue := {| class := "ValueError"; text := replace (lit "CONTEXT") context (replace (lit "NAME") name MUST_SET_VALUE) |}.
(** _exceptions.py 551-558 [value_already_set]. *)
Definition value_already_set (obj context : str) : issue := {| class := "PermissionError"; text := replace (lit "CONTEXT") context (replace (lit "OBJECT") obj VALUE_ALREADY_SET) |}.
(** _exceptions.py 561-568 [must_be_type]. *)
Definition must_be_type (name clss : str) : issue := {| class := "TypeError"; text := replace (lit "TYPE") clss (replace (lit "NAME") name VALUE_MUST_BE_TYPE) |}.
(** _exceptions.py 571-578 [must_be_subtype]. *)
Definition must_be_subtype (name clss : str) : issue := {| class := "TypeError"; text := replace (lit "TYPE") clss (replace (lit "NAME") name VALUE_MUST_BE_SUBTYPE) |}.
(** _exceptions.py 581-583 [exceeded_blocksize]. *)
Definition exceeded_blocksize (blocksize : Z) : issue := {| class := "OverflowError"; text := replace (lit "BLOCKSIZE") (decimal blocksize) EXCEEDED_BLOCKSIZE |}.
(** _exceptions.py 586-588 [cant_reassign_attribute]. *)
Definition cant_reassign_attribute (name : str) : issue := {| class := "PermissionError"; text := replace (lit "NAME") name CANT_REASSIGN_ATTRIBUTE |}.
(** _exceptions.py 591-593 [cant_deassign_attribute]. *)
Definition cant_deassign_attribute (name : str) : issue := {| class := "PermissionError"; text := replace (lit "NAME") name CANT_DEASSIGN_ATTRIBUTE |}.
(** _exceptions.py 596-603 [unused_parameters]. *)
Definition unused_parameters (params context : str) : issue := {| class := "ValueError"; text := replace (lit "CONTEXT") context (replace (lit "PARAMETERS") params UNUSED_PARAMETERS) |}.
(** _exceptions.py 610-616 [slots_conflicts_with_class_variables]. *)
Definition slots_conflicts_with_class_variables (conflicts : str) : issue := {| class := "ValueError"; text := replace (lit "CONFLICTS") conflicts SLOTS_CONFLICTS_WITH_CLASS_VARIABLES |}.
(** _exceptions.py 683-685 [invalid_key_size]. *)
Definition invalid_key_size (size min_size : Z) : issue := {| class := "ValueError"; text := replace (lit "KEY_SIZE") (decimal size) (replace (lit "MIN_SIZE") (decimal min_size) INVALID_KEY_SIZE) |}.
(** _exceptions.py 692-694 [mode_isnt_correct]. *)
Definition mode_isnt_correct (mode : str) : issue := {| class := "ValueError"; text := replace (lit "MODE") mode MODE_ISNT_CORRECT |}.
(** _exceptions.py 737-745 [block_id_is_too_small]. *)
Definition block_id_is_too_small (size min_size : Z) : issue := {| class := "PermissionError"; text := replace (lit "MIN") (decimal min_size) (replace (lit "SIZE") (decimal size) BLOCK_ID_IS_TOO_SMALL) |}.
(** _exceptions.py 748-756 [block_id_is_too_big]. *)
Definition block_id_is_too_big (size max_size : Z) : issue := {| class := "PermissionError"; text := replace (lit "MAX") (decimal max_size) (replace (lit "SIZE") (decimal size) BLOCK_ID_IS_TOO_BIG) |}.
(** _exceptions.py 839-848 [improper_passphrase]. *)
Definition improper_passphrase (MIN_PASSPHRASE_BYTES : Z) (m : metadata) : issue := if m_bytes m then {| class := "ImproperPassphrase"; text := replace (lit "NEED") (decimal (MIN_PASSPHRASE_BYTES - m_size m)) IMPROPER_PASSPHRASE |} else must_be_type (lit "'`passphrase`'") (lit "<class 'bytes'>").
(** _exceptions.py 851-862 [improper_salt]. *)
Definition improper_salt (MIN MAX : Z) (m : metadata) : issue := if m_bytes m then {| class := "ValueError"; text := replace (lit "MAX_SALT_SIZE") (decimal MAX) (replace (lit "MIN_SALT_SIZE") (decimal MIN) IMPROPER_SALT) |} else must_be_type (lit "'`salt`'") (lit "<class 'bytes'>").
(** _exceptions.py 870-882 [invalid_mb]. *)
Definition invalid_mb (MIN MAX : Z) (mb : option Z) : issue := match mb with Some mb => {| class := "ValueError"; text := replace (lit "MB") (decimal mb) (replace (lit "MAX_MB") (decimal MAX) (replace (lit "MIN_MB") (decimal MIN) INVALID_MB)) |} | None => must_be_type (lit "'`mb`'") (lit "<class 'int'>") end.
(** _exceptions.py 886-898 [invalid_cpu]. *)
Definition invalid_cpu (MIN MAX : Z) (cpu : option Z) : issue := match cpu with Some cpu => {| class := "ValueError"; text := replace (lit "CPU") (decimal cpu) (replace (lit "MAX_CPU") (decimal MAX) (replace (lit "MIN_CPU") (decimal MIN) INVALID_CPU)) |} | None => must_be_type (lit "'`cpu`'") (lit "<class 'int'>") end.
(** _exceptions.py 902-914 [invalid_cores]. *)
Definition invalid_cores (MIN MAX : Z) (cores : option Z) : issue := match cores with Some cores => {| class := "ValueError"; text := replace (lit "CORES") (decimal cores) (replace (lit "MAX_CORES") (decimal MAX) (replace (lit "MIN_CORES") (decimal MIN) INVALID_CORES)) |} | None => must_be_type (lit "'`cores`'") (lit "<class 'int'>") end.
(** _exceptions.py 918-929 [invalid_tag_size]. *)
Definition invalid_tag_size (MIN : Z) (tag_size : option Z) : issue := match tag_size with Some tag_size => {| class := "ValueError"; text := replace (lit "SIZE") (decimal tag_size) (replace (lit "MIN_TAG_SIZE") (decimal MIN) INVALID_TAG_SIZE) |} | None => must_be_type (lit "'`tag_size`'") (lit "<class 'int'>") end.
(** _exceptions.py 933-945 [invalid_salt_size]. *)
Definition invalid_salt_size (MIN MAX : Z) (salt_size : option Z) : issue := match salt_size with Some salt_size => {| class := "ValueError"; text := replace (lit "SIZE") (decimal salt_size) (replace (lit "MAX_SALT_SIZE") (decimal MAX) (replace (lit "MIN_SALT_SIZE") (decimal MIN) INVALID_SALT_SIZE)) |} | None => must_be_type (lit "'`salt_size`'") (lit "<class 'int'>") end.
(** _exceptions.py 949-962 [untrusted_resource_consumption]. *)
Definition untrusted_resource_consumption (parameter : str) (value : Z) : issue := {| class := "ResourceWarning"; text := replace (lit "VALUE") (decimal value) (replace (lit "PARAMETER") parameter UNTRUSTED_RESOURCE_CONSUMPTION) |}.
(** _exceptions.py 983-985 [file_not_found]. *)
Definition file_not_found (filename : str) : issue := {| class := "LookupError"; text := replace (lit "NAME") filename FILE_NOT_FOUND |}.
(** _exceptions.py 988-990 [no_existing_metatag]. *)
Definition no_existing_metatag (tag : str) : issue := {| class := "LookupError"; text := replace (lit "TAG") tag NO_EXISTING_METATAG |}.
(** _exceptions.py 993-995 [tag_file_doesnt_exist]. *)
Definition tag_file_doesnt_exist (tag : str) : issue := {| class := "LookupError"; text := replace (lit "TAG") tag TAG_FILE_DOESNT_EXIST |}.
(** _exceptions.py 1020-1022 [invalid_file_digest]. *)
Definition invalid_file_digest (filename : str) : issue := {| class := "InvalidDigest"; text := replace (lit "FILENAME") filename INVALID_FILE_DIGEST |}.
(** _exceptions.py 325-332 [__init__]. *)
Definition undefined_attributes (names : str) : issue := {| class := "UndefinedRequiredAttributes"; text := replace (lit "UNDEFINED_ATTRIBUTES") names UNDEFINED |}.
(** _exceptions.py 379-382 [__init__]. *)
Definition invalid_ciphertext_size (size : Z) : issue := {| class := "InvalidCiphertextSize"; text := replace (lit "SIZE") (decimal size) CIPHERTEXT_SIZE |}.
(** _exceptions.py 457-459 [__init__]. *)
Definition overspecified_variable (name : str) : issue := {| class := "OverspecifiedVariable"; text := replace (lit "NAME") name OVERSPECIFIED |}.
(** _exceptions.py 476-486 [__init__]. *)
Definition type_uncheckable (name value_type : str) : issue := {| class := "TypeUncheckableAtRuntime"; text := replace (lit "VALUE_TYPE") value_type (replace (lit "NAME") name UNCHECKABLE) |}.
(** _exceptions.py 342-358: the parts of the template and of the report, one after the other. *)
Definition missing_declared_variables (names found_in missed : str) : issue :=
  let mold := [lit "The "; lit " variable(s) were declared in the "; lit " but were't detected in the "; lit ""] in
  let report := [names; found_in; missed; lit "."] in
  {| class := "MissingDeclaredVariables"; text := concat (map (fun p => fst p ++ snd p) (combine mold report)) |}.

(** Who refuses a value because of its length, and with what number.
    randoms/ids/guid.py 183-203 [aread], [read]. *)
Definition guid_length (SIZE : Z) (guid : bytes) : option issue :=
  if Z.of_nat (length guid) =? SIZE then None else Some (invalid_length (lit "guid") (Z.of_nat (length guid))).
(** decipher_streams.py 309-310, 587-588. *)
Definition buffer_length (PACKETSIZE : Z) (data : bytes) : option issue :=
  if (Z.of_nat (length data) =? 0) || negb (Z.of_nat (length data) mod PACKETSIZE =? 0)
  then Some (invalid_length (lit "data") (Z.of_nat (length data))) else None.
(** randoms/ids/raw_guid.py 66-74 [_process_node_id]. *)
Definition node_id_length (NODE_ID_BYTES : Z) (node_id : bytes) : option issue :=
  if Z.of_nat (length node_id) =? NODE_ID_BYTES then None else Some (invalid_length (lit "node_id") NODE_ID_BYTES).
(** randoms/ids/raw_guid_config.py 124-129. *)
Definition raw_guid_length (SIZE : Z) (guid : bytes) : option issue :=
  if Z.of_nat (length guid) =? SIZE then None else Some (invalid_length (lit "raw guid") SIZE).
(** _permutations/affine_permutation.py 74-83. *)
Definition additive_key_length (size : Z) (key : bytes) : option issue :=
  if Z.of_nat (length key) =? size then None else Some (invalid_length (lit "additive_key") size).
