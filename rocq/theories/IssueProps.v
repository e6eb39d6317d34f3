(** * Messages of exceptions: the property C110

    The texts [x], [y] are those that [repr] or [str] gives for the values reported. *)
From Coq Require Import ZArith Lia Strings.String.
From Verif Require Import Base StrModel IssueModel IssueSpec IssueProofs.
Local Open Scope Z_scope.
Open Scope list_scope.

(** C110: a message that reports one value has it in its place, whatever it is. *)
Theorem C110_one_value : forall x,
  cant_reassign_attribute x = {| class := "PermissionError"; text := lit "Can't re-assign the existing " ++ x ++ lit " attribute." |} /\
  cant_deassign_attribute x = {| class := "PermissionError"; text := lit "Can't de-assign the existing " ++ x ++ lit " attribute." |} /\
  slots_conflicts_with_class_variables x = {| class := "ValueError"; text := lit "'" ++ x ++ lit "' in __slots__ conflicts with class variable" |} /\
  mode_isnt_correct x = {| class := "ValueError"; text := lit "The KDF mode must be set to " ++ x ++ lit " to use " ++ x ++ lit " key derivation." |} /\
  file_not_found x = {| class := "LookupError"; text := lit "The " ++ x ++ lit " filename was not located." |} /\
  no_existing_metatag x = {| class := "LookupError"; text := lit "No metatag database named " ++ x ++ lit "." |} /\
  tag_file_doesnt_exist x = {| class := "LookupError"; text := x ++ lit " tag data isn't in the database." |} /\
  invalid_file_digest x = {| class := "InvalidDigest"; text := lit "The summary & the hash digest of the given file don't match: " ++ x ++ lit "." |} /\
  undefined_attributes x = {| class := "UndefinedRequiredAttributes"; text := lit "The following required attributes remained undefined after object initialization: " ++ x ++ lit "." |} /\
  overspecified_variable x = {| class := "OverspecifiedVariable"; text := lit "Specifying the type of the " ++ x ++ lit " variable is redundant or unnecessary." |} /\
  invalid_value x [] = {| class := "ValueError"; text := lit "Invalid " ++ x ++ lit "!" |}.
Proof. intros x. unfold cant_reassign_attribute, cant_deassign_attribute, slots_conflicts_with_class_variables, mode_isnt_correct, file_not_found, no_existing_metatag, tag_file_doesnt_exist, invalid_file_digest, undefined_attributes, overspecified_variable, invalid_value. repeat split; f_equal; fill. Qed.
Print Assumptions C110_one_value.

(** C110: a message that reports numbers has each in its place. *)
Theorem C110_numbers : forall n a b,
  exceeded_blocksize n = {| class := "OverflowError"; text := lit "Data block MUST NOT exceed " ++ decimal n ++ lit " bytes." |} /\
  invalid_ciphertext_size n = {| class := "InvalidCiphertextSize"; text := lit "The given ciphertext length of " ++ decimal n ++ lit " isn't a valid size." |} /\
  invalid_key_size n a = {| class := "ValueError"; text := lit "`key` was " ++ decimal n ++ lit " bytes, but must be at least " ++ decimal a ++ lit " bytes." |} /\
  block_id_is_too_small n a = {| class := "PermissionError"; text := lit "A block id of " ++ decimal n ++ lit " bytes is too small. It must be at least " ++ decimal a ++ lit " bytes to securely authenticate a block." |} /\
  block_id_is_too_big n a = {| class := "PermissionError"; text := lit "A block id of " ++ decimal n ++ lit " bytes is too big. It can be at most " ++ decimal a ++ lit " bytes." |} /\
  invalid_mb a b (Some n) = {| class := "ValueError"; text := lit "mb:" ++ decimal n ++ lit " must be int >= " ++ decimal a ++ lit " and <= " ++ decimal b |} /\
  invalid_cpu a b (Some n) = {| class := "ValueError"; text := lit "cpu:" ++ decimal n ++ lit " must be int >= " ++ decimal a ++ lit " and <= " ++ decimal b |} /\
  invalid_cores a b (Some n) = {| class := "ValueError"; text := lit "cores:" ++ decimal n ++ lit " must be int >= " ++ decimal a ++ lit " and <= " ++ decimal b |} /\
  invalid_tag_size a (Some n) = {| class := "ValueError"; text := lit "tag_size:" ++ decimal n ++ lit " must be int >= " ++ decimal a |} /\
  invalid_salt_size a b (Some n) = {| class := "ValueError"; text := lit "salt_size:" ++ decimal n ++ lit " must be int >= " ++ decimal a ++ lit " and <= " ++ decimal b |} /\
  (forall s, improper_salt a b (metadata_of (GivenBytes s)) = {| class := "ValueError"; text := lit "len(salt) must be >= " ++ decimal a ++ lit " and <= " ++ decimal b |}).
Proof. intros n a b. unfold exceeded_blocksize, invalid_ciphertext_size, invalid_key_size, block_id_is_too_small, block_id_is_too_big, invalid_mb, invalid_cpu, invalid_cores, invalid_tag_size, invalid_salt_size, improper_salt. repeat split; intros; cbn [metadata_of m_bytes]; f_equal; fill. Qed.
Print Assumptions C110_numbers.

(** C110: a message that reports two values has each in its place, unless the text of the first has in it the name that
    stands for the second in the template. *)
Theorem C110_two_values : forall x y,
  (~ contains (lit "CONTEXT") x -> value_must x y = {| class := "ValueError"; text := lit "The " ++ x ++ lit " value must " ++ y ++ lit "." |}) /\
  (~ contains (lit "CONTEXT") x -> must_set_value x y = {| class := "ValueError"; text := lit "Must set " ++ x ++ lit " for " ++ y ++ lit "." |}) /\
  (~ contains (lit "CONTEXT") x -> value_already_set x y = {| class := "PermissionError"; text := lit "The " ++ x ++ lit " is already set to " ++ y ++ lit "." |}) /\
  (~ contains (lit "CONTEXT") x -> unused_parameters x y = {| class := "ValueError"; text := lit "The " ++ x ++ lit " parameters are not used when " ++ y ++ lit "." |}) /\
  (~ contains (lit "TYPE") x -> must_be_type x y = {| class := "TypeError"; text := lit "The " ++ x ++ lit " value must be a " ++ y ++ lit " object." |}) /\
  (~ contains (lit "TYPE") x -> must_be_subtype x y = {| class := "TypeError"; text := lit "The " ++ x ++ lit " value must match or subclass " ++ y ++ lit "." |}) /\
  (~ contains (lit "VALUE_TYPE") x -> type_uncheckable x y = {| class := "TypeUncheckableAtRuntime"; text := lit "The " ++ x ++ lit " variable's type was declared using " ++ y ++ lit ", which isn't checkable at runtime. Perhaps use a `Protocol` decorated with `@typing.runtime_checkable` instead?" |}) /\
  (forall n, ~ contains (lit "LENGTH") x -> invalid_length x n = {| class := "ValueError"; text := lit "len(" ++ x ++ lit ") != " ++ decimal n ++ lit "." |}).
Proof. intros x y. unfold value_must, must_set_value, value_already_set, unused_parameters, must_be_type, must_be_subtype, type_uncheckable, invalid_length. repeat split; intros; f_equal; fill. Qed.
Print Assumptions C110_two_values.

(** C110: the refusal of parameters that ask for too much names the parameter and its value; that of a short passphrase
    the number of characters that are missing.  The rest of the text is fixed. *)
Theorem C110_long_messages : exists usage1 usage2,
  (forall x n, ~ contains (lit "VALUE") x -> untrusted_resource_consumption x n = {| class := "ResourceWarning"; text :=
    lit "The " ++ x ++ lit " parameter was blocked from being processed because it fell outside of the allowed range of resource consumption set by the verification method. To continue verifying the provided hash, explicit permission must be given in the form of a `builtins.range` object which includes the value " ++
    decimal n ++ usage1 |}) /\
  (forall least p, improper_passphrase least (metadata_of (GivenBytes p)) = {| class := "ImproperPassphrase"; text :=
    lit "The given passphrase is too short, at least " ++ decimal (least - Z.of_nat (length p)) ++ lit " more characters need to be added. " ++ usage2 |}).
Proof.
  do 2 eexists. unfold untrusted_resource_consumption, improper_passphrase. split; intros; cbn [metadata_of m_bytes m_size]; f_equal.
  - rewrite cut_UNTRUSTED_RESOURCE_CONSUMPTION. repeat step. rewrite app_nil_r. reflexivity.
  - rewrite cut_IMPROPER_PASSPHRASE. repeat step. rewrite app_nil_r. f_equal. f_equal.
    match goal with |- lit ?t = _ => transitivity (lit " more characters need to be added. " ++ lit (String.substring 35 (String.length t) t)); [vm_compute; reflexivity|reflexivity] end.
Qed.
Print Assumptions C110_long_messages.

(** C110: the message made from pieces has every value in its place, whatever they are. *)
Theorem C110_declared_variables : forall x y z,
  text (missing_declared_variables x y z) =
  lit "The " ++ x ++ lit " variable(s) were declared in the " ++ y ++ lit " but were't detected in the " ++ z ++ lit ".".
Proof. intros x y z. cbn [missing_declared_variables text combine map concat fst snd]. rewrite <- !app_assoc, !app_nil_r. reflexivity. Qed.
Print Assumptions C110_declared_variables.

(** C110: the refusal of a passphrase or a salt says nothing of its contents: it is the same for all values of the same
    length; and for all that are not bytes. *)
Theorem C110_contents_are_not_shown :
  (forall least p q, length p = length q -> improper_passphrase least (metadata_of (GivenBytes p)) = improper_passphrase least (metadata_of (GivenBytes q))) /\
  (forall a b p q, improper_salt a b (metadata_of (GivenBytes p)) = improper_salt a b (metadata_of (GivenBytes q))) /\
  (forall least m x n y, improper_passphrase least (metadata_of (GivenOther m x)) = improper_passphrase least (metadata_of (GivenOther n y))) /\
  (forall a b m x n y, improper_salt a b (metadata_of (GivenOther m x)) = improper_salt a b (metadata_of (GivenOther n y))).
Proof.
  split; [|split; [|split]].
  - intros least p q H. cbn [metadata_of]. rewrite H. reflexivity.
  - intros a b p q. unfold improper_salt. cbn [metadata_of m_bytes]. reflexivity.
  - intros least m x n y. unfold improper_passphrase. cbn [metadata_of m_bytes]. reflexivity.
  - intros a b m x n y. unfold improper_salt. cbn [metadata_of m_bytes]. reflexivity.
Qed.
Print Assumptions C110_contents_are_not_shown.

(** C110: what a refusal of a node id, a raw id or a key because of its length says is true: the length is not the number
    given. *)
Theorem C110_length_messages_partial : forall size v m,
  (node_id_length size v = Some m -> text m = lit "len(node_id) != " ++ decimal size ++ lit "." /\ Z.of_nat (length v) <> size) /\
  (raw_guid_length size v = Some m -> text m = lit "len(raw guid) != " ++ decimal size ++ lit "." /\ Z.of_nat (length v) <> size) /\
  (additive_key_length size v = Some m -> text m = lit "len(additive_key) != " ++ decimal size ++ lit "." /\ Z.of_nat (length v) <> size).
Proof.
  intros size v m. unfold node_id_length, raw_guid_length, additive_key_length. destruct (Z.of_nat (length v) =? size) eqn:E; [repeat split; discriminate|]. apply Z.eqb_neq in E.
  split; [|split]; intros H; injection H as <-; (split; [|exact E]); unfold invalid_length; cbn [text]; fill.
Qed.
Print Assumptions C110_length_messages_partial.
(** C110 refuted: this is so for all.  The refusal of a GUID, or of data for a decryption stream, says that the length is
    not the length that it is. *)
Theorem C110_length_messages_refuted : forall size v m,
  (guid_length size v = Some m -> text m = lit "len(guid) != " ++ decimal (Z.of_nat (length v)) ++ lit ".") /\
  (buffer_length size v = Some m -> text m = lit "len(data) != " ++ decimal (Z.of_nat (length v)) ++ lit ".").
Proof.
  intros size v m. unfold guid_length, buffer_length. split; intros H.
  - destruct (Z.of_nat (length v) =? size); [discriminate|]. injection H as <-. unfold invalid_length. cbn [text]. fill.
  - destruct (_ || _); [|discriminate]. injection H as <-. unfold invalid_length. cbn [text]. fill.
Qed.
Print Assumptions C110_length_messages_refuted.
Example C110_length_case :
  option_map text (guid_length 16 [x01; x02; x03]) = Some (lit "len(guid) != 3.") /\ guid_length 3 [x01; x02; x03] = None /\
  option_map text (buffer_length 2 [x01; x02; x03]) = Some (lit "len(data) != 3.") /\ option_map text (buffer_length 2 []) = Some (lit "len(data) != 0.") /\
  option_map text (node_id_length 16 [x01; x02; x03]) = Some (lit "len(node_id) != 16.").
Proof. vm_compute. repeat split; reflexivity. Qed.

(** C110 refuted: every value reported is in the message as it is.  When the slot KEY_TYPES of the configuration of a
    permutation chain is given a value that is not a tuple, and when an id of a configuration has CONTEXT in it: *)
Theorem C110_two_values_refuted :
  text (must_be_type (lit "'KEY_TYPES'") (lit "<class 'tuple'>")) = lit "The 'KEY_<class 'tuple'>S' value must be a <class 'tuple'> object." /\
  text (value_must (lit "config_id=CONTEXT") (lit "match self.CONFIG_ID=1")) =
    lit "The config_id=match self.CONFIG_ID=1 value must match self.CONFIG_ID=1.".
Proof. vm_compute. split; reflexivity. Qed.
Print Assumptions C110_two_values_refuted.

Example C110_case :
  text (must_be_type (lit "'salt'") (lit "<class 'bytes'>")) = lit "The 'salt' value must be a <class 'bytes'> object." /\
  text (invalid_mb 1 256 (Some (-5))) = lit "mb:-5 must be int >= 1 and <= 256" /\
  text (invalid_mb 1 256 None) = lit "The '`mb`' value must be a <class 'int'> object." /\
  text (tag_file_doesnt_exist (lit "'TAG'")) = lit "'TAG' tag data isn't in the database." /\
  text (invalid_value (lit "x") (lit "empty")) = lit "Invalid x! The x can't be empty.".
Proof. vm_compute. repeat split; reflexivity. Qed.
Example C110_case_of_theorem : ~ contains (lit "TYPE") (lit "'salt'").
Proof.
  intros (p & q & E). assert (In 84%N (lit "'salt'")) as I. { rewrite E. apply in_or_app. right. left. reflexivity. }
  cbn in I. repeat destruct I as [I|I]; try discriminate I; contradiction.
Qed.
