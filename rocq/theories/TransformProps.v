(** * Properties C08-C10 (base conversion, filenames, URL-safe text). *)
From Verif Require Import Base BaseFacts CanonModel TransformModel TransformSpec TransformProofs.
Local Open Scope N_scope.

(** C08: integer -> text -> integer, and the text has no leading zero symbol. *)
Theorem C08_int_as_base_roundtrip : forall n base table,
  valid_base base table ->
  exists s, int_as_base n base table = Ok s /\ base_as_int s base table = Ok n /\
            s <> [] /\ (n <> 0 -> hd_error s <> nth_error table 0).
Proof. exact int_as_base_roundtrip. Qed.
Print Assumptions C08_int_as_base_roundtrip.

(** C08: text -> integer -> text, for every text without leading zero symbol. *)
Theorem C08_base_as_int_roundtrip : forall s base table n,
  valid_base base table -> base_as_int s base table = Ok n ->
  hd_error s <> nth_error table 0 -> s <> [] ->
  int_as_base n base table = Ok s.
Proof. exact base_as_int_roundtrip. Qed.
Print Assumptions C08_base_as_int_roundtrip.

Example C08_case : valid_base (Some 38) BASE_38 /\
  int_as_base 1444 (Some 38) BASE_38 = Ok [x30; x2d; x2d] /\
  base_as_int [x30; x2d; x2d] (Some 38) BASE_38 = Ok 1444.
Proof. split; [exact base38_valid|]. vm_compute. split; reflexivity. Qed.

(** C09 (restricted): byte strings which do not begin with a zero byte. *)
Theorem C09_filename_roundtrip_partial : forall v,
  hd_error v <> Some x00 ->
  exists f, bytes_to_filename v = Ok f /\ filename_to_bytes f = Ok v.
Proof. exact filename_roundtrip_nozero. Qed.
Print Assumptions C09_filename_roundtrip_partial.

(** C09: exactly the leading zero bytes are lost. *)
Theorem C09_filename_loses_leading_zeros : forall v,
  exists f, bytes_to_filename v = Ok f /\ filename_to_bytes f = Ok (strip_zeros v).
Proof. exact filename_roundtrip. Qed.
Print Assumptions C09_filename_loses_leading_zeros.

(** C09: so the full round trip is false. *)
Theorem C09_filename_roundtrip_refuted : exists v f,
  bytes_to_filename v = Ok f /\ filename_to_bytes f <> Ok v.
Proof.
  exact (ex_intro _ [x00; x01] (ex_intro _ [x30]
    (conj eq_refl (fun H : Ok [x01] = Ok [x00; x01] =>
       eq_ind (Ok [x01]) (fun r => match r with Ok [_] => True | _ => False end) I _ H)))).
Qed.
Print Assumptions C09_filename_roundtrip_refuted.

(** C09: on byte strings of one length, distinct strings get distinct names. *)
Theorem C09_filename_injective : forall a b f,
  length a = length b -> bytes_to_filename a = Ok f -> bytes_to_filename b = Ok f -> a = b.
Proof. exact filename_inj. Qed.
Print Assumptions C09_filename_injective.

Example C09_case : hd_error [x01; x00] <> Some x00.
Proof. discriminate. Qed.

(** C10: the URL-safe text decodes to the byte string. *)
Theorem C10_urlsafe_roundtrip : forall v, urlsafe_to_bytes (bytes_to_urlsafe v) = Ok v.
Proof. exact urlsafe_roundtrip. Qed.
Print Assumptions C10_urlsafe_roundtrip.

Theorem C10_urlsafe_alphabet : forall v,
  Forall (fun c => b64_alphabet_b c = true) (bytes_to_urlsafe v).
Proof. exact urlsafe_alphabet. Qed.
Print Assumptions C10_urlsafe_alphabet.

Theorem C10_urlsafe_injective : forall a b, bytes_to_urlsafe a = bytes_to_urlsafe b -> a = b.
Proof. exact urlsafe_inj. Qed.
Print Assumptions C10_urlsafe_injective.

(** C10, decoding side: several texts decode to one byte string, so a text is
    not a unique name of its content ("QQ" and "QR"). *)
Theorem C10_urlsafe_decode_injective_refuted : exists s t v,
  s <> t /\ urlsafe_to_bytes s = Ok v /\ urlsafe_to_bytes t = Ok v.
Proof.
  exact (ex_intro _ [x51; x51] (ex_intro _ [x51; x52] (ex_intro _ [x41]
    (conj (fun H => eq_ind [x51; x51]
             (fun l => match l with [_; x51] => True | _ => False end) I _ H)
          (conj eq_refl eq_refl))))).
Qed.
Print Assumptions C10_urlsafe_decode_injective_refuted.

Example C10_case : bytes_to_urlsafe [xff; xef; x00; x01] = [x5f; x2d; x38; x41; x41; x51].
Proof. vm_compute. reflexivity. Qed.
