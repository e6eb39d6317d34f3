(** * C80: JSON data comes back as it was given *)
From Coq Require Import Strings.String.
From Verif Require Import Base BaseFacts CanonModel CanonSpec ClockModel CipherModel CipherSpec CipherProps StrModel JsonModel JsonSpec JsonProofs LoadsModel LoadsSpec LoadsProofs.
Import ListNotations.
Local Open Scope list_scope.
Local Open Scope N_scope.

(** C80: what is written is read back. *)
Theorem C80_written_is_read : forall v, normal v ->
  dumps_value v = Ok (dumps_bytes v) /\ loads_bytes (dumps_bytes v) = Ok v.
Proof. intros v C. split; [now apply dumps_value_normal|now apply loads_bytes_dumps]. Qed.
Print Assumptions C80_written_is_read.

(** C80: whatever bytes are read successfully, the value can be written, and the
    writing is read as the same value: values that came from JSON once do not change
    any more. *)
Theorem C80_read_is_stable : forall b v, loads_bytes b = Ok v ->
  normal v /\ exists x, dumps_value v = Ok x /\ loads_bytes x = Ok v.
Proof.
  intros b v E. apply loads_bytes_normal in E. split; [exact E|]. exists (dumps_bytes v). now apply C80_written_is_read.
Qed.
Print Assumptions C80_read_is_stable.

(** C80: two values with the same text are the same value. *)
Theorem C80_text_determines_value : forall v1 v2 x, normal v1 -> normal v2 ->
  dumps_value v1 = Ok x -> dumps_value v2 = Ok x -> v1 = v2.
Proof.
  intros v1 v2 x C1 C2 E1 E2. rewrite dumps_value_normal in E1, E2 by assumption.
  pose proof (loads_bytes_dumps v1 C1) as L1. pose proof (loads_bytes_dumps v2 C2) as L2.
  assert (dumps_bytes v1 = dumps_bytes v2) as E by congruence. rewrite E in L1. congruence.
Qed.
Print Assumptions C80_text_determines_value.

(** Bytes that are no JSON are refused with ValueError (of which JSONDecodeError is a class). *)
Theorem C80_other_bytes_are_refused : forall b e, loads_bytes b = Err e -> e = ValueErr.
Proof. intros b e. unfold loads_bytes. destruct (forallb _ _); [destruct (loads _)|]; congruence. Qed.
Print Assumptions C80_other_bytes_are_refused.

(** C80: a JSON message opens to the value that was encrypted, with every valid
    configuration, unless it is too old. *)
Theorem C80_json_messages : forall H rate c ks r v salt aad,
  an_xof rate H -> valid_cfg H c -> valid_coins c r -> valid_salt c salt -> blen aad < 2 ^ 32 -> normal v ->
  exists ct,
    json_encrypt H c dumps_value ks r v salt aad = Ok ct /\
    (forall rsalt now, json_decrypt H c loads_bytes ks rsalt now ct aad None = Ok v) /\
    forall rsalt now limit,
      let age := (clock_time (c_clock c) now - clock_time (c_clock c) (r_now r))%Z in
      json_decrypt H c loads_bytes ks rsalt now ct aad (Some limit)
      = if (age <=? limit)%Z then Ok v else Err (TimestampExpired (age - limit)).
Proof.
  intros H rate c ks r v salt aad X V R S A C. destruct (C80_written_is_read v C) as [D L].
  exact (C26_json_roundtrip json dumps_value loads_bytes H rate c ks r v _ salt aad X V R S A D L).
Qed.
Print Assumptions C80_json_messages.

(** C80: JSON data and byte strings, which databases mark with the bytes 1 and 2, are
    never confused. *)
Theorem C80_never_taken_for_bytes : forall v x, dumps_value v = Ok x -> firstn 2 x <> [x01; x02].
Proof.
  intros v x E. apply dumps_value_head in E as (c & t & -> & B). cbn. intros Q. injection Q as -> _. cbn in B. lia.
Qed.
Print Assumptions C80_never_taken_for_bytes.

(** C80 is false of strings with surrogate pairs, which Python allows: another string
    comes back. *)
Theorem C80_surrogate_pairs_refuted : exists v w x, v <> w /\ dumps_value v = Ok x /\ loads_bytes x = Ok w.
Proof. exists (JStr [55357; 56832]), (JStr [128512]). eexists. split; [discriminate|]. split; reflexivity. Qed.
Print Assumptions C80_surrogate_pairs_refuted.

(** A nested value with an escaped quotation mark, a character outside the basic
    plane, a lone surrogate, a float and a negative number. *)
Definition some_json : json :=
  JObj [(lit "a", JArr [JInt (-120); JFloat (lit "1.5e-7"); JNull; JBool true]);
        ([34; 128512; 55296], JObj [([], JStr [233; 10]); (lit "NaN", JFloat (lit "NaN"))])].
Example C80_case : normal some_json /\ loads_bytes (dumps_bytes some_json) = Ok some_json /\
  loads_bytes (ascii_encode (lit " [ 1 ,{ }, -0, 1E+5, 0.5 ] ")) =
    Ok (JArr [JInt 1; JObj []; JInt 0; JFloat (lit "1E+5"); JFloat (lit "0.5")]) /\
  loads_bytes (ascii_encode (lit "[1,]")) = Err ValueErr /\ loads_bytes (ascii_encode (lit "01")) = Err ValueErr.
Proof.
  split; [|vm_compute; repeat split; reflexivity].
  unfold some_json. cbn [normal]. repeat split.
  - repeat constructor; cbn; intuition discriminate.
  - repeat constructor.
  - left. apply whole_number_form. reflexivity.
  - repeat constructor.
  - cbn. unfold high, low. lia.
  - cbn. unfold high, low. lia.
  - repeat constructor; cbn; intuition discriminate.
  - constructor.
  - repeat constructor.
  - cbn. unfold high, low. lia.
  - repeat constructor.
  - cbn. unfold high, low. lia.
  - cbn. unfold high, low. lia.
  - right. auto.
Qed.
