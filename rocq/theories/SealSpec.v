(** * Vocabulary for statements about what a database does to the files. *)
From Verif Require Import Base DbModel.
Local Open Scope nat_scope.

Section Spec.
Variable key : Type.
Variable root_filename : key -> bytes.
Variable filename_of : key -> bytes -> bytes -> bytes.
Variable encrypt : nat -> key -> bytes -> bytes -> bytes -> bytes.
Variable encrypt_manifest : nat -> key -> bytes -> bytes.
Variables (kk : key) (salt : bytes).

(** The name of a tag's file or of the manifest. *)
Definition own_name (n : bytes) : Prop := n = root_filename kk \/ exists tag, n = filename_of kk salt tag.

(** What may be written under a name with the random values number [c]. *)
Definition ciphertext (c : nat) (n data : bytes) : Prop :=
  (exists tag x, n = filename_of kk salt tag /\ data = encrypt c kk salt n x) \/
  (n = root_filename kk /\ exists x, data = encrypt_manifest c kk x).

(** Operations on own files only, in which every write is a ciphertext; the random
    values of the writes have rising numbers, from [lo] on and below [hi]. *)
Inductive sealed : nat -> list fileop -> nat -> Prop :=
| sealed_nil lo hi : lo <= hi -> sealed lo [] hi
| sealed_write lo c n data l hi : lo <= c -> ciphertext c n data -> sealed (S c) l hi ->
    sealed lo (Write n data :: l) hi
| sealed_unlink lo n l hi : own_name n -> sealed lo l hi -> sealed lo (Unlink n :: l) hi.
End Spec.
