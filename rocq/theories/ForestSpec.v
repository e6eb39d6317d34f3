(** * Trees of databases over their lives: vocabulary of the specification *)
From Verif Require Import Base DbModel DbSpec TreeModel TreeSpec.
Local Open Scope nat_scope.

Section Spec.
Variables (json key : Type).
Variable dumps : json -> result bytes.
Variable loads : bytes -> result json.
Variable root_filename : key -> bytes.
Variable filename_of : key -> bytes -> bytes -> bytes.
Variable encrypt : nat -> key -> bytes -> bytes -> bytes -> bytes.
Variable decrypt : key -> bytes -> bytes -> bytes -> result bytes.
Variable encrypt_manifest : nat -> key -> bytes -> bytes.
Variable decrypt_manifest : key -> bytes -> result bytes.
Variable manifest_text : manifest -> bytes.
Variable manifest_of_text : bytes -> result manifest.
Variable child_key : key -> bytes -> bytes -> key.
Variable reserved : bytes -> bool.
Notation db := (db json key).
Notation node := (node json key).

(** What another process should be told of a tag, once the database is saved: the value that the object has for it,
    as json brings it back, or else what the object finds in the file. *)
Definition expected (d : db) (t : bytes) (silent : bool) (w : world) : result (option (value json)) :=
  match get (filename _ _ filename_of d t) (cache _ _ d) with
  | Some v => v <- reload json dumps loads v ;; Ok (Some v)
  | None => fst (query_tag json loads key filename_of decrypt d t silent false w)
  end.
(** Each object below another has the key that follows from the other's key and salt and from its name. *)
Inductive keyed : node -> Prop :=
| keyed_node d ks : (forall t c, In (t, c) ks -> reserved t = false /\ k _ _ (self _ _ c) = child_key (k _ _ d) (salt _ _ d) t /\ keyed c) ->
    keyed (Node _ _ d ks).
(** A tree of at most so many levels. *)
Inductive levels : nat -> node -> Prop :=
| levels_node n d ks : (forall t c, In (t, c) ks -> levels n c) -> levels (S n) (Node _ _ d ks).
(** The file of the tag is written by the object itself when the tree [x] is saved, or by none. *)
Definition settled (x : node) (d : db) (t : bytes) : Prop :=
  In (filename _ _ filename_of d t) (map fst (cache _ _ d)) \/ ~ In (filename _ _ filename_of d t) (saved_files _ _ root_filename x).
(** What is asked of cipher and json: only for the databases of the tree and the files they write. *)
Definition tree_laws (x : node) : Prop :=
  (forall j text, dumps j = Ok text -> firstn 2 text <> [x01; x02]) /\
  forall p y, find _ _ p x = Some y ->
  let d := self _ _ y in
  (forall i n text, In n (map fst (cache _ _ d)) ->
    decrypt (k _ _ d) (salt _ _ d) n (encrypt i (k _ _ d) (salt _ _ d) n text) = Ok text /\
    encrypt i (k _ _ d) (salt _ _ d) n text <> []) /\
  (forall i, decrypt_manifest (k _ _ d) (encrypt_manifest i (k _ _ d) (manifest_text (m _ _ d))) = Ok (manifest_text (m _ _ d))) /\
  manifest_of_text (manifest_text (m _ _ d)) = Ok (m _ _ d).
End Spec.
