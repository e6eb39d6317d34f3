From Coq Require Import Strings.String.
From Verif Require Import Base BaseFacts CanonModel CanonSpec CipherModel CipherSpec ShippedProofs DomainsModel DomainsSpec DomainsProofs.
Import ListNotations.
Local Open Scope list_scope.
Local Open Scope N_scope.

(** C76: two constants are hashes of one input only if everything they were made
    from is equal: text, size, domain, additional data and padding byte. *)
Theorem C76_inputs_differ : forall H e1 e2 x,
  h_block_size H < 2 ^ 56 -> e_size e1 <> 0 -> e_size e2 <> 0 ->
  hashed H e1 = Ok x -> hashed H e2 = Ok x -> e1 = e2.
Proof. exact hashed_inj. Qed.
Print Assumptions C76_inputs_differ.

(** C76: so two equal constants that were not made from the same things are an
    explicit collision of the hash function. *)
Theorem C76_equal_constants : forall H r e1 e2 v,
  an_xof r H -> r < 2 ^ 56 -> e_size e1 <> 0 -> e_size e2 <> 0 ->
  encode H e1 = Ok v -> encode H e2 = Ok v -> e1 <> e2 ->
  exists x y, hashed H e1 = Ok x /\ hashed H e2 = Ok y /\ e_size e1 = e_size e2 /\ same_digest H (e_size e1) x y.
Proof.
  intros H r e1 e2 v X R N1 N2 E1 E2 NE.
  destruct (encode_ok H r e1 v X N1 E1) as (x & Hx & Vx & Lx).
  destruct (encode_ok H r e2 v X N2 E2) as (y & Hy & Vy & Ly).
  exists x, y. split; [exact Hx|]. split; [exact Hy|]. split; [congruence|]. split.
  - intros <-. apply NE. apply (hashed_inj H e1 e2 x); auto. rewrite (xof_rate _ _ X). exact R.
  - congruence.
Qed.
Print Assumptions C76_equal_constants.

(** C76: every constant of the package is made, with the size asked for, whatever
    [Domains.PASSCRYPT] is. *)
Theorem C76_package_made : forall H passcrypt name e,
  like_shake128 H -> blen passcrypt < 2 ^ 64 -> In (name, e) (package_constants passcrypt) ->
  exists v, encode H e = Ok v /\ blen v = e_size e.
Proof.
  intros H p name e L P I. destruct (package_shape p name e I) as (S0 & C & D & A & Q).
  unfold like_shake128 in L. pose proof L as X.
  assert (exists v, encode H e = Ok v) as [v E].
  { unfold encode. rewrite Q. apply (encode_constant_total H 168); auto.
    - split; reflexivity.
    - destruct D as [->|D]; assumption.
    - rewrite A. reflexivity. }
  exists v. split; [exact E|]. assert (N0 : e_size e <> 0) by lia.
  destruct (encode_ok H 168 e v X N0 E) as (_ & _ & _ & Le). exact Le.
Qed.
Print Assumptions C76_package_made.

(** C76: any two of the constants of the package with different names come from
    different inputs of the hash function. *)
Theorem C76_package_apart : forall H passcrypt name1 e1 name2 e2 x,
  h_block_size H < 2 ^ 56 ->
  In (name1, e1) (package_constants passcrypt) -> In (name2, e2) (package_constants passcrypt) ->
  hashed H e1 = Ok x -> hashed H e2 = Ok x -> name1 = name2.
Proof.
  intros H p n1 e1 n2 e2 x B I1 I2 E1 E2.
  destruct (package_shape p n1 e1 I1) as (S1 & _). destruct (package_shape p n2 e2 I2) as (S2 & _).
  apply (nodup_fst (package_constants p) (package_nodup p) n1 e1 n2 e2 I1 I2).
  apply (hashed_inj H e1 e2 x); auto; lia.
Qed.
Print Assumptions C76_package_apart.

(** C76: a constant that a user makes under additional data or another padding byte
    shares its input with no constant of the package. *)
Theorem C76_users_apart : forall H passcrypt name e1 e2 x,
  h_block_size H < 2 ^ 56 -> In (name, e1) (package_constants passcrypt) ->
  e_size e2 <> 0 -> e_aad e2 <> [] \/ e_pad e2 <> [x00] ->
  hashed H e1 = Ok x -> hashed H e2 <> Ok x.
Proof.
  intros H p name e1 e2 x B I1 N2 D E1 E2. destruct (package_shape p name e1 I1) as (S1 & _ & _ & A & Q).
  assert (N1 : e_size e1 <> 0) by lia.
  pose proof (hashed_inj H e1 e2 x B N1 N2 E1 E2) as ->. destruct D; contradiction.
Qed.
Print Assumptions C76_users_apart.

(** The database constant named manifest and the general one are entries of the list. *)
Example C76_case :
  In ("Domains.MANIFEST"%string, plain "manifest" 8 []) (package_constants [x01]) /\
  In ("DBDomains.MANIFEST"%string, plain "manifest" 16 (text "database_constants")) (package_constants [x01]) /\
  length (package_constants [x01]) = 202%nat.
Proof.
  split; [|split; [|reflexivity]]; unfold package_constants; rewrite !in_app_iff.
  - left. unfold domains. apply in_map_iff. exists ("MANIFEST", "manifest")%string. split; [reflexivity|].
    unfold misc_texts. cbn. repeat (try (left; reflexivity); right).
  - right; left. unfold db_domains. apply in_map_iff. exists ("MANIFEST", "manifest")%string. split; [reflexivity|].
    unfold db_texts. cbn. repeat (try (left; reflexivity); right).
Qed.
