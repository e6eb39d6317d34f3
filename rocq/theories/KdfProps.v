(** * C47: key derivation *)
From Coq Require Import Lia.
From Verif Require Import Base BaseFacts CanonModel CanonSpec CanonProofs KdfModel KdfSpec KdfProofs.
Local Open Scope N_scope.

(** C47.  Two objects whose keys and domains together fill up the same number of
    blocks (for instance keys of one length and domains of one length), or with keys
    of any lengths but domains of one length and data items of one length.  If some
    calls on them give the same bytes to the final hash function, then the calls
    have the same associated data, the same inputs and (for an extendable hash
    function) the same requested size; and the objects have the same history, or
    the payloads collide, or what was hashed when they were created collides. *)
Theorem C47_hash_input_determines_the_history_partial :
  forall H KDF_DOMAIN salt obj d1 x1 k1 u1 p1 d2 x2 k2 u2 p2 data1 size1 aad1 data2 size2 aad2 y,
  xof H -> h_block_size H < 2 ^ 56 -> h_block_size obj < 2 ^ 56 ->
  made H KDF_DOMAIN salt d1 x1 k1 u1 p1 -> made H KDF_DOMAIN salt d2 x2 k2 u2 p2 ->
  separable H k1 d1 x1 k2 d2 x2 ->
  run_absorbed H obj p1 data1 size1 aad1 = Ok y -> run_absorbed H obj p2 data2 size2 aad2 = Ok y ->
  aad1 = aad2 /\ data1 = data2 /\ (h_digest_size obj = 0 -> size_or size1 0 = size_or size2 0) /\
  ((d1 = d2 /\ x1 = x2 /\ k1 = k2 /\ u1 = u2) \/
   collision H (h_block_size obj) p1 p2 \/
   exists y1 y2, first_input H KDF_DOMAIN d1 x1 k1 y1 /\ first_input H KDF_DOMAIN d2 x2 k2 y2 /\
     collision H (h_block_size H) y1 y2).
Proof.
  intros H KD salt obj d1 x1 k1 u1 p1 d2 x2 k2 u2 p2 data1 size1 aad1 data2 size2 aad2 y X B Bo M1 M2 SB R1 R2.
  destruct (run_inj H X _ _ _ _ _ _ _ _ _ _ Bo R1 R2) as (Ea & Ed & Es & [E|C]).
  - split; [exact Ea|]. split; [exact Ed|]. split; [exact Es|]. subst p2.
    destruct (payload_inj H KD salt X _ _ _ _ _ _ _ _ _ B SB M1 M2) as (Eu & [(-> & -> & ->)|C]); [left; auto|right; right; exact C].
  - auto 6.
Qed.
Print Assumptions C47_hash_input_determines_the_history_partial.

(** Keys of any lengths with one domain and one list of data are a case, keys of one
    length with domains of one length are one, and so are all keys
    and domains that are together at most 151 bytes long: shake_128 has blocks of
    168 bytes. *)
Theorem C47_separable : forall H k1 d1 x1 k2 d2 x2,
  (d1 = d2 /\ x1 = x2) \/
  (blen k1 = blen k2 /\ blen d1 = blen d2) \/
  (h_block_size H = 168 /\ blen k1 + blen d1 <= 151 /\ blen k2 + blen d2 <= 151) ->
  separable H k1 d1 x1 k2 d2 x2.
Proof.
  intros H k1 d1 x1 k2 d2 x2 [[-> ->]|D]; [right; now split|left; now apply same_blocks_cases].
Qed.
Print Assumptions C47_separable.

(** The derived bytes are the hash of that input, of the requested size. *)
Theorem C47_derived_bytes : forall H obj p data size aad out,
  run_kdf H obj p data size aad = Ok out <->
  exists y, run_absorbed H obj p data size aad = Ok y /\ call_digest obj y (truthy_size (run_size obj size)) = Ok out.
Proof.
  intros H obj p data size aad out. unfold run_kdf, run_absorbed, hash_bytes. split.
  - intros E. apply bind_ok in E as (y & E & D). eauto.
  - intros (y & -> & D). exact D.
Qed.
Print Assumptions C47_derived_bytes.

(** The payload alone separates the histories. *)
Theorem C47_payload_determines_the_history_partial :
  forall H KDF_DOMAIN salt d1 x1 k1 u1 d2 x2 k2 u2 p,
  xof H -> h_block_size H < 2 ^ 56 -> separable H k1 d1 x1 k2 d2 x2 ->
  made H KDF_DOMAIN salt d1 x1 k1 u1 p -> made H KDF_DOMAIN salt d2 x2 k2 u2 p ->
  u1 = u2 /\ ((d1 = d2 /\ x1 = x2 /\ k1 = k2) \/
    exists y1 y2, first_input H KDF_DOMAIN d1 x1 k1 y1 /\ first_input H KDF_DOMAIN d2 x2 k2 y2 /\
      collision H (h_block_size H) y1 y2).
Proof. intros H KD salt d1 x1 k1 u1 d2 x2 k2 u2 p X B SB M1 M2. exact (payload_inj H KD salt X _ _ _ _ _ _ _ _ _ B SB M1 M2). Qed.
Print Assumptions C47_payload_determines_the_history_partial.

(** Domains of different lengths are not separated: whatever the hash function
    computes, under one key of 64 bytes two objects with different domains hold
    the same payload, hence derive the same bytes. *)
Theorem C47_domains_of_any_length_separated_refuted : forall digest salt c0 c1 c2 c3 c4 c5 c6 c7,
  exists key d1 d2 item p, blen key = 64 /\ d1 <> d2 /\
    new_kdf (shake_128_like digest) [c0; c1; c2; c3; c4; c5; c6; c7] salt d1 [item] key = Ok p /\
    new_kdf (shake_128_like digest) [c0; c1; c2; c3; c4; c5; c6; c7] salt d2 [] key = Ok p.
Proof.
  intros digest salt c0 c1 c2 c3 c4 c5 c6 c7. destruct (conf_payload c0 c1 c2 c3 c4 c5 c6 c7 digest salt) as (p & E1 & E2).
  exists conf_key, conf_domain1, (conf_domain2 c0 c1 c2 c3 c4 c5 c6 c7), (conf_item c0 c1 c2 c3 c4 c5 c6 c7), p.
  split; [reflexivity|]. split; [|split; [exact E1|exact E2]]. intros E. apply (f_equal (@length byte)) in E. vm_compute in E. discriminate.
Qed.
Print Assumptions C47_domains_of_any_length_separated_refuted.

(** Every object in a program has such a history... *)
Theorem C47_every_object_has_a_history : forall H KDF_DOMAIN salt cs i p,
  nth_error (do_calls H KDF_DOMAIN salt cs []) i = Some p ->
  exists domain data key ups, made H KDF_DOMAIN salt domain data key ups p.
Proof. exact do_calls_made. Qed.
Print Assumptions C47_every_object_has_a_history.

(** ... a copy starts with the state of its original, and afterwards neither is
    affected by what is done with the other: only its own updates change it. *)
Theorem C47_copies_are_independent : forall H KDF_DOMAIN salt l i p cs,
  nth_error l i = Some p ->
  let l' := do_call H KDF_DOMAIN salt (Copy i) l in
  let j := length l in
  nth_error l' j = Some p /\
  ((forall c, In c cs -> ~ updates c i) -> nth_error (do_calls H KDF_DOMAIN salt cs l') i = Some p) /\
  ((forall c, In c cs -> ~ updates c j) -> nth_error (do_calls H KDF_DOMAIN salt cs l') j = Some p).
Proof.
  intros H KD salt l i p cs E l' j.
  assert (Ej : nth_error l' j = Some p) by (unfold l', j; cbn; rewrite E, nth_error_app2, Nat.sub_diag by lia; reflexivity).
  split; [exact Ej|]. split; intros N; apply do_calls_keep; auto.
  unfold l'. apply do_call_keeps; [exact E|]. intros (x & Z). discriminate.
Qed.
Print Assumptions C47_copies_are_independent.

(** An update appends to the object and refuses to do nothing. *)
Theorem C47_update : forall H p u p',
  update H p u = Ok p' <->
  u <> [] /\ exists x, canonical_pack u (h_block_size H) zero_pad INT_BYTES = Ok x /\ p' = p ++ x.
Proof. exact update_ok. Qed.
Print Assumptions C47_update.

(** Database keys are at least 64 bytes long. *)
Theorem C47_database_keys : forall H KDF_DOMAIN salt domain data key p,
  new_dbkdf H KDF_DOMAIN salt domain data key = Ok p <->
  64 <= blen key /\ new_kdf H KDF_DOMAIN salt domain data key = Ok p.
Proof.
  intros H KD salt domain data key p. unfold new_dbkdf, MIN_KEY_BYTES. destruct (N.ltb_spec (blen key) 64).
  - split; [discriminate|intros []; lia].
  - tauto.
Qed.
Print Assumptions C47_database_keys.

(** A small extendable function, an object updated twice, a copy of it, and a
    third object with a domain of the same length. *)
Definition toy_shake : hasher := shake_128_like (fun x n => repeat (nth 3 x x00) (N.to_nat n)).
Example C47_case :
  xof toy_shake /\
  (exists p, made toy_shake (repeat x09 8) (repeat x05 168) [x61] [[x62]] (repeat x01 64) [[[x63]; []]; [[x64]]] p /\
    is_ok (run_absorbed toy_shake toy_shake p [[x65]] (Some 5) []) = true) /\
  (exists p, made toy_shake (repeat x09 8) (repeat x05 168) [x66] [] (repeat x02 64) [] p /\
    is_ok (run_absorbed toy_shake toy_shake p [[x65]] (Some 5) []) = true) /\
  length (do_calls toy_shake (repeat x09 8) (repeat x05 168)
    [New [x61] [] (repeat x01 64); Copy 0; Update 0 [[x62]]; Update 1 []; Update 7 [[]]; New [] [] []] []) = 2%nat.
Proof.
  split; [split; [reflexivity|split; [reflexivity|]]|].
  { intros x n. unfold blen. cbn. rewrite repeat_length. lia. }
  split; [|split; [|vm_compute; reflexivity]].
  - eexists. split.
    + eapply (fun p q => made_update toy_shake (repeat x09 8) (repeat x05 168) [x61] [[x62]] (repeat x01 64) [[[x63]; []]] p [[x64]] q).
      * eapply (fun p q => made_update toy_shake (repeat x09 8) (repeat x05 168) [x61] [[x62]] (repeat x01 64) [] p [[x63]; []] q).
        -- apply made_new. vm_compute. reflexivity.
        -- vm_compute. reflexivity.
      * vm_compute. reflexivity.
    + vm_compute. reflexivity.
  - eexists. split; [apply made_new; vm_compute; reflexivity|vm_compute; reflexivity].
Qed.
