(** * Key derivation: proofs *)
From Coq Require Import Lia ZifyBool ZifyNat ZifyN.
From Verif Require Import Base BaseFacts CanonModel CanonSpec CanonProofs KdfModel KdfSpec.
Local Open Scope N_scope.

(** A canonical encoding tells where it ends. *)
Lemma canonical_pack_prefix_free i1 b1 p1 w1 i2 b2 p2 w2 x1 x2 t1 t2 :
  canonical_pack i1 b1 p1 w1 = Ok x1 -> canonical_pack i2 b2 p2 w2 = Ok x2 -> x1 ++ t1 = x2 ++ t2 ->
  x1 = x2 /\ t1 = t2.
Proof.
  intros H1 H2 E.
  apply canonical_pack_layout in H1 as (q1 & k1 & bl1 & -> & _ & (s1 & c1 & y1 & Hs1 & Hc1 & Hn1 & F1 & E1) & _ & Hb1 & K1 & M1).
  apply canonical_pack_layout in H2 as (q2 & k2 & bl2 & -> & _ & (s2 & c2 & y2 & Hs2 & Hc2 & Hn2 & F2 & E2) & _ & Hb2 & K2 & M2).
  assert (E' := E). rewrite E1, E2 in E'. cbn [app] in E'. injection E' as Es E'. rewrite <- !app_assoc in E'.
  assert (w1 = w2) as <- by congruence.
  apply app_inj_len in E' as [Ec E']; [|unfold blen in *; lia].
  assert (Li : length (bl1 :: [q1] :: i1) = length (bl2 :: [q2] :: i2)).
  { cbn. rewrite Ec in Hn1. rewrite Hn1 in Hn2. unfold blen in Hn2. lia. }
  destruct (framed_inj _ _ _ _ _ _ _ Li F1 F2 E') as (Ei & Ey & Et). injection Ei as <- <- <-. subst.
  assert (Ek : k1 = k2).
  { assert (G : exists y, blen (s2 :: c2 ++ y2 ++ repeat q1 k1) = y + N.of_nat k1 /\ blen (s2 :: c2 ++ y2 ++ repeat q1 k2) = y + N.of_nat k2).
    { exists (1 + blen c2 + blen y2). unfold blen. cbn [length]. rewrite !app_length, !repeat_length. lia. }
    destruct G as (y & G1 & G2). rewrite G1 in M1. rewrite G2 in M2. set (bs := be_int bl1) in *. clearbody bs.
    apply N.mod_divide in M1 as (a1 & M1); [|lia]. apply N.mod_divide in M2 as (a2 & M2); [|lia].
    assert (a1 = a2) by nia. lia. }
  subst k2. split; [reflexivity|]. apply app_inv_head in Et. exact Et.
Qed.

Lemma same_blocks_cases H k1 d1 k2 d2 :
  (blen k1 = blen k2 /\ blen d1 = blen d2) \/
  (h_block_size H = 168 /\ blen k1 + blen d1 <= 151 /\ blen k2 + blen d2 <= 151) ->
  same_blocks H k1 d1 k2 d2.
Proof.
  unfold same_blocks, key_blocks. rewrite !blen_app. intros [[-> ->]|(-> & L1 & L2)]; [reflexivity|].
  transitivity 1; [symmetry|].
  - apply (N.div_unique _ _ _ (blen k1 + blen d1 + 17 + 168 - 1 - 168)); lia.
  - apply (N.div_unique _ _ _ (blen k2 + blen d2 + 17 + 168 - 1 - 168)); lia.
Qed.

Section K.
Variables (H : hasher) (KDF_DOMAIN salt : bytes).
Hypothesis X : xof H.
Notation made := (made H KDF_DOMAIN salt).
Notation first_input := (first_input H KDF_DOMAIN).
Notation pack u := (canonical_pack u (h_block_size H) zero_pad INT_BYTES).

Lemma update_ok p u p' : update H p u = Ok p' <-> u <> [] /\ exists x, pack u = Ok x /\ p' = p ++ x.
Proof.
  unfold update. destruct u as [|a u]; [split; [discriminate|intros [N _]; congruence]|].
  split.
  - intros E. apply bind_ok in E as (x & P & E). injection E as <-. split; [discriminate|eauto].
  - intros [_ (x & -> & ->)]. reflexivity.
Qed.

Lemma new_ok d x k p : new_kdf H KDF_DOMAIN salt d x k = Ok p <->
  exists y, first_input d x k y /\ h_block_size H <> 0 /\ p = salt ++ h_digest H y (h_block_size H).
Proof.
  unfold new_kdf, hash_bytes, KdfSpec.first_input, call_digest, truthy_size. destruct X as (Xf & _ & _). rewrite Xf. split.
  - intros E. apply bind_ok in E as (h & E & E'). injection E' as <-. apply bind_ok in E as (y & E & E'). exists y.
    destruct (N.eqb_spec (h_block_size H) 0); [discriminate|]. injection E' as <-. auto.
  - intros (y & -> & Nz & ->). cbn [bind]. destruct (N.eqb_spec (h_block_size H) 0); [contradiction|]. reflexivity.
Qed.

Lemma made_inv d x k ups p : made d x k ups p ->
  exists y packs, first_input d x k y /\ p = salt ++ h_digest H y (h_block_size H) ++ concat packs /\
    Forall2 (fun u z => u <> [] /\ pack u = Ok z) ups packs.
Proof.
  induction 1 as [p E|ups p u p' M (y & packs & F & -> & A) U].
  - apply new_ok in E as (y & F & _ & ->). exists y, []. cbn. rewrite app_nil_r. auto.
  - apply update_ok in U as (N & z & P & ->). exists y, (packs ++ [z]). split; [exact F|]. split.
    + rewrite concat_app, <- !app_assoc. cbn. now rewrite app_nil_r.
    + apply Forall2_app; auto.
Qed.

Lemma pack_nonempty u z : pack u = Ok z -> z <> [].
Proof. intros P. apply canonical_pack_layout in P as (q & k & b & _ & _ & (s & c & y & _ & _ & _ & _ & ->) & _). discriminate. Qed.

Lemma packs_inj : forall u1 z1 u2 z2,
  Forall2 (fun u z => u <> [] /\ pack u = Ok z) u1 z1 -> Forall2 (fun u z => u <> [] /\ pack u = Ok z) u2 z2 ->
  concat z1 = concat z2 -> u1 = u2.
Proof.
  intros u1 z1 u2 z2 A. revert u2 z2. induction A as [|u z u1 z1 [N P] A IH]; intros u2 z2 B E.
  - destruct B as [|v w u2 z2 [_ Q] B]; [reflexivity|]. pose proof (pack_nonempty v w Q). cbn in E. destruct w; [congruence|discriminate].
  - destruct B as [|v w u2 z2 [_ Q] B].
    + pose proof (pack_nonempty u z P). cbn in E. destruct z; [congruence|discriminate].
    + cbn in E. destruct (canonical_pack_prefix_free _ _ _ _ _ _ _ _ _ _ _ _ P Q E) as [-> Et].
      destruct (canonical_pack_inj _ _ _ _ _ _ _ _ _ P Q) as (-> & _). f_equal. exact (IH _ _ B Et).
Qed.

Lemma bytes_dec (a b : bytes) : {a = b} + {a <> b}.
Proof. destruct (bytes_eqb a b) eqn:E; [left; now apply bytes_eqb_eq|right; intros ->; now rewrite bytes_eqb_refl in E]. Qed.

Lemma first_input_inj d1 x1 k1 d2 x2 k2 y : h_block_size H < 2 ^ 56 -> separable H k1 d1 x1 k2 d2 x2 ->
  first_input d1 x1 k1 y -> first_input d2 x2 k2 y -> d1 = d2 /\ x1 = x2 /\ k1 = k2.
Proof.
  intros B SB F1 F2. unfold KdfSpec.first_input in *.
  destruct SB as [SB|[Ld Lx]].
  - assert (C : keys_of_same_blocks (h_block_size H) (Some (k1 ++ d1)) (Some (k2 ++ d2))) by exact SB.
    destruct (hash_absorbed_inj_blocks _ _ _ _ _ _ _ _ _ _ C B F1 F2) as (E & _ & K & _).
    injection E as <- <-. injection K as K. apply app_inv_tail in K. auto.
  - assert (C : map blen (KDF_DOMAIN :: d1 :: x1) = map blen (KDF_DOMAIN :: d2 :: x2)) by (cbn [map]; congruence).
    destruct (hash_absorbed_inj_items _ _ _ _ _ _ _ _ _ _ C B F1 F2) as (E & _ & K & _).
    injection E as <- <-. injection K as K. apply app_inv_tail in K. auto.
Qed.

Lemma payload_inj d1 x1 k1 u1 d2 x2 k2 u2 p : h_block_size H < 2 ^ 56 -> separable H k1 d1 x1 k2 d2 x2 ->
  made d1 x1 k1 u1 p -> made d2 x2 k2 u2 p ->
  u1 = u2 /\ ((d1 = d2 /\ x1 = x2 /\ k1 = k2) \/
    exists y1 y2, first_input d1 x1 k1 y1 /\ first_input d2 x2 k2 y2 /\ collision H (h_block_size H) y1 y2).
Proof.
  intros B SB M1 M2. apply made_inv in M1 as (y1 & z1 & F1 & E1 & A1). apply made_inv in M2 as (y2 & z2 & F2 & E2 & A2).
  rewrite E1 in E2. apply app_inv_head in E2. destruct X as (_ & _ & L).
  apply app_inj_len in E2 as [Eh Ez]; [|pose proof (L y1 (h_block_size H)); pose proof (L y2 (h_block_size H)); unfold blen in *; lia].
  split; [exact (packs_inj _ _ _ _ A1 A2 Ez)|]. destruct (bytes_dec y1 y2) as [<-|N].
  - left. eapply first_input_inj; eassumption.
  - right. exists y1, y2. split; [exact F1|]. split; [exact F2|]. split; [exact N|exact Eh].
Qed.

Lemma run_inj obj p1 p2 data1 data2 s1 s2 aad1 aad2 y : h_block_size obj < 2 ^ 56 ->
  run_absorbed H obj p1 data1 s1 aad1 = Ok y -> run_absorbed H obj p2 data2 s2 aad2 = Ok y ->
  aad1 = aad2 /\ data1 = data2 /\ (h_digest_size obj = 0 -> size_or s1 0 = size_or s2 0) /\
  (p1 = p2 \/ collision H (h_block_size obj) p1 p2).
Proof.
  intros B R1 R2. unfold run_absorbed in *. destruct X as (_ & _ & L).
  assert (C : keys_comparable (Some (run_key H obj p1)) (Some (run_key H obj p2))).
  { cbn. unfold run_key. pose proof (L p1 (h_block_size obj)). pose proof (L p2 (h_block_size obj)). unfold blen in *. lia. }
  destruct (hash_absorbed_inj _ _ _ _ _ _ _ _ _ _ C B R1 R2) as (E & _ & K & S).
  injection E as <- <-. split; [reflexivity|]. split; [reflexivity|]. split.
  - intros Z. unfold run_size in S. rewrite Z in S. exact S.
  - injection K as K. unfold run_key in K. destruct (bytes_dec p1 p2) as [<-|N]; [now left|right; split; [exact N|exact K]].
Qed.

(** Objects. *)
Lemma nth_replace : forall l i j p, nth_error (replace l i p) j =
  if Nat.eqb i j then match nth_error l j with Some _ => Some p | None => None end else nth_error l j.
Proof.
  induction l as [|q l IH]; intros i j p; [destruct i, j; cbn; try reflexivity; now destruct (Nat.eqb i j)|].
  destruct i, j; cbn; try reflexivity. apply IH.
Qed.
Notation do_call := (do_call H KDF_DOMAIN salt).
Notation do_calls := (do_calls H KDF_DOMAIN salt).
Lemma do_call_keeps c l i p : nth_error l i = Some p -> ~ updates c i -> nth_error (do_call c l) i = Some p.
Proof.
  intros E N. destruct c as [d x k|j x|j]; cbn.
  - destruct (new_kdf H KDF_DOMAIN salt d x k); [|exact E]. rewrite nth_error_app1; [exact E|]. apply nth_error_Some. congruence.
  - destruct (nth_error l j) as [q|]; [|exact E]. destruct (update H q x); [|exact E]. rewrite nth_replace.
    destruct (Nat.eqb_spec j i) as [->|]; [|exact E]. destruct N. now exists x.
  - destruct (nth_error l j) as [q|]; [|exact E]. rewrite nth_error_app1; [exact E|]. apply nth_error_Some. congruence.
Qed.
Lemma do_calls_keep cs : forall l i p, nth_error l i = Some p -> (forall c, In c cs -> ~ updates c i) ->
  nth_error (do_calls cs l) i = Some p.
Proof.
  induction cs as [|c cs IH]; intros l i p E N; [exact E|]. cbn. apply IH; [|intros; apply N; cbn; auto].
  apply do_call_keeps; [exact E|apply N; cbn; auto].
Qed.
Lemma do_call_made c l : (forall i p, nth_error l i = Some p -> exists d x k ups, made d x k ups p) ->
  forall i p, nth_error (do_call c l) i = Some p -> exists d x k ups, made d x k ups p.
Proof.
  intros A i p. 
  assert (Sn : forall q, (exists d x k ups, made d x k ups q) -> nth_error (l ++ [q]) i = Some p -> exists d x k ups, made d x k ups p).
  { intros q Q E. destruct (Nat.lt_ge_cases i (length l)); [rewrite nth_error_app1 in E by assumption; eauto|].
    rewrite nth_error_app2 in E by assumption. destruct (i - length l)%nat as [|n]; cbn in E; [injection E as <-; exact Q|destruct n; discriminate]. }
  destruct c as [d x k|j x|j]; cbn.
  - destruct (new_kdf H KDF_DOMAIN salt d x k) eqn:N; [|apply A]. apply Sn. exists d, x, k, []. now constructor.
  - destruct (nth_error l j) as [q|] eqn:Q; [|apply A]. destruct (update H q x) eqn:U; [|apply A]. rewrite nth_replace.
    destruct (Nat.eqb_spec j i) as [->|]; [|apply A]. rewrite Q. intros E. injection E as <-.
    destruct (A i q Q) as (d & y & k & ups & M). exists d, y, k, (ups ++ [x]). econstructor; eassumption.
  - destruct (nth_error l j) as [q|] eqn:Q; [|apply A]. apply Sn. eauto.
Qed.
Lemma do_calls_made cs : forall i p, nth_error (do_calls cs []) i = Some p -> exists d x k ups, made d x k ups p.
Proof.
  induction cs as [|c cs IH] using rev_ind; intros i p; [destruct i; discriminate|].
  unfold KdfModel.do_calls. rewrite fold_left_app. cbn. apply do_call_made. exact IH.
Qed.
End K.

(** ** Two domains, one payload

    The domain of the second object contains the beginning of what the first
    object hashes, the only item of the first one the rest of what the second
    one hashes. *)
Definition shake_128_like (digest : bytes -> N -> bytes) : hasher :=
  {| h_block_size := 168; h_digest_size := 0; h_is_xof := true; h_digest := digest |}.
Section Confusion.
Variables c0 c1 c2 c3 c4 c5 c6 c7 : byte.
Definition a_constant : bytes := [c0; c1; c2; c3; c4; c5; c6; c7].
Definition conf_key : bytes := repeat x07 64.
Definition conf_domain1 : bytes := [x61].
(** All that the first object hashes before the bytes of an item of [n] bytes. *)
Definition conf_head (n : N) : bytes :=
  get (encode_key (conf_key ++ conf_domain1) 168 [x00]) ++
  [x08] ++ be_enc 8 6 ++ be_enc 8 8 ++ be_enc 8 168 ++ be_enc 8 1 ++ [x00] ++
  be_enc 8 8 ++ be_enc 8 168 ++ be_enc 8 8 ++ a_constant ++ be_enc 8 1 ++ conf_domain1 ++ be_enc 8 n.
Definition conf_second (n : N) : bytes :=
  let domain2 := skipn 64 (conf_head n) in
  get (encode_key (conf_key ++ domain2) 168 [x00]) ++
  get (canonical_pack [be_enc 8 168; a_constant; domain2] 168 [x00] 8).
Definition conf_domain2 : bytes := skipn 64 (conf_head 421).
Definition conf_item : bytes := skipn 251 (conf_second 421).
Lemma conf_inputs digest :
  let H := shake_128_like digest in
  hash_bytes_absorbed H [a_constant; conf_domain1; conf_item] zero_pad (Some 168) (Some (conf_key ++ conf_domain1)) =
  hash_bytes_absorbed H [a_constant; conf_domain2] zero_pad (Some 168) (Some (conf_key ++ conf_domain2)) /\
  is_ok (hash_bytes_absorbed H [a_constant; conf_domain1; conf_item] zero_pad (Some 168) (Some (conf_key ++ conf_domain1))) = true.
Proof. vm_compute. split; reflexivity. Qed.
Lemma conf_payload digest salt :
  let H := shake_128_like digest in
  exists p, new_kdf H a_constant salt conf_domain1 [conf_item] conf_key = Ok p /\
    new_kdf H a_constant salt conf_domain2 [] conf_key = Ok p.
Proof.
  intros H. destruct (conf_inputs digest) as [E O]. fold H in E, O. unfold new_kdf, hash_bytes. cbn [h_block_size H shake_128_like].
  rewrite <- E. destruct (hash_bytes_absorbed H [a_constant; conf_domain1; conf_item] zero_pad (Some 168) (Some (conf_key ++ conf_domain1))) as [y|]; [|discriminate].
  cbn. eauto.
Qed.
End Confusion.
