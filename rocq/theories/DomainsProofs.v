From Coq Require Import Strings.String.
From Verif Require Import Base BaseFacts CanonModel CanonSpec CanonProofs CipherModel CipherSpec CipherProofs SessionProofs
  BindingProofs ShippedProofs DomainsModel DomainsSpec.
Import ListNotations.
Local Open Scope list_scope.
Local Open Scope N_scope.

Lemma hashed_inj H e1 e2 x :
  h_block_size H < 2 ^ 56 -> e_size e1 <> 0 -> e_size e2 <> 0 ->
  hashed H e1 = Ok x -> hashed H e2 = Ok x -> e1 = e2.
Proof.
  intros B N1 N2 E1 E2. unfold hashed in *.
  assert (K : keys_comparable None None) by exact I.
  destruct (hash_absorbed_inj H _ _ _ _ _ _ _ _ x K B E1 E2) as (C & P & _ & S).
  destruct e1 as [c1 s1 d1 a1 p1], e2 as [c2 s2 d2 a2 p2]. cbn in *.
  destruct (N.eqb_spec s1 0); [lia|]. destruct (N.eqb_spec s2 0); [lia|]. congruence.
Qed.

Lemma encode_ok H r e v :
  an_xof r H -> e_size e <> 0 -> encode H e = Ok v ->
  exists x, hashed H e = Ok x /\ v = h_digest H x (e_size e) /\ blen v = e_size e.
Proof.
  intros X N E. unfold encode, encode_constant, hash_bytes in E. apply bind_ok in E as (x & Hx & E).
  exists x. split; [exact Hx|]. unfold call_digest, truthy_size in E. destruct X as [X1 X2 X3].
  rewrite X1 in E. destruct (N.eqb_spec (e_size e) 0); [lia|]. injection E as <-. split; [reflexivity|]. apply X3.
Qed.

(** Names identify the entries of a list. *)
Lemma nodup_fst {A B} (l : list (A * B)) :
  NoDup (map snd l) -> forall a1 b1 a2 b2, In (a1, b1) l -> In (a2, b2) l -> b1 = b2 -> a1 = a2.
Proof.
  induction l as [|[a b] l IH]; cbn; intros N; [contradiction|]. inversion N as [|? ? Nin N']; subst.
  intros a1 b1 a2 b2 [E1|I1] [E2|I2] E.
  - congruence.
  - exfalso. apply Nin. injection E1 as -> ->. subst. apply in_map_iff. now exists (a2, b2).
  - exfalso. apply Nin. injection E2 as -> ->. subst. apply in_map_iff. now exists (a1, b2).
  - eauto.
Qed.

(** Everything but the domain of the last entry is fixed: what identifies an entry. *)
Definition mark (e : encoding) : bytes * N := (e_constant e, e_size e).
Definition mark_eqb (a b : bytes * N) : bool := bytes_eqb (fst a) (fst b) && (snd a =? snd b).
Fixpoint all_apart {A} (eqb : A -> A -> bool) (l : list A) : bool :=
  match l with
  | [] => true
  | x :: l => negb (existsb (eqb x) l) && all_apart eqb l
  end.
Lemma all_apart_nodup {A} (eqb : A -> A -> bool) l :
  (forall x, eqb x x = true) -> all_apart eqb l = true -> NoDup l.
Proof.
  intros R. induction l as [|x l IH]; cbn; intros E; [constructor|].
  apply andb_prop in E as [E1 E2]. constructor; [|auto].
  intros I. assert (existsb (eqb x) l = true) as E3 by (apply existsb_exists; eauto). rewrite E3 in E1. discriminate E1.
Qed.

Lemma package_marks p : map mark (map snd (package_constants p)) = map mark (map snd (package_constants [])).
Proof. unfold package_constants. rewrite !map_app. reflexivity. Qed.
Lemma package_apart : all_apart mark_eqb (map mark (map snd (package_constants []))) = true.
Proof. vm_compute. reflexivity. Qed.
Lemma package_nodup p : NoDup (map snd (package_constants p)).
Proof.
  apply (NoDup_map_inv mark). rewrite package_marks. apply (all_apart_nodup mark_eqb).
  - intros [c s]. unfold mark_eqb. cbn. rewrite (proj2 (bytes_eqb_eq c c) eq_refl), N.eqb_refl. reflexivity.
  - exact package_apart.
Qed.

Lemma package_shape p name e : In (name, e) (package_constants p) ->
  0 < e_size e < 2 ^ 64 /\ blen (e_constant e) < 2 ^ 64 /\ (e_domain e = p \/ blen (e_domain e) < 2 ^ 64) /\
  e_aad e = [] /\ e_pad e = [x00].
Proof.
  intros I.
  assert (F : forallb (fun '(_, e) => (0 <? e_size e) && (e_size e <? 2 ^ 64) && (blen (e_constant e) <? 2 ^ 64)
     && (blen (e_domain e) <? 2 ^ 64) && (blen (e_aad e) =? 0) && bytes_eqb (e_pad e) [x00]) (package_constants []) = true)
    by (vm_compute; reflexivity).
  rewrite forallb_forall in F.
  assert (Q : In (name, e) (package_constants []) \/
     (name, e) = ("_new_passcrypt_proof_kdf"%string, plain "passcrypt_proof_kdf_salt" 168 p)).
  { unfold package_constants in *. apply in_app_iff in I as [I|I]; [left; apply in_app_iff; auto|].
    apply in_app_iff in I as [I|I]; [left; rewrite !in_app_iff; auto|].
    cbn -[plain] in I. destruct I as [I|[I|[I|[I|[I|[]]]]]];
      try (left; rewrite !in_app_iff; right; right; rewrite <- I; cbn -[plain]; tauto).
    right. now rewrite I. }
  destruct Q as [Q|Q].
  - specialize (F _ Q). cbn in F. rewrite !andb_true_iff in F. destruct F as [[[[[F1 F2] F3] F4] F5] F6].
    apply N.ltb_lt in F1, F2, F3, F4. apply N.eqb_eq in F5. apply bytes_eqb_eq in F6.
    split; [lia|]. split; [lia|]. split; [now right|]. split; [|exact F6].
    destruct (e_aad e); [reflexivity|]. rewrite blen_cons in F5. lia.
  - injection Q as _ ->. cbn -[text]. split; [vm_compute; split; reflexivity|]. split; [vm_compute; reflexivity|]. auto.
Qed.
