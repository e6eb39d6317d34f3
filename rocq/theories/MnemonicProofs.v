(** * Mnemonics and phrases: proofs *)
From Verif Require Import Base BaseFacts CanonModel CanonSpec CanonProofs TransformModel GentoolsModel GentoolsProofs KdfModel KdfProofs PasscryptModel PasscryptSpec PasscryptProofs WordLists MnemonicModel MnemonicSpec CurveProofs KdfSpec.
From Coq Require Import Sorting.Permutation.
Local Open Scope N_scope.

(** ** Batches of exact blocks *)
Lemma skipn_skipn' {A} a b (l : list A) : skipn a (skipn b l) = skipn (b + a) l.
Proof. revert l. induction b as [|b IH]; intros l; [reflexivity|]. destruct l; [now rewrite !skipn_nil|cbn; apply IH]. Qed.
Lemma batch_nth k : forall stream, blen stream = 16 * N.of_nat k -> length (batch stream 16) = k /\
  forall i, (i < k)%nat -> nth_error (batch stream 16) i = Some (block16 i stream).
Proof.
  induction k as [|k IH]; intros stream L.
  - destruct stream; [rewrite batch_nil; split; [reflexivity|lia]|rewrite blen_cons in L; lia].
  - assert (stream <> []) as NE by (intros ->; rewrite (@blen_nil byte) in L; lia).
    rewrite batch_step by (lia || assumption). destruct (IH (drop 16 stream)) as (L' & H); [rewrite blen_drop; lia|].
    split; [cbn [length]; now rewrite L'|]. intros [|i] I; cbn [nth_error]; [now rewrite take_firstn|]. rewrite H by lia. unfold block16. rewrite drop_skipn.
    change (N.to_nat 16) with 16%nat. rewrite skipn_skipn'.
    replace (16 * S i)%nat with (16 + 16 * i)%nat by lia. reflexivity.
Qed.
Lemma mapM_nth {A B} (f : A -> result B) l ys : mapM f l = Ok ys -> forall i x, nth_error l i = Some x -> exists y, nth_error ys i = Some y /\ f x = Ok y.
Proof.
  revert ys. induction l as [|a l IH]; intros ys E i x I; [destruct i; discriminate|].
  cbn in E. apply bind_ok in E as (y & Y & E). apply bind_ok in E as (ys' & M & E). apply Ok_inj in E as <-.
  destruct i as [|i]; cbn in *; [injection I as <-; eauto|eauto].
Qed.
Lemma choose_ok {A} (choices : list A) x a : choose choices x = Ok a <-> choices <> [] /\ nth_error choices (N.to_nat (be_int x mod blen choices)) = Some a.
Proof.
  unfold choose. destruct choices as [|c cs].
  - cbn. split; [discriminate|now intros []].
  - replace (blen (c :: cs) =? 0) with false by (rewrite blen_cons; lia). destruct (nth_error _ _) eqn:E.
    + split; [intros H; apply Ok_inj in H as <-; split; [discriminate|reflexivity]|intros (_ & H); now injection H as <-].
    + split; [discriminate|now intros (_ & H)].
Qed.
Lemma choose_total {A} (choices : list A) x : choices <> [] -> exists a, choose choices x = Ok a.
Proof.
  intros NE. unfold choose. assert (0 < blen choices) as P by (destruct choices; [contradiction|rewrite blen_cons; lia]).
  replace (blen choices =? 0) with false by lia. destruct (nth_error _ _) eqn:E; [eauto|]. apply nth_error_None in E.
  pose proof (N.mod_upper_bound (be_int x) (blen choices)). unfold blen in *. lia.
Qed.

Lemma field8 n x : to_bytes_be INT_BYTES n = Ok x -> n < 2 ^ 64 /\ x = be_enc 8 n.
Proof.
  intros E. assert (n < 256 ^ INT_BYTES) as L.
  { unfold to_bytes_be in E. destruct (N.ltb_spec n (256 ^ INT_BYTES)); [assumption|discriminate]. }
  rewrite (to_bytes_be_fit _ _ L) in E. apply Ok_inj in E as <-. split; [exact L|reflexivity].
Qed.
Section Choices.
Variables shake_128 shake_256 : hasher.
Variables KDF_DOMAIN salt_128 PRNG : bytes.
Hypothesis X1 : KdfSpec.xof shake_128.
Hypothesis X2 : KdfSpec.xof shake_256.
Notation kc := (keyed_choices shake_128 shake_256 KDF_DOMAIN salt_128 PRNG).

Lemma run_kdf_len p data n aad out : run_kdf shake_128 shake_256 p data (Some n) aad = Ok out -> n <> 0 /\ blen out = n.
Proof.
  unfold run_kdf. intros E. unfold hash_bytes in E. apply bind_ok in E as (a & _ & E).
  unfold run_size in E. destruct X2 as (X & D & L). rewrite D in E. cbn in E. destruct (N.eqb_spec n 0).
  - cbn in E. rewrite X in E. discriminate.
  - unfold call_digest in E. rewrite X in E. apply Ok_inj in E as <-. split; [assumption|apply L].
Qed.
Lemma sizes_ok {A} (choices : list A) n l : choice_sizes choices n = Ok l ->
  (0 <= n < 2 ^ 64)%Z /\ blen choices < 2 ^ 64 /\ l = [be_enc 8 (blen choices); be_enc 8 (Z.to_N n)].
Proof.
  unfold choice_sizes. intros E. apply bind_ok in E as (t & T & E). apply bind_ok in E as (s & S & E). apply Ok_inj in E as <-.
  destruct (Z.ltb_spec n 0); [discriminate|]. apply field8 in T as (T & ->), S as (S & ->).
  split; [lia|]. split; [assumption|reflexivity].
Qed.
Lemma choices_ok {A} (choices : list A) n domain key out : kc choices n domain key = Ok out ->
  (1 <= n < 2 ^ 64)%Z /\ choices <> [] /\ blen choices < 2 ^ 64 /\
  exists kdf stream, new_kdf shake_128 KDF_DOMAIN salt_128 domain [be_enc 8 (blen choices); be_enc 8 (Z.to_N n)] key = Ok kdf /\
    run_kdf shake_128 shake_256 kdf [] (Some (16 * Z.to_N n)) PRNG = Ok stream /\ blen stream = 16 * Z.to_N n /\
    length out = Z.to_nat n /\
    forall i, (i < Z.to_nat n)%nat -> exists a, nth_error out i = Some a /\
      nth_error choices (N.to_nat (be_int (block16 i stream) mod blen choices)) = Some a.
Proof.
  intros E. unfold keyed_choices in E. apply bind_ok in E as (sz & S & E). apply sizes_ok in S as (S1 & S2 & ->).
  apply bind_ok in E as (kdf & K & E). apply bind_ok in E as (stream & R & E).
  pose proof (run_kdf_len _ _ _ _ _ R) as (N0 & L).
  destruct (batch_nth (Z.to_nat n) stream) as (BL & BN); [lia|].
  assert (forall i, (i < Z.to_nat n)%nat -> exists a, nth_error out i = Some a /\ choose choices (block16 i stream) = Ok a) as H.
  { intros i I. exact (mapM_nth _ _ _ E i _ (BN i I)). }
  split; [lia|]. split; [destruct (H 0%nat) as (a & _ & C); [lia|]; now apply choose_ok in C as []|]. split; [assumption|].
  exists kdf, stream. split; [assumption|]. split; [assumption|]. split; [assumption|].
  split; [apply mapM_ok_length in E; rewrite E; exact BL|]. intros i I. destruct (H i I) as (a & Ha & C). exists a. split; [assumption|]. now apply choose_ok in C as [].
Qed.
Lemma choices_total {A} (choices : list A) n domain key :
  0 < h_block_size shake_128 < 2 ^ 56 -> 0 < h_block_size shake_256 < 2 ^ 56 ->
  (1 <= n < 2 ^ 59)%Z -> choices <> [] -> blen choices < 2 ^ 64 -> key <> [] -> blen key < 2 ^ 60 -> blen domain < 2 ^ 60 ->
  blen KDF_DOMAIN < 2 ^ 60 -> blen PRNG < 2 ^ 60 -> exists out, kc choices n domain key = Ok out.
Proof.
  intros B1 B2 Hn NE C K1 K2 D KD PR. unfold keyed_choices, choice_sizes.
  replace (n <? 0)%Z with false by lia. rewrite !to_bytes_be_fit by (change (256 ^ INT_BYTES) with (2 ^ 64); lia). cbn [bind].
  destruct (new_kdf_total shake_128 KDF_DOMAIN salt_128 domain [be_enc (N.to_nat INT_BYTES) (blen choices); be_enc (N.to_nat INT_BYTES) (Z.to_N n)] key X1 B1) as (p & ->).
  - destruct key; [contradiction|discriminate].
  - rewrite blen_app. lia.
  - repeat apply Forall_cons; try apply Forall_nil; rewrite ?blen_be_enc; unfold INT_BYTES; lia.
  - vm_compute. reflexivity.
  - cbn [bind]. destruct X2 as (X & DS & L).
    pose proof (hash_bytes_total shake_256 [PRNG] x00 (16 * Z.to_N n) (run_key shake_128 shake_256 p) (conj X L) B2) as HT.
    assert (blen (run_key shake_128 shake_256 p) = h_block_size shake_256) as KL by (unfold run_key; apply (proj2 (proj2 X1))).
    match type of HT with _ -> _ -> _ -> _ -> _ -> ?C => assert C as (t & E & TL); [apply HT|] end.
    + lia.
    + intros E. rewrite E in KL. rewrite (@blen_nil byte) in KL. lia.
    + rewrite KL. lia.
    + apply Forall_cons; [lia|apply Forall_nil].
    + vm_compute. reflexivity.
    + assert (run_kdf shake_128 shake_256 p [] (Some (16 * Z.to_N n)) PRNG = Ok t) as -> by (unfold run_kdf, run_size; rewrite DS; exact E). cbn [bind].
      destruct (mapM_total (choose choices) (fun _ => True) (batch t 16)) as (ys & -> & _); [|eauto].
      intros x _. destruct (choose_total choices x NE) as (a & ->). eauto.
Qed.
(** What the words are derived from. *)
Lemma choices_separated {A} (c1 c2 : list A) n1 n2 d1 d2 k1 k2 o1 o2 p1 p2 y :
  h_block_size shake_128 < 2 ^ 56 -> h_block_size shake_256 < 2 ^ 56 -> same_blocks shake_128 k1 d1 k2 d2 \/ blen d1 = blen d2 ->
  kc c1 n1 d1 k1 = Ok o1 -> kc c2 n2 d2 k2 = Ok o2 ->
  new_kdf shake_128 KDF_DOMAIN salt_128 d1 [be_enc 8 (blen c1); be_enc 8 (Z.to_N n1)] k1 = Ok p1 ->
  new_kdf shake_128 KDF_DOMAIN salt_128 d2 [be_enc 8 (blen c2); be_enc 8 (Z.to_N n2)] k2 = Ok p2 ->
  run_absorbed shake_128 shake_256 p1 [] (Some (16 * Z.to_N n1)) PRNG = Ok y ->
  run_absorbed shake_128 shake_256 p2 [] (Some (16 * Z.to_N n2)) PRNG = Ok y ->
  n1 = n2 /\ ((d1 = d2 /\ k1 = k2 /\ length c1 = length c2) \/ KdfSpec.collision shake_128 (h_block_size shake_256) p1 p2 \/
   exists y1 y2, first_input shake_128 KDF_DOMAIN d1 [be_enc 8 (blen c1); be_enc 8 (Z.to_N n1)] k1 y1 /\
     first_input shake_128 KDF_DOMAIN d2 [be_enc 8 (blen c2); be_enc 8 (Z.to_N n2)] k2 y2 /\ KdfSpec.collision shake_128 (h_block_size shake_128) y1 y2).
Proof.
  intros B1 B2 SB0 K1 K2 N1 N2 R1 R2.
  assert (SB : separable shake_128 k1 d1 [be_enc 8 (blen c1); be_enc 8 (Z.to_N n1)] k2 d2 [be_enc 8 (blen c2); be_enc 8 (Z.to_N n2)]).
  { destruct SB0 as [S|S]; [now left|right]. split; [exact S|]. cbn [map]. now rewrite !blen_be_enc. }
  apply choices_ok in K1 as (R & _ & C1 & _), K2 as (R' & _ & C2 & _).
  destruct (run_inj shake_128 X1 shake_256 _ _ _ _ _ _ _ _ _ B2 R1 R2) as (_ & _ & S & P).
  specialize (S (proj1 (proj2 X2))). unfold size_or in S.
  replace (16 * Z.to_N n1 =? 0) with false in S by lia. replace (16 * Z.to_N n2 =? 0) with false in S by lia.
  split; [lia|]. destruct P as [<-|P]; [|auto].
  destruct (payload_inj shake_128 KDF_DOMAIN salt_128 X1 _ _ _ _ _ _ _ _ _ B1 SB (made_new _ _ _ _ _ _ _ N1) (made_new _ _ _ _ _ _ _ N2)) as (_ & [(-> & E & ->)|H]); [|auto].
  left. split; [reflexivity|]. split; [reflexivity|]. apply (f_equal (hd [])) in E. cbn [hd] in E. apply be_enc_inj in E; [|change (256 ^ N.of_nat 8) with (2 ^ 64); lia..]. unfold blen in E. lia.
Qed.
End Choices.

(** ** Counting *)
Definition upto_N (c : N) : list N := map N.of_nat (seq 0 (N.to_nat c)).
Lemma upto_N_in c q : In q (upto_N c) <-> q < c.
Proof.
  unfold upto_N. rewrite in_map_iff. split.
  - intros (k & <- & I). apply in_seq in I. lia.
  - intros L. exists (N.to_nat q). split; [lia|]. apply in_seq. lia.
Qed.
Lemma upto_N_len c : blen (upto_N c) = c.
Proof. unfold upto_N, blen. rewrite map_length, seq_length. lia. Qed.
Lemma upto_N_nodup c : NoDup (upto_N c).
Proof. unfold upto_N. apply FinFun.Injective_map_NoDup; [intros a b; lia|apply seq_NoDup]. Qed.
Lemma map_nodup_in {A B} (f : A -> B) l : (forall x y, In x l -> In y l -> f x = f y -> x = y) -> NoDup l -> NoDup (map f l).
Proof.
  intros H N. induction N as [|x l I N IH]; cbn; constructor.
  - intros J. apply in_map_iff in J as (y & E & J). apply H in E; [subst y; contradiction|now right|now left].
  - apply IH. intros a b Ia Ib. apply H; now right.
Qed.
(** The numbers below [M] that leave the rest [i] modulo [n]. *)
Definition hits (M n i : N) : N := M / n + (if i <? M mod n then 1 else 0).
Lemma hits_below M n i q : 0 < n -> i < n -> (i + n * q < M <-> q < hits M n i).
Proof.
  intros Hn Hi. unfold hits. pose proof (N.div_mod M n ltac:(lia)) as D. pose proof (N.mod_upper_bound M n ltac:(lia)) as U.
  set (a := M / n) in *. set (r := M mod n) in *. rewrite D. destruct (N.ltb_spec i r); split; intros L; nia.
Qed.
Lemma residue_strings w n i : 0 < n -> i < n -> exists l, NoDup l /\
  (forall b, In b l <-> length b = w /\ be_int b mod n = i) /\ blen l = hits (256 ^ N.of_nat w) n i.
Proof.
  intros Hn Hi. set (M := 256 ^ N.of_nat w). exists (map (fun q => be_enc w (i + n * q)) (upto_N (hits M n i))). split; [|split].
  - apply map_nodup_in; [|apply upto_N_nodup]. intros x y Ix Iy E. apply upto_N_in in Ix, Iy.
    apply be_enc_inj in E; [nia|now apply hits_below..].
  - intros b. rewrite in_map_iff. split.
    + intros (q & <- & I). apply upto_N_in in I. apply hits_below in I; [|assumption..]. split; [apply be_enc_length|].
      rewrite be_int_be_enc, (N.mod_small (i + n * q)) by exact I. rewrite N.mul_comm, N.mod_add by lia. now apply N.mod_small.
    + intros (L & E). exists (be_int b / n). pose proof (N.div_mod (be_int b) n ltac:(lia)) as D. rewrite E in D.
      assert (i + n * (be_int b / n) = be_int b) as Q by lia. rewrite Q. split; [rewrite <- L; apply be_enc_be_int|].
      apply upto_N_in, hits_below; [assumption..|]. rewrite Q. unfold M. rewrite <- L. apply be_int_bound.
  - unfold blen. rewrite map_length. apply upto_N_len.
Qed.

(** ** The word lists *)
Fixpoint bytes_ltb (a b : bytes) : bool :=
  match a, b with
  | [], _ :: _ => true
  | x :: a, y :: b => (bval x <? bval y) || (byte_eqb x y && bytes_ltb a b)
  | _, [] => false
  end.
Lemma bytes_ltb_irrefl a : bytes_ltb a a = false.
Proof. induction a as [|x a IH]; [reflexivity|]. cbn. rewrite IH, N.ltb_irrefl. now rewrite andb_false_r. Qed.
Lemma bytes_ltb_trans a b c : bytes_ltb a b = true -> bytes_ltb b c = true -> bytes_ltb a c = true.
Proof.
  revert b c. induction a as [|x a IH]; intros [|y b] [|z c]; cbn; try congruence.
  intros H1 H2. apply orb_true_iff in H1, H2. apply orb_true_iff.
  destruct H1 as [H1|H1], H2 as [H2|H2].
  - left. lia.
  - apply andb_true_iff in H2 as (E & H2). apply byte_eqb_eq in E as ->. now left.
  - apply andb_true_iff in H1 as (E & H1). apply byte_eqb_eq in E as ->. now left.
  - apply andb_true_iff in H1 as (E1 & H1), H2 as (E2 & H2). apply byte_eqb_eq in E1 as ->, E2 as ->. right.
    apply andb_true_iff. split; [now apply byte_eqb_eq|eauto].
Qed.
Fixpoint increasing (l : list bytes) : bool :=
  match l with
  | a :: (b :: _) as t => bytes_ltb a b && increasing t
  | _ => true
  end.
Lemma increasing_head a l : increasing (a :: l) = true -> Forall (fun b => bytes_ltb a b = true) l /\ increasing l = true.
Proof.
  revert a. induction l as [|b l IH]; intros a H; [auto|]. cbn [increasing] in H. apply andb_true_iff in H as (H1 & H2).
  split; [|exact H2]. constructor; [exact H1|]. apply IH in H2 as (F & _). eapply Forall_impl; [|exact F]. intros c. now apply bytes_ltb_trans.
Qed.
Lemma increasing_nodup l : increasing l = true -> NoDup l.
Proof.
  induction l as [|a l IH]; intros H; [constructor|]. apply increasing_head in H as (F & H). constructor; [|auto].
  intros I. rewrite Forall_forall in F. apply F in I. now rewrite bytes_ltb_irrefl in I.
Qed.
Fixpoint insert (a : bytes) (l : list bytes) : list bytes :=
  match l with
  | [] => [a]
  | b :: l' => if bytes_ltb a b then a :: l else b :: insert a l'
  end.
Lemma insert_perm a l : Permutation (a :: l) (insert a l).
Proof.
  induction l as [|b l IH]; [reflexivity|]. cbn. destruct (bytes_ltb a b); [reflexivity|]. rewrite perm_swap. now constructor.
Qed.
Definition isort (l : list bytes) : list bytes := fold_right insert [] l.
Lemma isort_perm l : Permutation l (isort l).
Proof. induction l as [|a l IH]; [reflexivity|]. cbn. now rewrite IH at 1; apply insert_perm. Qed.
Lemma sorted_nodup l : increasing (isort l) = true -> NoDup l.
Proof. intros H. eapply Permutation_NoDup; [symmetry; apply isort_perm|now apply increasing_nodup]. Qed.
Definition lowercaseb (w : bytes) : bool := match w with [] => false | _ => forallb (fun b => (97 <=? bval b) && (bval b <=? 122)) w end.
Lemma lowercaseb_ok w : lowercaseb w = true -> lowercase_word w.
Proof.
  destruct w as [|b w]; [discriminate|]. intros H. split; [discriminate|]. unfold lowercaseb in H. rewrite forallb_forall in H.
  apply Forall_forall. intros x I. apply H in I. lia.
Qed.
Lemma word_list_facts : length WORD_LIST = 2048%nat /\ NoDup WORD_LIST /\ Forall lowercase_word WORD_LIST.
Proof.
  split; [vm_compute; reflexivity|]. split; [apply sorted_nodup; vm_compute; reflexivity|].
  apply Forall_forall. intros w I. apply lowercaseb_ok. revert w I. apply forallb_forall. vm_compute. reflexivity.
Qed.
Lemma word_list_256_facts : length WORD_LIST_256 = 256%nat /\ NoDup WORD_LIST_256 /\ Forall lowercase_word WORD_LIST_256.
Proof.
  split; [vm_compute; reflexivity|]. split; [apply increasing_nodup; vm_compute; reflexivity|].
  apply Forall_forall. intros w I. apply lowercaseb_ok. revert w I. apply forallb_forall. vm_compute. reflexivity.
Qed.

(** ** Phrases *)
Lemma last_index_absent w ws : ~ In w ws -> forall i f, last_index w ws i f = f.
Proof.
  induction ws as [|v ws IH]; intros N i f; [reflexivity|]. cbn. rewrite IH by (intros I; apply N; now right).
  destruct (bytes_eqb v w) eqn:E; [|reflexivity]. apply bytes_eqb_eq in E as ->. exfalso. apply N. now left.
Qed.
Lemma last_index_present w ws : NoDup ws -> forall k i f, nth_error ws k = Some w -> last_index w ws i f = Some (i + N.of_nat k).
Proof.
  intros ND. induction ND as [|v ws I ND IH]; intros k i f E; [destruct k; discriminate|].
  destruct k as [|k]; cbn in *.
  - injection E as ->. rewrite last_index_absent by assumption. rewrite bytes_eqb_refl. f_equal. lia.
  - rewrite (IH k) by assumption. f_equal. lia.
Qed.
Lemma word_of_in b : nth_error WORD_LIST_256 (N.to_nat (bval b)) = Some (word_of b).
Proof.
  unfold word_of. apply nth_error_nth'. destruct word_list_256_facts as (L & _). rewrite L. pose proof (bval_lt b). lia.
Qed.
Lemma byte_of_word_of b : byte_of_word (word_of b) = Ok b.
Proof.
  unfold byte_of_word. destruct word_list_256_facts as (_ & N & _). rewrite (last_index_present _ _ N _ 0 None (word_of_in b)).
  rewrite N.add_0_l, N2Nat.id. now rewrite byte_of_bval.
Qed.
Lemma byte_of_word_inv w b : byte_of_word w = Ok b -> w = word_of b.
Proof.
  unfold byte_of_word. intros E. destruct word_list_256_facts as (L & N & _).
  destruct (in_dec (list_eq_dec Byte.byte_eq_dec) w WORD_LIST_256) as [I|I].
  - apply (@In_nth_error bytes) in I as (k & K). rewrite (last_index_present _ _ N _ 0 None K) in E. apply Ok_inj in E as <-.
    assert (k < 256)%nat as Lk by (rewrite <- L; apply (proj1 (nth_error_Some WORD_LIST_256 k)); rewrite K; discriminate).
    unfold word_of. rewrite bval_byte_of. rewrite N.mod_small by lia. rewrite N.add_0_l, Nat2N.id. symmetry. apply nth_error_nth with (1 := K).
  - rewrite last_index_absent in E by assumption. discriminate.
Qed.
Lemma byte_of_word_err w e : byte_of_word w = Err e -> e = KeyErr /\ ~ In w WORD_LIST_256.
Proof.
  intros E. split.
  - unfold byte_of_word in E. destruct (last_index _ _ _ _); congruence.
  - intros I. destruct word_list_256_facts as (_ & N & _). apply (@In_nth_error bytes) in I as (k & K). unfold byte_of_word in E. rewrite (last_index_present _ _ N _ 0 None K) in E. discriminate.
Qed.
Lemma word_of_lowercase b : lowercase_word (word_of b).
Proof. destruct word_list_256_facts as (_ & _ & F). rewrite Forall_forall in F. apply F. eapply nth_error_In, word_of_in. Qed.

Lemma is_space_blank b : is_space b = true <-> blank b.
Proof. unfold blank. destruct b; vm_compute; split; intros; try discriminate; try tauto; try lia; try (left; reflexivity); try (right; split; discriminate);
  match goal with H : _ \/ _ |- _ => destruct H as [H|[H1 H2]]; [discriminate|exfalso; first [now apply H1|now apply H2]] end. Qed.
Lemma lower_no_blank w b : lowercase_word w -> In b w -> is_space b = false.
Proof.
  intros (_ & F) I. rewrite Forall_forall in F. apply F in I. destruct (is_space b) eqn:E; [|reflexivity].
  apply is_space_blank in E. unfold blank in E. lia.
Qed.

Lemma join_sentence ws : ws <> [] -> sentence ws (join_words ws).
Proof.
  induction ws as [|w ws IH]; intros H; [contradiction|]. destruct ws as [|v ws]; [constructor|]. cbn [join_words].
  constructor. now apply IH.
Qed.
Lemma sentence_fun ws s s' : sentence ws s -> sentence ws s' -> s = s'.
Proof.
  intros H. revert s'. induction H as [w|w ws s H IH]; intros s' H'; inversion H'; subst; try reflexivity.
  - match goal with X : sentence [] _ |- _ => inversion X end.
  - inversion H.
  - now rewrite (IH _ ltac:(eassumption)).
Qed.
Lemma sentence_nonnil ws s : sentence ws s -> ws <> [].
Proof. now destruct 1. Qed.

Lemma split_app acc w s : ~ In x20 w -> split_spaces acc (w ++ x20 :: s) = (rev acc ++ w) :: split_spaces [] s.
Proof.
  revert acc. induction w as [|b w IH]; intros acc N.
  - cbn. now rewrite app_nil_r.
  - cbn. destruct (Byte.eqb b x20) eqn:E; [exfalso; apply N; left; now apply Byte.byte_dec_bl|]. rewrite IH by (intros I; apply N; now right).
    cbn. now rewrite <- app_assoc.
Qed.
Lemma split_last acc w : ~ In x20 w -> split_spaces acc w = [rev acc ++ w].
Proof.
  revert acc. induction w as [|b w IH]; intros acc N; [cbn; now rewrite app_nil_r|].
  cbn. destruct (Byte.eqb b x20) eqn:E; [exfalso; apply N; left; now apply Byte.byte_dec_bl|]. rewrite IH by (intros I; apply N; now right). cbn. now rewrite <- app_assoc.
Qed.
Lemma split_sentence ws s : Forall (fun w => ~ In x20 w) ws -> sentence ws s -> split_spaces [] s = ws.
Proof.
  intros F H. induction H as [w|w ws s H IH]; inversion F; subst.
  - now rewrite split_last.
  - rewrite split_app by assumption. cbn. f_equal. now apply IH.
Qed.
Lemma split_is_sentence s : forall acc, exists w ws, split_spaces acc s = (rev acc ++ w) :: ws /\ sentence (w :: ws) s.
Proof.
  induction s as [|b s IH]; intros acc.
  - exists [], []. cbn. rewrite app_nil_r. split; [reflexivity|constructor].
  - cbn. destruct (Byte.eqb b x20) eqn:E.
    + apply Byte.byte_dec_bl in E as ->. destruct (IH []) as (w & ws & -> & S). exists [], (w :: ws). rewrite app_nil_r. split; [reflexivity|].
      change (x20 :: s) with ([] ++ x20 :: s). now constructor.
    + destruct (IH (b :: acc)) as (w & ws & -> & S). exists (b :: w), ws. cbn. rewrite <- app_assoc. split; [reflexivity|].
      inversion S; subst; [constructor|]. change (b :: w ++ x20 :: s0) with ((b :: w) ++ x20 :: s0). now constructor.
Qed.

(** *** Stripping *)
Lemma lstrip_spec l : exists a, l = a ++ lstrip l /\ Forall blank a /\ match lstrip l with [] => True | b :: _ => ~ blank b end.
Proof.
  induction l as [|b l IH]; [exists []; cbn; auto|]. cbn [lstrip]. destruct (is_space b) eqn:E.
  - destruct IH as (a & E' & F & H). exists (b :: a). split; [exact (f_equal (cons b) E')|]. split; [constructor; [now apply is_space_blank|assumption]|exact H].
  - exists []. split; [reflexivity|]. split; [constructor|]. intros B. apply is_space_blank in B. congruence.
Qed.
Lemma lstrip_app a l : Forall blank a -> lstrip (a ++ l) = lstrip l.
Proof. induction 1 as [|b a B F IH]; [reflexivity|]. cbn [lstrip app]. apply is_space_blank in B. now rewrite B. Qed.
Lemma lstrip_stop b l : ~ blank b -> lstrip (b :: l) = b :: l.
Proof. intros N. cbn [lstrip]. destruct (is_space b) eqn:E; [|reflexivity]. now apply is_space_blank in E. Qed.
Lemma strip_surrounded l : surrounded l (strip l).
Proof.
  destruct (lstrip_spec l) as (a & E & F & _). destruct (lstrip_spec (rev (lstrip l))) as (c & E2 & F2 & _).
  exists a, (rev c). split; [assumption|]. split; [now apply Forall_rev|]. unfold strip. rewrite E at 1. f_equal.
  rewrite <- (rev_involutive (lstrip l)) at 1. rewrite E2 at 1. now rewrite rev_app_distr.
Qed.
Lemma strip_tight p q : surrounded p q -> (forall b l, q = b :: l -> ~ blank b) -> (forall b l, q = l ++ [b] -> ~ blank b) -> strip p = q.
Proof.
  intros (a & c & Fa & Fc & ->) H1 H2. unfold strip. rewrite lstrip_app by assumption. destruct q as [|b q].
  - cbn. rewrite <- (app_nil_r c). rewrite lstrip_app by assumption. reflexivity.
  - cbn [app]. rewrite lstrip_stop by (eapply H1; reflexivity). change (b :: q ++ c) with ((b :: q) ++ c). rewrite rev_app_distr, lstrip_app by now apply Forall_rev.
    destruct (exists_last (l := b :: q) ltac:(discriminate)) as (l & z & E). rewrite E, rev_app_distr. cbn [rev app].
    rewrite lstrip_stop by (eapply H2; exact E). cbn [rev]. now rewrite rev_involutive.
Qed.

Lemma sentence_first ws s : Forall lowercase_word ws -> sentence ws s -> forall b l, s = b :: l -> ~ blank b.
Proof.
  intros F H b l E B. apply is_space_blank in B. destruct H as [w|w ws s H]; apply Forall_inv in F.
  - subst w. rewrite (lower_no_blank (b :: l) b) in B; [discriminate|assumption|now left].
  - destruct w as [|x w]; [now destruct (proj1 F)|]. injection E as -> _.
    rewrite (lower_no_blank (b :: w) b) in B; [discriminate|assumption|now left].
Qed.
Lemma sentence_nonempty ws s : Forall lowercase_word ws -> sentence ws s -> s <> [].
Proof. intros F H. destruct H as [w|w ws s H]; apply Forall_inv in F; [exact (proj1 F)|destruct w; discriminate]. Qed.
Lemma sentence_last ws s : Forall lowercase_word ws -> sentence ws s -> forall b l, s = l ++ [b] -> ~ blank b.
Proof.
  intros F H. induction H as [w|w ws s H IH]; intros b l E.
  - apply Forall_inv in F. intros B. apply is_space_blank in B. subst w. rewrite (lower_no_blank (l ++ [b]) b) in B; [discriminate|assumption|]. apply in_or_app. right. now left.
  - apply Forall_inv_tail in F. destruct (exists_last (sentence_nonempty _ _ F H)) as (s' & z & ->).
    apply (IH F b s'). change (w ++ x20 :: s' ++ [z]) with (w ++ (x20 :: s') ++ [z]) in E. rewrite app_assoc in E. apply app_inj_tail in E as (_ & ->). reflexivity.
Qed.
Lemma words_lowercase value : Forall lowercase_word (map word_of value).
Proof. apply Forall_forall. intros w I. apply in_map_iff in I as (b & <- & _). apply word_of_lowercase. Qed.
Lemma words_no_space value : Forall (fun w => ~ In x20 w) (map word_of value).
Proof.
  eapply Forall_impl; [|apply words_lowercase]. intros w L I. pose proof (lower_no_blank w x20 L I) as E. discriminate E.
Qed.
Lemma decode_words value : mapM byte_of_word (map word_of value) = Ok value.
Proof. induction value as [|b v IH]; [reflexivity|]. cbn [map mapM]. rewrite byte_of_word_of. cbn [bind]. now rewrite IH. Qed.
Lemma decode_words_inv ws v : mapM byte_of_word ws = Ok v -> ws = map word_of v.
Proof.
  revert v. induction ws as [|w ws IH]; intros v E; [cbn in E; apply Ok_inj in E as <-; reflexivity|].
  cbn in E. apply bind_ok in E as (b & B & E). apply bind_ok in E as (v' & M & E). apply Ok_inj in E as <-. cbn. f_equal; [now apply byte_of_word_inv|now apply IH].
Qed.
Lemma phrase_decodes value p : value <> [] -> surrounded p (bytes_to_phrase value) -> phrase_to_bytes p = Ok value.
Proof.
  intros NE S. assert (sentence (map word_of value) (bytes_to_phrase value)) as T by (apply join_sentence; now destruct value).
  unfold phrase_to_bytes. rewrite (strip_tight _ _ S).
  - rewrite (split_sentence _ _ (words_no_space value) T). apply decode_words.
  - now apply (sentence_first _ _ (words_lowercase value) T).
  - now apply (sentence_last _ _ (words_lowercase value) T).
Qed.
Lemma phrase_inv p v : phrase_to_bytes p = Ok v -> v <> [] /\ surrounded p (bytes_to_phrase v).
Proof.
  unfold phrase_to_bytes. intros E. apply decode_words_inv in E. destruct (split_is_sentence (strip p) []) as (w & ws & E2 & S).
  cbn [rev app] in E2. rewrite E2 in E. rewrite E in S. pose proof (sentence_nonnil _ _ S) as NE.
  split; [intros ->; now apply NE|]. replace (bytes_to_phrase v) with (strip p); [apply strip_surrounded|].
  eapply sentence_fun; [exact S|]. now apply join_sentence.
Qed.
Lemma phrase_err p e : phrase_to_bytes p = Err e -> e = KeyErr.
Proof.
  unfold phrase_to_bytes. generalize (split_spaces [] (strip p)). intros ws. induction ws as [|w ws IH]; [discriminate|].
  cbn. destruct (byte_of_word w) as [b|e'] eqn:B.
  - cbn. destruct (mapM byte_of_word ws); [discriminate|]. cbn. intros E. injection E as <-. now apply IH.
  - cbn. intros E. injection E as <-. now apply byte_of_word_err in B as [].
Qed.

(** ** Mnemonics *)
Section Words.
Variables shake_128 shake_256 : hasher.
Variables KDF_DOMAIN salt_128 PRNG MNEMONIC : bytes.
Variable defaults : settings.
Variable passcrypt_domain kdf_salt PEPPER DEFAULT_AAD : bytes.
Hypothesis X1 : KdfSpec.xof shake_128.
Hypothesis X2 : KdfSpec.xof shake_256.
Notation mn := (mnemonic shake_128 shake_256 KDF_DOMAIN salt_128 PRNG MNEMONIC defaults passcrypt_domain kdf_salt PEPPER DEFAULT_AAD).
Notation pk := (passphrase_key shake_128 passcrypt_domain kdf_salt PEPPER DEFAULT_AAD).


Lemma mnemonic_inv random passphrase size salt words st out : mn random passphrase size salt words st = Ok out ->
  exists packed key, canonical_pack [or_empty salt; MNEMONIC] 1 [x00] INT_BYTES = Ok packed /\
    keyed_choices shake_128 shake_256 KDF_DOMAIN salt_128 PRNG (used_words words) size MNEMONIC key = Ok out /\
    (or_empty passphrase = [] /\ st = None /\ key = random \/
     or_empty passphrase <> [] /\ pk (or_empty passphrase) packed (used_settings defaults st) = Ok key).
Proof.
  unfold mnemonic. intros E. apply bind_ok in E as (packed & P & E). apply bind_ok in E as (key & K & E).
  exists packed, key. split; [exact P|]. split; [exact E|]. destruct passphrase as [[|b bs]|]; cbn [or_empty].
  - left. destruct st; [discriminate|]. apply Ok_inj in K. auto.
  - right. split; [discriminate|exact K].
  - left. destruct st; [discriminate|]. apply Ok_inj in K. auto.
Qed.
Lemma used_words_nonempty words : used_words words <> [].
Proof. destruct words as [[|w ws]|]; discriminate. Qed.
Lemma pack_total (salt : bytes) : blen salt < 2 ^ 60 -> blen MNEMONIC < 2 ^ 60 -> exists packed, canonical_pack [salt; MNEMONIC] 1 [x00] INT_BYTES = Ok packed /\ blen packed = 50 + blen salt + blen MNEMONIC.
Proof.
  intros S M. destruct (canonical_pack_total [salt; MNEMONIC] 1 x00 INT_BYTES) as (p & P).
  { unfold CanonSpec.fits. change (256 ^ INT_BYTES) with (2 ^ 64). split; [unfold INT_BYTES; lia|]. split; [lia|]. split; [rewrite !blen_cons, blen_nil; lia|].
    repeat apply Forall_cons; try apply Forall_nil; lia. }
  exists p. split; [exact P|]. apply pack1_length in P. cbn [map fold_right] in P. lia.
Qed.
Lemma mnemonic_random random passphrase size salt words :
  0 < h_block_size shake_128 < 2 ^ 56 -> 0 < h_block_size shake_256 < 2 ^ 56 ->
  or_empty passphrase = [] -> random <> [] -> blen random < 2 ^ 60 -> (1 <= size < 2 ^ 59)%Z -> blen (or_empty salt) < 2 ^ 60 ->
  blen (used_words words) < 2 ^ 64 -> blen MNEMONIC < 2 ^ 60 -> blen KDF_DOMAIN < 2 ^ 60 -> blen PRNG < 2 ^ 60 ->
  exists out, mn random passphrase size salt words None = Ok out.
Proof.
  intros B1 B2 PE R1 R2 Hs Sl W M KD PR. unfold mnemonic. destruct (pack_total _ Sl M) as (packed & -> & _). cbn [bind].
  assert ((match passphrase with Some (b :: bs) => pk (b :: bs) packed defaults | _ => Ok random end) = Ok random) as E.
  { destruct passphrase as [[|b bs]|]; try reflexivity. discriminate PE. }
  destruct (choices_total shake_128 shake_256 KDF_DOMAIN salt_128 PRNG X1 X2 (used_words words) size MNEMONIC random) as (out & O); try assumption; [apply used_words_nonempty|].
  exists out. destruct passphrase as [[|b bs]|]; cbn [bind]; try exact O. discriminate PE.
Qed.
Lemma pk_total passphrase packed st : passphrase <> [] -> let cf := set_config st in
  sound_config cf -> 0 < h_block_size shake_128 < 2 ^ 56 -> length (PASSCRYPT_PAD cf) = 1%nat ->
  blen passcrypt_domain < 2 ^ 60 -> blen (PACKED_METADATA cf) < 2 ^ 60 -> blen PEPPER < 2 ^ 60 -> blen passphrase < 2 ^ 60 -> blen DEFAULT_AAD < 2 ^ 61 ->
  (MIN_PASSPHRASE_BYTES cf <= zlen passphrase)%Z ->
  in_limits cf (set_mb st) (set_cpu st) (set_cores st) 64 (set_salt_size st) -> in_limits cf (set_mb st) (set_cpu st) (set_cores st) 64 (zlen packed) ->
  (MIN_MB cf <= core_mb (set_mb st) (set_cores st))%Z ->
  exists key, pk passphrase packed st = Ok key /\ blen key = 64.
Proof.
  intros NE cf sc B P1 D M PP PW A ML L1 L2 MM. unfold passphrase_key. fold cf.
  change (Z.of_N MIN_KEY_BYTES) with 64%Z. rewrite (proj2 (validate_ok cf _ _ _ _ _) L1). cbn [bind].
  destruct (new_total cf sc passcrypt_domain kdf_salt shake_128 (conj (proj1 X1) (proj2 (proj2 X1))) B PEPPER passphrase P1 D M PP PW ML packed DEFAULT_AAD _ _ _ _ A L2 MM NE ltac:(lia)) as (t & ss & E & TL & _).
  rewrite E. exists t. split; [reflexivity|]. unfold zlen in TL. lia.
Qed.
Lemma pk_limits passphrase packed st key : pk passphrase packed st = Ok key -> let cf := set_config st in
  (MIN_PASSPHRASE_BYTES cf <= zlen passphrase)%Z /\ in_limits cf (set_mb st) (set_cpu st) (set_cores st) 64 (set_salt_size st) /\
  (MIN_SALT_SIZE cf <= zlen packed <= MAX_SALT_SIZE cf)%Z /\ blen key = 64.
Proof.
  intros E cf. unfold passphrase_key in E. change (Z.of_N MIN_KEY_BYTES) with 64%Z in E. fold cf in E. apply bind_ok in E as ([] & V & E). apply validate_ok in V.
  destruct (new _ _ _ _ _ _ _ _ _ _ _ _) as [r ss] eqn:N. cbn [fst] in E. subst r.
  apply new_ok in N as (F & rs & first & M & H & T). destruct ss as [|s ss]; [cbn in M; apply Ok_inj in M as <-; discriminate|].
  inversion F as [|c s' l' ss' S _ E1 E2]. subst. unfold core_session in S.
  apply bind_ok in S as (t & _ & S). apply bind_ok in S as (b & _ & S). apply bind_ok in S as (a & _ & S).
  unfold make_session in S. apply bind_ok in S as (u & I & S). apply bind_ok in S as ([] & V2 & _). apply validate_ok in V2.
  unfold validate_inputs in I. destruct (Z.leb_spec (MIN_PASSPHRASE_BYTES cf) (zlen passphrase)); [|discriminate].
  split; [assumption|]. split; [exact V|]. split; [exact (proj2 (proj2 (proj2 (proj2 V2))))|].
  unfold hash_bytes in T. apply bind_ok in T as (z & _ & T). cbn [truthy_size] in T. change (Z.to_N 64 =? 0) with false in T. unfold call_digest in T.
  rewrite (proj1 X1) in T. apply Ok_inj in T as <-. apply (proj2 (proj2 X1)).
Qed.
Lemma mnemonic_passphrase random passphrase size salt words st : passphrase <> [] -> let cf := set_config (used_settings defaults st) in let s := used_settings defaults st in
  sound_config cf -> 0 < h_block_size shake_128 < 2 ^ 56 -> 0 < h_block_size shake_256 < 2 ^ 56 -> length (PASSCRYPT_PAD cf) = 1%nat ->
  blen passcrypt_domain < 2 ^ 60 -> blen (PACKED_METADATA cf) < 2 ^ 60 -> blen PEPPER < 2 ^ 60 -> blen passphrase < 2 ^ 60 -> blen DEFAULT_AAD < 2 ^ 61 ->
  blen MNEMONIC < 2 ^ 60 -> blen KDF_DOMAIN < 2 ^ 60 -> blen PRNG < 2 ^ 60 -> blen (or_empty salt) < 2 ^ 60 ->
  (MIN_PASSPHRASE_BYTES cf <= zlen passphrase)%Z ->
  in_limits cf (set_mb s) (set_cpu s) (set_cores s) 64 (set_salt_size s) ->
  (MIN_SALT_SIZE cf <= 50 + zlen (or_empty salt) + zlen MNEMONIC <= MAX_SALT_SIZE cf)%Z ->
  (MIN_MB cf <= core_mb (set_mb s) (set_cores s))%Z -> (1 <= size < 2 ^ 59)%Z -> blen (used_words words) < 2 ^ 64 ->
  exists out, mn random (Some passphrase) size salt words st = Ok out.
Proof.
  intros NE cf s sc B1 B2 P1 D M PP PW A MN KD PR SL ML L1 L2 MM Hs W. unfold mnemonic. destruct (pack_total _ SL MN) as (packed & -> & PL). cbn [bind].
  destruct (pk_total passphrase packed s NE sc B1 P1 D M PP PW A ML L1) as (key & K & KL); [|exact MM|].
  { unfold in_limits in *. unfold zlen in *. repeat (split; [tauto|]). change (set_config s) with cf. clear - L2 PL. lia. }
  destruct (choices_total shake_128 shake_256 KDF_DOMAIN salt_128 PRNG X1 X2 (used_words words) size MNEMONIC key) as (out & O); try assumption; try (unfold bytes in *; lia); [apply used_words_nonempty|intros ->; rewrite (@blen_nil byte) in KL; lia|].
  exists out. destruct passphrase as [|b bs]; [contradiction|]. unfold s, used_settings in K. rewrite K. cbn [bind]. exact O.
Qed.
End Words.
