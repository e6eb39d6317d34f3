(** * ReportProofs: facts behind the theorems about reports. *)

From Verif Require Import Base BaseFacts CanonModel CanonSpec CanonProofs TransformModel TransformProps ClockModel
  KdfModel KdfSpec KdfProofs CurveModel CurveSpec CurveProofs CipherModel CipherSpec CipherProofs CipherProps
  ReportModel ReportSpec.
Local Open Scope N_scope.

Lemma period_keys_last : forall old token,
  period_keys old token = last_items 4 (match old with Some l => l | None => [] end ++ [token]).
Proof.
  intros old token. unfold period_keys, last_items. set (l := match old with Some l => l | None => [] end).
  rewrite app_length. cbn [length]. replace (length l + 1 - 4)%nat with (length l - 3)%nat by lia.
  rewrite skipn_app. replace (length l - 3 - length l)%nat with 0%nat by lia. reflexivity.
Qed.

Lemma skipn_twice {A} : forall n m (l : list A), skipn n (skipn m l) = skipn (m + n) l.
Proof.
  intros n m. induction m as [|m IH]; intros l; [reflexivity|].
  destruct l as [|x l]; [now rewrite skipn_nil|]. apply IH.
Qed.

Lemma last_items_again {A} : forall n (l : list A) x,
  last_items n (last_items n l ++ [x]) = last_items n (l ++ [x]).
Proof.
  intros n l x. unfold last_items. rewrite !app_length, !skipn_length. cbn [length].
  destruct n as [|n].
  - rewrite !skipn_all2; [reflexivity|rewrite app_length; cbn; lia|rewrite app_length, skipn_length; cbn; lia].
  - rewrite !skipn_app, skipn_length, skipn_twice.
    f_equal; f_equal; lia.
Qed.

Lemma choose_mb_chosen : forall normal parse_int answers mb m rest,
  choose_mb normal parse_int mb answers = Ok (m, rest) <->
  chosen parse_int (begins normal 110) (mb :: answers) m rest.
Proof.
  intros normal parse_int answers.
  assert (B : forall a, starts normal letter_n a = true <-> begins normal 110 a).
  { intros a. unfold starts, begins, letter_n. destruct (normal a) as [|x l].
    - split; [discriminate|]. intros (y & Y). discriminate Y.
    - rewrite N.eqb_eq. split; [intros ->; eauto|]. intros (y & Y). now injection Y. }
  assert (G : forall k answers, (length answers < k)%nat -> forall mb m rest,
    choose_mb normal parse_int mb answers = Ok (m, rest) <->
    chosen parse_int (begins normal 110) (mb :: answers) m rest).
  { clear answers. induction k as [|k IH]; intros answers L mb m rest; [lia|].
    destruct answers as [|a answers].
    - split.
      + cbn. destruct (parse_int mb); discriminate.
      + intros Ch. inversion Ch as [| |? ? ? ? ? Ch']; subst. inversion Ch'.
    - cbn in L. cbn [choose_mb]. destruct (parse_int mb) as [z|] eqn:P.
      + destruct (starts normal letter_n a) eqn:S.
        * apply B in S. destruct answers as [|mb' answers].
          -- split; [discriminate|]. intros Ch. inversion Ch; subst; try congruence; try tauto.
             match goal with H : chosen _ _ [] _ _ |- _ => inversion H end.
          -- cbn in L. rewrite IH by lia. split.
             ++ intros Ch. eapply taken_back; eassumption.
             ++ intros Ch. inversion Ch; subst; try congruence; try tauto.
        * assert (~ begins normal 110 a) as S' by (rewrite <- B; congruence). split.
          -- intros E. injection E as <- <-. now apply agreed.
          -- intros Ch. inversion Ch; subst; try congruence; try tauto.
      + rewrite IH by lia. split.
        * intros Ch. now apply not_a_number.
        * intros Ch. inversion Ch; subst; try congruence; try tauto. }
  intros mb m rest. apply (G (S (length answers))). lia.
Qed.

Lemma typed_fold : forall encode lines b,
  @fold_right (result bytes) text (fun line rest => x <- encode line ;; y <- rest ;; Ok (x ++ y)) (Ok []) lines = Ok b <->
  typed encode lines b.
Proof.
  intros encode lines. induction lines as [|line lines IH]; intros b; cbn [fold_right].
  - split.
    + intros E. injection E as <-. exists []. split; [constructor|reflexivity].
    + intros (parts & F & ->). inversion F. reflexivity.
  - split.
    + intros E. apply bind_ok in E as (x & Ex & E). apply bind_ok in E as (y & Ey & E). injection E as <-.
      apply IH in Ey as (parts & F & ->). exists (x :: parts). split; [now constructor|reflexivity].
    + intros (parts & F & ->). inversion F as [|? x ? parts' Ex F']; subst. rewrite Ex. cbn [bind].
      assert (typed encode lines (concat parts')) as T by (exists parts'; now split).
      apply IH in T. rewrite T. reflexivity.
Qed.

Lemma run_sha3_len : forall shake sha p data aad out, like_sha3_256 sha ->
  run_kdf shake sha p data None aad = Ok out -> blen out = 32.
Proof.
  intros shake sha p data aad out (X & D & B & L) E. apply bind_ok in E as (y & _ & E).
  unfold run_size, call_digest in E. rewrite D, X in E. cbn in E. injection E as <-. apply L.
Qed.

Lemma run_sha3_total : forall shake sha p data aad, like_sha3_256 sha -> xof shake ->
  Forall (fun i => blen i < 2 ^ 64) (aad :: data) -> blen data < 2 ^ 60 ->
  exists out, run_kdf shake sha p data None aad = Ok out.
Proof.
  intros shake sha p data aad (X & D & B & L) (XS & DS & LS) F N.
  unfold run_kdf, hash_bytes, hash_bytes_absorbed, zero_pad, run_size, run_key. rewrite D, B. cbn [N.eqb].
  destruct (encode_key_total (h_digest shake p 136) 136 x00) as (pre & ->).
  { intros E. apply (f_equal blen) in E. rewrite LS in E. discriminate E. }
  { lia. }
  { rewrite LS. reflexivity. }
  cbn [bind size_or]. rewrite to_bytes_be_fit by reflexivity. cbn [bind].
  match goal with |- context [canonical_pack ?l ?b ?q ?w] => assert (exists pk, canonical_pack l b q w = Ok pk) as (pk & ->); [apply canonical_pack_total|] end.
  { unfold CanonSpec.fits. change (256 ^ INT_BYTES) with (2 ^ 64). split; [unfold INT_BYTES; lia|]. split; [lia|].
    split; [rewrite !blen_cons; unfold blen, bytes in *; lia|].
    constructor; [rewrite blen_be_enc; vm_compute; reflexivity|exact F]. }
  cbn [bind truthy_size]. unfold call_digest. rewrite X. eauto.
Qed.

Lemma pack_two_len : forall a b pad x, canonical_pack [a; b] 1 pad INT_BYTES = Ok x ->
  blen x = 50 + blen a + blen b.
Proof.
  intros a b pad x E. apply canonical_pack_layout in E as (p & k & blob & _ & _ & L & LB & _ & K & _).
  destruct L as (s & count & body & _ & LC & _ & F & ->).
  assert (k = 0%nat) as -> by lia. cbn [repeat]. rewrite app_nil_r.
  inversion F as [|len1 ? ? rest1 L1 _ F1]; subst.
  inversion F1 as [|len2 ? ? rest2 L2 _ F2]; subst.
  inversion F2 as [|len3 ? ? rest3 L3 _ F3]; subst.
  inversion F3 as [|len4 ? ? rest4 L4 _ F4]; subst.
  inversion F4; subst. unfold INT_BYTES in *.
  rewrite blen_cons, !blen_app, LC, LB, L1, L2, L3, L4, blen_cons, (@blen_nil byte). lia.
Qed.

Lemma last_items_more {A} : forall n (a b : list A),
  last_items n (last_items n a ++ b) = last_items n (a ++ b).
Proof.
  intros n a b. induction b as [|x b IH] using rev_ind.
  - rewrite !app_nil_r. unfold last_items. rewrite skipn_length.
    replace (length a - (length a - n) - n)%nat with 0%nat by lia. reflexivity.
  - rewrite !app_assoc, <- last_items_again, IH. apply last_items_again.
Qed.

Lemma same_eq : forall a b, same a b = true -> a = b.
Proof.
  intros [[e p] m] [[e' p'] m']. unfold same. rewrite !andb_true_iff, !bytes_eqb_eq, Z.eqb_eq.
  now intros [[-> ->] ->].
Qed.

Lemma same_refl : forall a, same a a = true.
Proof. intros [[e p] m]. unfold same. now rewrite !bytes_eqb_refl, Z.eqb_refl. Qed.
