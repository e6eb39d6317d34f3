(** * Two passphrases with one tag: associated data that contains a session *)
From Coq Require Import ZArith.
From Verif Require Import Base BaseFacts CanonModel CanonSpec CanonProofs ClockModel PasscryptModel PasscryptSpec PasscryptProofs.
Local Open Scope N_scope.

Definition frame (x : bytes) : bytes := be_enc 8 (blen x) ++ x.
Definition frames (l : list bytes) : bytes := concat (map frame l).
Definition header (p : byte) (bs count : N) : bytes := [x08] ++ be_enc 8 count ++ frame (be_enc 8 bs) ++ frame [p].

Lemma mapM_frames (l : list bytes) : Forall (fun i : bytes => blen i < 2 ^ 64) l -> mapM (encode_item 8) l = Ok (map frame l).
Proof.
  induction 1 as [|i l Hi _ IH]; [reflexivity|]. cbn [mapM map]. unfold encode_item at 1.
  rewrite to_bytes_be_fit by exact Hi. cbn [bind]. rewrite IH. reflexivity.
Qed.
Lemma pack_form (items : list bytes) bs p : bs < 2 ^ 64 -> Forall (fun i : bytes => blen i < 2 ^ 64) items -> blen items + 2 < 2 ^ 64 ->
  canonical_pack items bs [p] INT_BYTES = fullblock_ljust (header p bs (blen items + 2) ++ frames items) bs [p].
Proof.
  intros B F C. unfold canonical_pack, INT_BYTES. rewrite to_bytes_be_fit by exact B. cbn [bind]. unfold encode_items.
  rewrite to_bytes_be_fit by reflexivity. cbn [bind]. rewrite to_bytes_be_fit by (change (256 ^ 8) with (2 ^ 64); rewrite !blen_cons; lia). cbn [bind].
  assert (mapM (encode_item 8) (be_enc (N.to_nat 8) bs :: [p] :: items) = Ok (map frame (be_enc (N.to_nat 8) bs :: [p] :: items))) as E.
  { apply mapM_frames. constructor; [now rewrite blen_be_enc|]. constructor; [reflexivity|exact F]. }
  change (@cons (list byte)) with (@cons bytes) in *. rewrite E. cbn [bind map concat]. f_equal. unfold header, frames.
  rewrite !blen_cons. replace (1 + (1 + blen items)) with (blen items + 2) by lia. rewrite <- !app_assoc. reflexivity.
Qed.
Lemma pad_exists bs n : bs <> 0 -> exists k, N.of_nat k < bs /\ (n + N.of_nat k) mod bs = 0.
Proof.
  intros B. exists (N.to_nat ((bs - n mod bs) mod bs)). rewrite N2Nat.id. split; [now apply N.mod_lt|].
  rewrite N.add_mod_idemp_r by exact B. pose proof (N.mod_lt n bs B). pose proof (N.div_mod n bs B).
  replace (n + (bs - n mod bs)) with ((n / bs + 1) * bs) by lia. now apply N.mod_mul.
Qed.
Lemma absorbed_form h (c : list bytes) p n (key : bytes) j k : let bs := h_block_size h in
  bs <> 0 -> bs < 2 ^ 64 -> n < 2 ^ 64 -> n <> 0 -> key <> [] -> blen key < 2 ^ 64 -> Forall (fun i : bytes => blen i < 2 ^ 64) c -> blen c + 3 < 2 ^ 64 ->
  N.of_nat j < bs -> (blen key + 17 + N.of_nat j) mod bs = 0 ->
  let body := header p bs (blen c + 3) ++ frames (be_enc 8 n :: c) in
  N.of_nat k < bs -> (blen body + N.of_nat k) mod bs = 0 ->
  hash_bytes_absorbed h c [p] (Some n) (Some key) = Ok (key ++ le_enc 8 (blen key) ++ le_enc 8 bs ++ repeat p (S j) ++ body ++ repeat p k).
Proof.
  intros bs B0 B N1 N0 K0 K1 F C J JM body KK KM. unfold hash_bytes_absorbed. fold bs.
  assert (encode_key key bs [p] = Ok (key ++ le_enc 8 (blen key) ++ le_enc 8 bs ++ repeat p (S j))) as ->.
  { apply encode_key_ok. exists p, j. repeat (split; [assumption || reflexivity|]).
    rewrite !blen_app, !blen_le_enc, blen_repeat. etransitivity; [|exact JM]. f_equal. lia. }
  cbn [bind]. unfold size_or. replace (n =? 0) with false by lia. unfold INT_BYTES at 1. rewrite to_bytes_be_fit by exact N1. cbn [bind].
  rewrite pack_form; [|exact B| |].
  2:{ constructor; [now rewrite blen_be_enc|exact F]. }
  2:{ rewrite blen_cons. lia. }
  rewrite blen_cons. replace (1 + blen c + 2) with (blen c + 3) by lia. change (N.to_nat 8) with 8%nat. fold body.
  assert (fullblock_ljust body bs [p] = Ok (body ++ repeat p k)) as ->.
  { apply fullblock_ljust_ok. exists p, k. repeat (split; [assumption || reflexivity|]). rewrite blen_app, blen_repeat. exact KM. }
  cbn [bind]. rewrite <- !app_assoc. reflexivity.
Qed.

Lemma blen_frame x : blen (frame x) = 8 + blen x.
Proof. unfold frame. rewrite blen_app, blen_be_enc. lia. Qed.
Lemma blen_header q n c : blen (header q n c) = 34.
Proof. unfold header. rewrite !blen_app, !blen_frame, !blen_be_enc. change (blen [x08]) with 1. change (blen [q]) with 1. lia. Qed.

Section Confusion.
Variable h : hasher.
Let bs := h_block_size h.
Hypothesis B : 0 < bs < 2 ^ 56.
Variable p : byte.
Variables pepper salt t cost core : bytes.
(** The items before and after the associated data. *)
Variables before behind : list bytes.

(** The packed associated data of a session. *)
Definition first_part : bytes := header x00 1 6 ++ frame pepper.
Definition last_part : bytes := frame core ++ frame cost.
Definition packed (aad : bytes) : bytes := first_part ++ frame aad ++ last_part.
Definition lead : bytes := header p bs (blen before + blen behind + 3) ++ frames before.

(** What a session with associated data [t] absorbs from its salt to the end of [t];
    its key has [k] bytes and [m] pads. *)
Definition tail_of (k : N) (m : nat) : bytes :=
  salt ++ packed t ++ le_enc 8 k ++ le_enc 8 bs ++ repeat p (S m) ++ lead ++ be_enc 8 (blen (packed t)) ++ first_part ++ be_enc 8 (blen t) ++ t.
(** What a session with the passphrase and associated data [t ++ v] absorbs before
    [v] is absorbed for the second time; its key has [j] pads. *)
Definition head_of (passphrase v : bytes) (j : nat) : bytes :=
  let key := passphrase ++ salt ++ packed (t ++ v) in
  key ++ le_enc 8 (blen key) ++ le_enc 8 bs ++ repeat p (S j) ++ lead ++ be_enc 8 (blen (packed (t ++ v))) ++ first_part ++ be_enc 8 (blen (t ++ v)) ++ t.

Lemma blen_packed a : blen (packed a) = 66 + blen pepper + blen a + blen core + blen cost.
Proof. unfold packed, first_part, last_part. rewrite !blen_app, !blen_frame, blen_header. lia. Qed.

Lemma tail_length k k' m : blen (tail_of k m) = blen (tail_of k' m).
Proof. unfold tail_of. rewrite !blen_app, !blen_le_enc. reflexivity. Qed.
Lemma head_length a v v' j : blen v = blen v' -> blen (head_of a v j) = blen (head_of a v' j).
Proof. intros E. unfold head_of. rewrite !blen_app, !blen_le_enc, !blen_packed, !blen_be_enc, !blen_repeat, !blen_app, E. reflexivity. Qed.

(** The two sessions absorb the same bytes. *)
Theorem confused passphrase n : n < 2 ^ 64 -> n <> 0 ->
  blen passphrase < 2 ^ 58 -> blen salt < 2 ^ 58 -> blen pepper < 2 ^ 58 -> blen t < 2 ^ 58 -> blen core = 8 -> blen cost = 8 -> passphrase <> [] ->
  Forall (fun i : bytes => blen i < 2 ^ 64) before -> blen (frames before) < 2 ^ 58 -> Forall (fun i : bytes => blen i < 2 ^ 64) behind -> blen before + blen behind < 2 ^ 32 ->
  (exists l, before = be_enc 8 n :: l) ->
  exists passphrase' v a, blen passphrase < blen passphrase' < 2 ^ 63 /\ v <> [] /\ blen v < 2 ^ 61 /\
    (forall l, before = be_enc 8 n :: l ->
      hash_bytes_absorbed h (l ++ packed (t ++ v) :: behind) [p] (Some n) (Some (passphrase ++ salt ++ packed (t ++ v))) = Ok a /\
      hash_bytes_absorbed h (l ++ packed t :: behind) [p] (Some n) (Some (passphrase' ++ salt ++ packed t)) = Ok a).
Proof.
  intros N1 N0 PB SB PPB TB CB COB P0 FB FBL FH CL BE.
  assert (bs <> 0) as B0 by lia.
  assert (blen lead = 34 + blen (frames before)) as LL by (unfold lead; rewrite blen_app, blen_header; lia).
  assert (blen first_part = 42 + blen pepper) as LF by (unfold first_part; rewrite blen_app, blen_header, blen_frame; lia).
  (* the number of pads of the second session *)
  destruct (pad_exists bs (blen lead + 8 + blen first_part + 8 + blen t + (blen salt + blen (packed t)) + 17) B0) as (m & M & MM).
  set (lv := blen (tail_of 0 m)).
  assert (lv < 2 ^ 61) as LV.
  { unfold lv, tail_of. rewrite !blen_app, !blen_le_enc, blen_repeat, !blen_packed, !blen_be_enc, LL, LF. lia. }
  (* the number of pads of the first *)
  destruct (pad_exists bs (blen passphrase + blen salt + (66 + blen pepper + (blen t + lv) + blen core + blen cost) + 17) B0) as (j & J & JM).
  set (k2 := blen (head_of passphrase (tail_of 0 m) j) + blen salt + blen (packed t)).
  set (v := tail_of k2 m). set (passphrase' := head_of passphrase v j).
  assert (blen v = lv) as EV by apply tail_length.
  assert (blen passphrase' = blen (head_of passphrase (tail_of 0 m) j)) as EP by (apply head_length; exact EV).
  set (key1 := passphrase ++ salt ++ packed (t ++ v)). set (key2 := passphrase' ++ salt ++ packed t).
  assert (blen key2 = k2) as EK2 by (unfold key2, k2; rewrite !blen_app, EP; lia).
  assert (blen key1 + 17 + N.of_nat j = blen passphrase + blen salt + (66 + blen pepper + (blen t + lv) + blen core + blen cost) + 17 + N.of_nat j) as EK1.
  { unfold key1. rewrite !blen_app, blen_packed, blen_app, EV. lia. }
  rewrite <- EK1 in JM.
  assert (blen passphrase' = blen key1 + 17 + N.of_nat j + (blen lead + 8 + blen first_part + 8 + blen t)) as LP.
  { unfold passphrase', head_of. fold key1. rewrite !blen_app, !blen_le_enc, blen_repeat, !blen_be_enc. lia. }
  assert (blen key1 = blen passphrase + blen salt + (66 + blen pepper + (blen t + lv) + blen core + blen cost)) as LK by lia.
  assert (blen passphrase' < 2 ^ 63) as BP by (rewrite LP, LK, LL, LF; lia).
  assert (blen (packed t) < 2 ^ 60) as BT by (rewrite blen_packed; lia).
  assert (blen key2 < 2 ^ 64) as BK2 by (unfold key2; rewrite !blen_app; lia).
  assert ((blen key2 + 17 + N.of_nat m) mod bs = 0) as KM2.
  { apply N.mod_divide in JM, MM; try exact B0. apply N.mod_divide; [exact B0|].
    destruct JM as (x & JM). destruct MM as (y & MM). exists (x + y).
    unfold key2. rewrite !blen_app, LP. lia. }
  (* the pads at the end *)
  set (body1 := lead ++ frame (packed (t ++ v)) ++ frames behind). set (body2 := lead ++ frame (packed t) ++ frames behind).
  destruct (pad_exists bs (blen body1) B0) as (z & Z & ZM).
  assert ((blen body2 + N.of_nat z) mod bs = 0) as ZM2.
  { assert (blen key1 + 17 + N.of_nat j + (blen body1 + N.of_nat z) = blen key2 + 17 + N.of_nat m + (blen body2 + N.of_nat z)) as E.
    { unfold body1, body2. rewrite !blen_app, !blen_frame, !blen_packed, blen_app. unfold key2. rewrite !blen_app, LP, LL, LF.
      rewrite EV. unfold lv, tail_of. rewrite !blen_app, !blen_le_enc, !blen_packed, blen_repeat, !blen_be_enc, LL, LF. lia. }
    apply N.mod_divide in JM, KM2, ZM; try exact B0. apply N.mod_divide; [exact B0|].
    destruct JM as (x1 & JM). destruct KM2 as (x2 & KM2). destruct ZM as (x3 & ZM).
    exists (x1 + x3 - x2). rewrite N.mul_sub_distr_r, N.mul_add_distr_r. lia. }
  exists passphrase', v, (key1 ++ le_enc 8 (blen key1) ++ le_enc 8 bs ++ repeat p (S j) ++ body1 ++ repeat p z).
  split; [split; [rewrite LP, LK; lia|exact BP]|].
  split. { intros E. rewrite E in EV. change (blen []) with 0 in EV. symmetry in EV. revert EV. unfold lv, tail_of. rewrite !blen_app, !blen_le_enc. lia. }
  split; [rewrite EV; exact LV|].
  intros l EB.
  assert (frames before = frame (be_enc 8 n) ++ frames l) as FBE by (rewrite EB; reflexivity).
  assert (blen before = blen l + 1) as CBE by (rewrite EB, blen_cons; lia).
  assert (forall x, header p bs (blen (l ++ x :: behind) + 3) ++ frames (be_enc 8 n :: l ++ x :: behind) = lead ++ frame x ++ frames behind) as BODY.
  { intros x. unfold lead. rewrite FBE. replace (blen (l ++ x :: behind) + 3) with (blen before + blen behind + 3) by (rewrite blen_app, blen_cons, CBE; lia).
    unfold frames. cbn [map concat]. rewrite map_app, concat_app. cbn [map concat]. rewrite <- !app_assoc. reflexivity. }
  assert (Forall (fun i : bytes => blen i < 2 ^ 64) l) as FL by (rewrite EB in FB; now inversion FB).
  split.
  - refine (eq_trans (absorbed_form h (l ++ packed (t ++ v) :: behind) p n key1 j z _ _ _ _ _ _ _ _ _ _ _ _) _); fold bs; try assumption; try lia.
    + unfold key1. destruct passphrase; [contradiction|discriminate].
    + apply Forall_app. split; [exact FL|]. constructor; [rewrite blen_packed, blen_app, EV; lia|exact FH].
    + rewrite blen_app, blen_cons. lia.
    + rewrite BODY. exact ZM.
    + rewrite BODY. reflexivity.
  - refine (eq_trans (absorbed_form h (l ++ packed t :: behind) p n key2 m z _ _ _ _ _ _ _ _ _ _ _ _) _); fold bs; try assumption; try lia.
    + unfold key2. intros E. apply (f_equal (@blen byte)) in E. rewrite !blen_app, LP in E. change (blen []) with 0 in E. lia.
    + apply Forall_app. split; [exact FL|]. constructor; [lia|exact FH].
    + rewrite blen_app, blen_cons. lia.
    + rewrite BODY. exact ZM2.
    + rewrite BODY. fold body2. f_equal. rewrite EK2. unfold key2, passphrase', head_of. fold key1.
      assert (forall a, frame (packed a) = be_enc 8 (blen (packed a)) ++ first_part ++ be_enc 8 (blen a) ++ a ++ last_part) as FP.
      { intros a. unfold frame at 1. unfold packed at 2. unfold frame at 1. rewrite <- !app_assoc. reflexivity. }
      unfold body1, body2. rewrite !FP. rewrite <- !app_assoc.
      assert (forall x, v ++ x = salt ++ packed t ++ le_enc 8 k2 ++ le_enc 8 bs ++ repeat p (S m) ++ lead ++ be_enc 8 (blen (packed t)) ++ first_part ++ be_enc 8 (blen t) ++ t ++ x) as ->.
      { intros x. unfold v, tail_of. rewrite <- !app_assoc. reflexivity. }
      reflexivity.
Qed.
End Confusion.

Local Open Scope Z_scope.
Lemma passcrypt_same cf domain kdf_salt h s1 s2 : hash_session_parameters cf domain h s1 = hash_session_parameters cf domain h s2 ->
  s_mb s1 = s_mb s2 -> s_cpu s1 = s_cpu s2 -> passcrypt cf domain kdf_salt h s1 = passcrypt cf domain kdf_salt h s2.
Proof.
  intros P M C. unfold passcrypt. rewrite P, C.
  assert (row_size cf s1 = row_size cf s2) as R by (unfold row_size, rounds; now rewrite C).
  assert (total_size cf s1 = total_size cf s2) as TS by (unfold total_size, rows; rewrite R; unfold rounds; now rewrite C, M).
  rewrite R, TS. unfold allocate_ram. rewrite TS. reflexivity.
Qed.

Lemma z_to_bytes_enc n : 0 <= n < 2 ^ 64 -> z_to_bytes INT_BYTES BigEndian n = Ok (be_enc 8 (Z.to_N n)).
Proof.
  intros H. unfold z_to_bytes, INT_BYTES. replace (n <? 0) with false by lia. rewrite to_bytes_be_fit; [reflexivity|]. change (256 ^ 8)%N with (2 ^ 64)%N. lia.
Qed.

Section New.
Variable cf : config.
Hypothesis sc : sound_config cf.
Variables domain kdf_salt : bytes.
Variable h : hasher.
Hypothesis HX : xof h.
Hypothesis HB : (0 < h_block_size h < 2 ^ 56)%N.
Variables pepper passphrase : bytes.
Hypothesis pad1 : length (PASSCRYPT_PAD cf) = 1%nat.
Hypothesis dsmall : (blen domain < 2 ^ 56)%N.
Hypothesis msmall : (blen (PACKED_METADATA cf) < 2 ^ 56)%N.
Hypothesis psmall : (blen pepper < 2 ^ 56)%N.
Hypothesis ppsmall : (blen passphrase < 2 ^ 56)%N.
Hypothesis pplong : Z.max 1 (MIN_PASSPHRASE_BYTES cf) <= zlen passphrase.

Lemma one_session pw salt aad mb cpu tag_size : (blen aad < 2 ^ 62)%N -> in_limits cf mb cpu 1 tag_size (zlen salt) -> MIN_PASSPHRASE_BYTES cf <= zlen pw ->
  let core_aad := packed pepper (be_enc 8 (Z.to_N mb)) (be_enc 8 0) aad in
  new cf domain kdf_salt h pepper pw salt aad mb cpu 1 tag_size =
  (x <- passcrypt cf domain kdf_salt h {| s_passphrase := pw; s_salt := salt; s_aad := core_aad; s_mb := mb; s_cpu := cpu; s_cores := 1; s_tag_size := tag_size |} ;;
   hash_bytes h [fst x] [x00] (Some (Z.to_N tag_size)) (Some (fst x)),
   [{| s_passphrase := pw; s_salt := salt; s_aad := core_aad; s_mb := mb; s_cpu := cpu; s_cores := 1; s_tag_size := tag_size |}]).
Proof.
  intros A L PL core_aad. pose proof (sc_mb _ sc). pose proof L as (L1 & L2 & L3 & L4 & L5).
  assert (core_session cf pw salt aad pepper mb cpu 1 tag_size 0 = Ok {| s_passphrase := pw; s_salt := salt; s_aad := core_aad; s_mb := mb; s_cpu := cpu; s_cores := 1; s_tag_size := tag_size |}) as CS.
  { unfold core_session. rewrite z_to_bytes_enc by lia. change (z_to_bytes 8 BigEndian 0) with (z_to_bytes INT_BYTES BigEndian 0). rewrite z_to_bytes_enc by lia. cbn [bind].
    assert (canonical_pack [pepper; aad; be_enc 8 (Z.to_N 0); be_enc 8 (Z.to_N mb)] 1 [x00] INT_BYTES = Ok core_aad) as CP.
    { rewrite pack_form; [|reflexivity| |reflexivity].
      - apply fullblock_ljust_ok. exists x00, 0%nat. split; [reflexivity|]. split; [discriminate|]. split; [|split; [lia|apply N.mod_1_r]].
        unfold core_aad, packed, first_part, last_part, frames. cbn [map concat repeat]. rewrite !app_nil_r, <- !app_assoc. reflexivity.
      - repeat constructor; rewrite ?blen_be_enc; lia. }
    match type of CP with ?x = _ => match goal with |- context [canonical_pack ?a1 ?a2 ?a3 ?a4] => change (canonical_pack a1 a2 a3 a4) with x end end.
    rewrite CP. cbn [bind]. unfold make_session, validate_inputs. replace (MIN_PASSPHRASE_BYTES cf <=? zlen pw) with true by lia. cbn [negb].
    replace (within (MIN_SALT_SIZE cf) (MAX_SALT_SIZE cf) (zlen salt)) with true by (unfold within; lia). cbn [negb bind].
    rewrite core_mb_exact by lia. replace ((mb + 1 - 1) / 1) with mb by (rewrite Z.div_1_r; lia).
    rewrite (proj2 (validate_ok cf mb cpu 1 tag_size (zlen salt)) L). reflexivity. }
  unfold new, spawn. change (range0 1 1) with [0]. cbn [spawn_all]. rewrite CS. cbn [bind mapM].
  destruct (passcrypt _ _ _ _ _) as [[x st]|]; reflexivity.
Qed.

Lemma new_confused salt t mb cpu tag_size : (blen t < 2 ^ 56)%N -> (blen salt < 2 ^ 56)%N -> in_limits cf mb cpu 1 tag_size (zlen salt) -> tag_size < 2 ^ 63 ->
  exists passphrase' v, (blen passphrase < blen passphrase')%N /\ v <> [] /\
    fst (new cf domain kdf_salt h pepper passphrase salt (t ++ v) mb cpu 1 tag_size) = fst (new cf domain kdf_salt h pepper passphrase' salt t mb cpu 1 tag_size) /\
    exists tg, fst (new cf domain kdf_salt h pepper passphrase salt (t ++ v) mb cpu 1 tag_size) = Ok tg /\ zlen tg = tag_size.
Proof.
  intros TB SB L TS. pose proof (sc_mb _ sc). pose proof (sc_cpu _ sc). pose proof (sc_tag _ sc). pose proof L as (L1 & L2 & L3 & L4 & L5).
  assert (exists p, PASSCRYPT_PAD cf = [p]) as (p & EP) by (clear - pad1; destruct (PASSCRYPT_PAD cf) as [|p [|]]; try discriminate pad1; eauto).
  set (l := [domain; PACKED_METADATA cf; salt]).
  set (behind := [be_enc 8 (Z.to_N mb); be_enc 8 (Z.to_N cpu); be_enc 8 1; be_enc 8 (Z.to_N tag_size)]).
  destruct (confused h HB p pepper salt t (be_enc 8 (Z.to_N mb)) (be_enc 8 0) (be_enc 8 336 :: l) behind passphrase 336) as (pw' & v & a & LP & V0 & LV & HA);
    try reflexivity; try lia; try discriminate.
  - intros E. rewrite E in pplong. change (zlen []) with 0 in pplong. lia.
  - repeat constructor; rewrite ?blen_be_enc; lia.
  - unfold l, frames. cbn [map concat]. rewrite !blen_app, !blen_frame, blen_nil, blen_be_enc. lia.
  - repeat constructor; rewrite ?blen_be_enc; lia.
  - eauto.
  - destruct (HA l eq_refl) as (A1 & A2). exists pw', v. split; [lia|]. split; [exact V0|].
    assert (forall pw aad b, hash_bytes_absorbed h (l ++ packed pepper (be_enc 8 (Z.to_N mb)) (be_enc 8 0) aad :: behind) [p] (Some 336%N)
        (Some (pw ++ salt ++ packed pepper (be_enc 8 (Z.to_N mb)) (be_enc 8 0) aad)) = Ok b ->
      hash_session_parameters cf domain h {| s_passphrase := pw; s_salt := salt; s_aad := packed pepper (be_enc 8 (Z.to_N mb)) (be_enc 8 0) aad;
        s_mb := mb; s_cpu := cpu; s_cores := 1; s_tag_size := tag_size |} = Ok (h_digest h b 336)) as HP.
    { intros pw aad b HH. unfold hash_session_parameters, session_parameters. cbn [s_mb s_cpu s_cores s_tag_size s_salt s_aad s_passphrase].
      rewrite !z_to_bytes_enc by lia. cbn [bind]. rewrite EP. unfold hash_bytes.
      match type of HH with ?x = _ => match goal with |- context [hash_bytes_absorbed ?a1 ?a2 ?a3 ?a4 ?a5] => change (hash_bytes_absorbed a1 a2 a3 a4 a5) with x end end.
      rewrite HH. cbn [bind]. unfold truthy_size, call_digest. rewrite (proj1 HX). reflexivity. }
    apply HP in A1, A2.
    rewrite (one_session passphrase) by (try exact L; try lia; rewrite ?blen_app; lia).
    rewrite (one_session pw') by (try exact L; try lia; unfold zlen in *; lia).
    cbn [fst].
    match type of A1 with hash_session_parameters _ _ _ ?s = _ => match type of A2 with hash_session_parameters _ _ _ ?s' = _ =>
      set (s1 := s) in *; set (s2 := s') in * end end.
    rewrite (passcrypt_same cf domain kdf_salt h s1 s2) by (reflexivity || (rewrite A1, A2; reflexivity)).
    split; [reflexivity|].
    assert (valid_session cf s2) as VS by exact L.
    destruct (passcrypt_runs cf sc domain kdf_salt h HX s2 _ VS A2) as (d & st & al & -> & D & _). cbn [bind fst].
    pose proof (hash_bytes_total h [d] x00 (Z.to_N tag_size) d HX HB) as HT.
    match type of HT with _ -> _ -> _ -> _ -> _ -> ?C => assert C as (tg & E & TL); [apply HT|] end.
    + lia.
    + intros ->. discriminate D.
    + unfold zlen in D. lia.
    + repeat constructor. unfold zlen in D. lia.
    + reflexivity.
    + exists tg. split; [exact E|]. unfold zlen. lia.
Qed.
End New.
