From Coq Require Import Lia ZArith ZifyBool ZifyN ZifyNat Strings.String.
From Verif Require Import Base BaseFacts CanonModel CanonSpec CanonProofs KdfModel CipherModel CipherSpec ShippedProofs DomainsModel DomainsProofs NameModel NameProofs
  PasscryptModel PasscryptSpec PasscryptProofs StoreModel ProfileModel ProfileSpec.
From Verif Require SaltModel.
Import ListNotations.
Local Open Scope list_scope.
Local Open Scope N_scope.

(** ** One salt file *)
Section One.
Variable privileged : bool.
Variable created : N.

Definition opened (need : nat) (token : bytes) (d : SaltModel.fs) : list SaltModel.event * SaltModel.world :=
  SaltModel.run privileged created need (fun _ => 0%nat) (repeat 0%nat 30) (SaltModel.launch (fun _ => SaltModel.open_salt need token) d).

Ltac explode x L :=
  let L' := fresh in
  assert (length x = 32%nat) as L' by (unfold blen in L; lia); clear L;
  do 32 (destruct x as [|? x]; [discriminate L'|]); destruct x; [clear L'|discriminate L'].

Lemma opened_there need token dirs x : (need = 1%nat \/ need = 2%nat) -> (need <= dirs <= 2)%nat -> blen x = 32 ->
  exists es, fst (opened need token {| SaltModel.dirs := dirs; SaltModel.file := Some (x, 0) |}) = es ++ [SaltModel.Done 0 SaltModel.Read (Ok (Some x))] /\
    SaltModel.disk (snd (opened need token {| SaltModel.dirs := dirs; SaltModel.file := Some (x, 0) |})) = {| SaltModel.dirs := dirs; SaltModel.file := Some (x, 0) |}.
Proof.
  intros Nd D L. explode x L. unfold opened. destruct privileged;
    (destruct Nd as [-> | ->]; (destruct dirs as [|[|[|]]]; try (exfalso; lia))).
  all: match goal with |- exists es, fst ?r = _ /\ _ => exists (removelast (fst r)) end.
  all: split; vm_compute; reflexivity.
Qed.
Lemma opened_missing need token dirs : (need = 1%nat \/ need = 2%nat) -> (dirs <= 2)%nat -> blen token = 32 ->
  exists es, fst (opened need token {| SaltModel.dirs := dirs; SaltModel.file := None |}) = es ++ [SaltModel.Done 0 SaltModel.Read (Ok (Some token))] /\
    SaltModel.disk (snd (opened need token {| SaltModel.dirs := dirs; SaltModel.file := None |})) = {| SaltModel.dirs := Nat.max need dirs; SaltModel.file := Some (token, 0) |}.
Proof.
  intros Nd D L. explode token L. unfold opened. destruct privileged;
    (destruct Nd as [-> | ->]; (destruct dirs as [|[|[|]]]; try (exfalso; lia))).
  all: match goal with |- exists es, fst ?r = _ /\ _ => exists (removelast (fst r)) end.
  all: split; vm_compute; reflexivity.
Qed.
End One.

Section Profiles.
Variables H sha3_512 : hasher.
Variable sha3_256 : bytes -> bytes.
Variable PD : profile_domains.
Variables metadata domain kdf_salt pepper : bytes.
Variable privileged : bool.
Variable created : N.
Hypothesis SU : profile_setup H sha3_512 sha3_256 PD metadata domain pepper.
Notation cf := (passcrypt_spec metadata).
Notation read_or_make := (read_or_make sha3_256 privileged created).
Notation generate := (generate H sha3_512 sha3_256 PD cf domain kdf_salt pepper privileged created).
Notation login_key := (login_key H sha3_512 PD cf domain kdf_salt pepper).
Notation make_gist := (make_gist sha3_512 PD).
Notation delete_tokens := (delete_tokens privileged created).
Notation do_act := (do_act H sha3_512 sha3_256 PD cf domain kdf_salt pepper privileged created).
Notation do_acts := (do_acts H sha3_512 sha3_256 PD cf domain kdf_salt pepper privileged created).

Lemma salt_in_entry F admin n : salt_in F admin n = option_map fst (SaltModel.file (entry admin n F)).
Proof. reflexivity. Qed.

Lemma salt_in_put (admin : bool) n e F (a : bool) m : salt_in (put_entry admin n e F) a m =
  if (Bool.eqb a admin && bytes_eqb m n)%bool then option_map fst (SaltModel.file e) else salt_in F a m.
Proof.
  unfold salt_in, put_entry, set_entry. destruct admin, a; cbn; try reflexivity; now destruct (bytes_eqb m n).
Qed.

Lemma put_proper (admin : bool) n F x d : proper F -> blen x = 32 -> (s_dirs F <= d <= 2)%nat -> ((if admin then 2 else 1) <= d)%nat ->
  proper (put_entry admin n {| SaltModel.dirs := d; SaltModel.file := Some (x, 0) |} F).
Proof.
  intros [P1 P2 P3] L D N0. split.
  - cbn. lia.
  - intros m y E. cbn in E |- *. destruct admin; [unfold set_entry in E; destruct (bytes_eqb m n)|].
    + injection E as <-. split; [lia|]. split; [exact L|reflexivity].
    + apply P2 in E as [E1 E2]. split; [lia|exact E2].
    + apply P2 in E as [E1 E2]. split; [lia|exact E2].
  - intros m y E. cbn in E |- *. destruct admin; [|unfold set_entry in E; destruct (bytes_eqb m n)].
    + apply P3 in E as [E1 E2]. split; [lia|exact E2].
    + injection E as <-. split; [lia|]. split; [exact L|reflexivity].
    + apply P3 in E as [E1 E2]. split; [lia|exact E2].
Qed.

Lemma salt_length F admin n x : proper F -> salt_in F admin n = Some x -> blen x = 32.
Proof.
  intros [P1 P2 P3] E. unfold salt_in in E. destruct admin.
  - destruct (s_admin F n) as [y|] eqn:Q; [|discriminate]. injection E as <-. apply P2 in Q as (_ & Q & _). exact Q.
  - destruct (s_secure F n) as [y|] eqn:Q; [|discriminate]. injection E as <-. apply P3 in Q as (_ & Q & _). exact Q.
Qed.

(** Opening a salt file. *)
Lemma read_or_make_spec admin key token F : proper F -> blen token = 32 -> 16 <= blen key ->
  exists n x F', deniable_filename sha3_256 key 8 = Ok n /\ read_or_make admin key token F = (Ok (n, x), F') /\ proper F' /\
    x = match salt_in F admin n with Some y => y | None => token end /\
    forall a m, salt_in F' a m = if (Bool.eqb a admin && bytes_eqb m n)%bool then Some x else salt_in F a m.
Proof.
  intros P L K. destruct (name_ok sha3_256 key 8) as (m0 & n & _ & _ & E & _); [lia|lia|].
  unfold ProfileModel.read_or_make. rewrite E. pose proof P as [P1 P2 P3].
  set (need := (if admin then 2 else 1)%nat). assert (need = 1%nat \/ need = 2%nat) as Nd by (subst need; destruct admin; auto).
  destruct (entry admin n F) as [d f] eqn:EN. assert (d = s_dirs F) as -> by (unfold entry in EN; congruence).
  assert (f = (if admin then s_admin F else s_secure F) n) as Hf by (unfold entry in EN; congruence).
  destruct f as [[y mode]|].
  - assert ((need <= s_dirs F)%nat /\ closed_salt (y, mode)) as (D & Y & M).
    { subst need. destruct admin; [apply eq_sym, P2 in Hf as [-> Hf]; auto|apply eq_sym, P3 in Hf as [D Hf]; auto]. }
    cbn in Y, M. subst mode. destruct (opened_there privileged created need token (s_dirs F) y Nd ltac:(lia) Y) as (es & O1 & O2).
    unfold opened in O1, O2. destruct (SaltModel.run _ _ _ _ _ _) as [ev w]. cbn [fst snd] in O1, O2. subst ev. rewrite rev_unit, O2.
    exists n, y, (put_entry admin n {| SaltModel.dirs := s_dirs F; SaltModel.file := Some (y, 0) |} F). split; [exact eq_refl|]. split; [reflexivity|].
    split; [apply put_proper; auto; subst need; lia|]. split; [rewrite salt_in_entry, EN; reflexivity|].
    intros a m. rewrite salt_in_put. reflexivity.
  - destruct (opened_missing privileged created need token (s_dirs F) Nd P1 L) as (es & O1 & O2).
    unfold opened in O1, O2. destruct (SaltModel.run _ _ _ _ _ _) as [ev w]. cbn [fst snd] in O1, O2. subst ev. rewrite rev_unit, O2.
    exists n, token, (put_entry admin n {| SaltModel.dirs := Nat.max need (s_dirs F); SaltModel.file := Some (token, 0) |} F). split; [exact eq_refl|]. split; [reflexivity|].
    split; [apply put_proper; auto; subst need; lia|]. split; [rewrite salt_in_entry, EN; reflexivity|].
    intros a m. rewrite salt_in_put. reflexivity.
Qed.

(** ** The constants and the hashes *)
Lemma domains_16 : blen (DEVICE_SALT PD) = 16 /\ blen (GIST PD) = 16 /\ blen (TMP_PREKEY PD) = 16 /\ blen (PROFILE_LOGIN_KEY PD) = 16.
Proof.
  pose proof (ps_domains _ _ _ _ _ _ _ SU) as E. unfold profile_domains_of in E.
  apply bind_ok in E as (a & A & E). apply bind_ok in E as (b & B & E). apply bind_ok in E as (c & C & E). apply bind_ok in E as (d & D & E). apply Ok_inj in E.
  rewrite <- E. cbn.
  assert (forall s v, encode H (db_constant s) = Ok v -> blen v = 16) as Q.
  { intros s v V. apply (encode_ok H 168) in V as (x & _ & _ & ->); [reflexivity|exact (ps_xof _ _ _ _ _ _ _ SU)|discriminate]. }
  repeat split; eapply Q; eassumption.
Qed.
Lemma xof_H : xof H.
Proof. destruct (ps_xof _ _ _ _ _ _ _ SU) as [X1 X2 X3]. split; [exact X1|]. intros. apply X3. Qed.
Lemma block_H : h_block_size H = 168.
Proof. exact (xof_rate _ _ (ps_xof _ _ _ _ _ _ _ SU)). Qed.

(** hash_bytes with sha3_512. *)
Lemma hash_512_ok c k y : hash_bytes sha3_512 c [x00] None (Some k) = Ok y ->
  exists x, hash_bytes_absorbed sha3_512 c [x00] None (Some k) = Ok x /\ y = h_digest sha3_512 x 64 /\ blen y = 64.
Proof.
  intros E. unfold hash_bytes in E. apply bind_ok in E as (x & X & E). exists x. split; [exact X|].
  destruct (ps_512 _ _ _ _ _ _ _ SU) as (S1 & S2 & S3 & S4). unfold call_digest, truthy_size in E. rewrite S1, S3 in E. apply Ok_inj in E. subst y. split; [reflexivity|apply S4].
Qed.
Lemma hash_512_total c k : k <> [] -> blen k < 2 ^ 60 -> Forall (fun i => blen i < 2 ^ 60) c -> blen c < 2 ^ 60 ->
  exists y, hash_bytes sha3_512 c [x00] None (Some k) = Ok y /\ blen y = 64.
Proof.
  intros K1 K2 FC LC. destruct (ps_512 _ _ _ _ _ _ _ SU) as (S1 & S2 & S3 & S4). unfold hash_bytes, hash_bytes_absorbed. rewrite S2, S3.
  destruct (encode_key_total k 72 x00 K1 ltac:(lia) ltac:(lia)) as (pre & ->). cbn [bind size_or truthy_size].
  rewrite to_bytes_be_fit by (change (256 ^ INT_BYTES) with (2 ^ 64); lia). cbn [bind].
  destruct (canonical_pack_total (be_enc (N.to_nat INT_BYTES) 64 :: c) 72 x00 INT_BYTES) as (pk & ->).
  { unfold CanonSpec.fits. change (256 ^ INT_BYTES) with (2 ^ 64). split; [unfold INT_BYTES; lia|]. split; [lia|]. split.
    - rewrite blen_cons. change (@blen (list byte) c) with (@blen bytes c) in *. lia.
    - constructor; [rewrite blen_be_enc; vm_compute; reflexivity|]. eapply Forall_impl; [|exact FC]. cbn. intros. lia. }
  cbn [bind]. unfold call_digest. rewrite S1, S3. eexists. split; [reflexivity|]. apply S4.
Qed.
Lemma gist_total device i : blen device = 32 -> representable i -> exists g, make_gist device i = Ok g /\ blen g = 64.
Proof.
  intros D [R1 R2]. unfold ProfileModel.make_gist. apply hash_512_total.
  - intros ->. discriminate D.
  - lia.
  - inversion R1 as [|? ? _ R]; subst. constructor; [rewrite (proj1 (proj2 domains_16)); lia|]. constructor; [lia|exact R].
  - rewrite !blen_cons. change (@blen (list byte) (i_credentials i)) with (@blen bytes (i_credentials i)). lia.
Qed.

(** Whether the settings pass. *)
Lemma spec_sound' : sound_config cf.
Proof. split; cbn; lia. Qed.
Lemma settings_ok i : validate_settings cf (i_mb i) (i_cpu i) (i_cores i) 64 DEFAULT_SCHEMA_SALT_SIZE = Ok tt <-> settings_in_limits i.
Proof.
  rewrite validate_ok. unfold in_limits, settings_in_limits, DEFAULT_SCHEMA_SALT_SIZE. cbn [passcrypt_spec MIN_MB MAX_MB MIN_CPU MAX_CPU MIN_CORES MAX_CORES MIN_TAG_SIZE MIN_SALT_SIZE MAX_SALT_SIZE]. lia.
Qed.

Lemma login_total salt gist i : blen salt = 32 -> blen gist = 64 -> representable i -> settings_in_limits i -> i_passphrase i <> [] ->
  exists key, login_key salt gist i = Ok key /\ blen key = 64.
Proof.
  intros LS LG [R1 R2] ST NE. unfold ProfileModel.login_key. rewrite (proj2 (settings_ok i) ST). cbn [bind].
  destruct domains_16 as (D1 & D2 & D3 & D4).
  assert (exists pk, make_prekey sha3_512 PD salt gist (i_passphrase i) = Ok pk /\ blen pk = 64) as (pk & -> & PL).
  { apply hash_512_total; [exact NE|now inversion R1|repeat constructor; lia|vm_compute; reflexivity]. }
  cbn [bind]. destruct (ps_small _ _ _ _ _ _ _ SU) as (M1 & M2 & M3). destruct ST as (ST1 & ST2 & ST3).
  destruct (new_total cf spec_sound' domain kdf_salt H xof_H ltac:(rewrite block_H; lia) pepper pk eq_refl M2 M1 M3 ltac:(lia) ltac:(unfold zlen; cbn; lia)
    salt (PROFILE_LOGIN_KEY PD) (i_mb i) (i_cpu i) (i_cores i) 64) as (t & ss & -> & TZ & _).
  - lia.
  - unfold in_limits, zlen. cbn [passcrypt_spec MIN_MB MAX_MB MIN_CPU MAX_CPU MIN_CORES MAX_CORES MIN_TAG_SIZE MIN_SALT_SIZE MAX_SALT_SIZE]. lia.
  - rewrite core_mb_exact by lia. cbn [passcrypt_spec MIN_MB]. apply Z.div_le_lower_bound; lia.
  - intros ->. discriminate PL.
  - lia.
  - exists t. split; [reflexivity|]. unfold zlen in TZ. lia.
Qed.

(** ** Generating *)
Definition with_salt (F F' : salts) (admin : bool) (n x : bytes) : Prop :=
  forall a m, salt_in F' a m = if (Bool.eqb a admin && bytes_eqb m n)%bool then Some x else salt_in F a m.
Definition salt_or (F : salts) (admin : bool) (n token : bytes) : bytes := match salt_in F admin n with Some y => y | None => token end.

Lemma generate_cases i t1 t2 F : proper F -> blen t1 = 32 -> blen t2 = 32 ->
  exists dn F1, deniable_filename sha3_256 (DEVICE_SALT PD) 8 = Ok dn /\ proper F1 /\ with_salt F F1 true dn (salt_or F true dn t1) /\
  ((exists e, make_gist (salt_or F true dn t1) i = Err e /\ generate i t1 t2 F = (Err e, F1)) \/
   exists g path F2, make_gist (salt_or F true dn t1) i = Ok g /\ blen g = 64 /\ deniable_filename sha3_256 g 8 = Ok path /\ proper F2 /\
     with_salt F1 F2 false path (salt_or F false path t2) /\
     generate i t1 t2 F = (key <- login_key (salt_or F false path t2) g i ;;
       Ok {| t_gist := Some g; t_salt := Some (salt_or F false path t2); t_salt_path := Some path; t_login_key := Some key |}, F2)).
Proof.
  intros P L1 L2. unfold ProfileModel.generate.
  destruct (read_or_make_spec true (DEVICE_SALT PD) t1 F P L1) as (dn & x & F1 & E1 & -> & P1 & -> & W1); [rewrite (proj1 domains_16); lia|].
  fold (salt_or F true dn t1) in *. exists dn, F1. split; [exact E1|]. split; [exact P1|]. split; [exact W1|].
  destruct (make_gist (salt_or F true dn t1) i) as [g|e] eqn:G; [right|left; eauto].
  destruct (hash_512_ok _ _ _ G) as (_ & _ & _ & GL).
  destruct (read_or_make_spec false g t2 F1 P1 L2) as (path & x & F2 & E2 & -> & P2 & -> & W2); [lia|].
  exists g, path, F2. assert (match salt_in F1 false path with Some y => y | None => t2 end = salt_or F false path t2) as Q.
  { unfold salt_or. rewrite W1. reflexivity. }
  rewrite Q in *. auto 10.
Qed.

Lemma with_keeps F F' admin n token : with_salt F F' admin n (salt_or F admin n token) -> keeps F F'.
Proof.
  intros W a m x E. rewrite W. destruct (Bool.eqb a admin) eqn:A; cbn [andb]; [|exact E]. apply eqb_prop in A. subst a.
  destruct (bytes_eqb m n) eqn:B; [|exact E]. apply bytes_eqb_eq in B. subst m. unfold salt_or. now rewrite E.
Qed.
Lemma keeps_trans F F' F'' : keeps F F' -> keeps F' F'' -> keeps F F''.
Proof. unfold keeps. auto. Qed.

Lemma generate_keeps i t1 t2 F : proper F -> blen t1 = 32 -> blen t2 = 32 ->
  proper (snd (generate i t1 t2 F)) /\ keeps F (snd (generate i t1 t2 F)).
Proof.
  intros P L1 L2. destruct (generate_cases i t1 t2 F P L1 L2) as (dn & F1 & E1 & P1 & W1 & [(e & _ & ->)|(g & path & F2 & G & GL & E2 & P2 & W2 & ->)]); cbn [snd].
  - split; [exact P1|]. eapply with_keeps; exact W1.
  - split; [exact P2|]. apply (keeps_trans F F1 F2); [eapply with_keeps; exact W1|].
    apply (with_keeps F1 F2 false path t2). intros a m. rewrite W2. assert (salt_or F false path t2 = salt_or F1 false path t2) as ->; [|reflexivity].
    unfold salt_or. rewrite W1. reflexivity.
Qed.

(** What the tokens were made of. *)
Record made_of (F : salts) (i : inputs) (t : tokens) (dn device g path salt key : bytes) : Prop := {
  mo_device : deniable_filename sha3_256 (DEVICE_SALT PD) 8 = Ok dn /\ salt_in F true dn = Some device;
  mo_gist : make_gist device i = Ok g /\ blen g = 64;
  mo_path : deniable_filename sha3_256 g 8 = Ok path /\ salt_in F false path = Some salt;
  mo_key : login_key salt g i = Ok key;
  mo_tokens : t = {| t_gist := Some g; t_salt := Some salt; t_salt_path := Some path; t_login_key := Some key |};
}.
Lemma generate_made i t1 t2 F t F' : proper F -> blen t1 = 32 -> blen t2 = 32 -> generate i t1 t2 F = (Ok t, F') ->
  exists dn device g path salt key, made_of F' i t dn device g path salt key.
Proof.
  intros P L1 L2 E. destruct (generate_cases i t1 t2 F P L1 L2) as (dn & F1 & E1 & P1 & W1 & [(e & _ & Q)|(g & path & F2 & G & GL & E2 & P2 & W2 & Q)]); rewrite E in Q.
  - discriminate Q.
  - apply pair_equal_spec in Q as [Q ->]. apply eq_sym, bind_ok in Q as (key & K & Q). apply Ok_inj in Q. subst t.
    exists dn, (salt_or F true dn t1), g, path, (salt_or F false path t2), key. split; auto.
    + split; [exact E1|]. rewrite W2, W1. cbn. now rewrite bytes_eqb_refl.
    + split; [exact E2|]. rewrite W2. cbn. now rewrite bytes_eqb_refl.
Qed.
Lemma made_generate F i t dn device g path salt key t1 t2 : proper F -> blen t1 = 32 -> blen t2 = 32 -> made_of F i t dn device g path salt key ->
  fst (generate i t1 t2 F) = Ok t.
Proof.
  intros P L1 L2 [[M1 M2] [M3 M4] [M5 M6] M7 M8].
  destruct (generate_cases i t1 t2 F P L1 L2) as (dn' & F1 & E1 & P1 & W1 & C). assert (dn' = dn) as -> by congruence.
  assert (salt_or F true dn t1 = device) as Q by (unfold salt_or; now rewrite M2). rewrite Q in *.
  destruct C as [(e & X & _)|(g' & path' & F2 & G & GL & E2 & P2 & W2 & ->)]; [congruence|].
  assert (g' = g) as -> by congruence. assert (path' = path) as -> by congruence.
  assert (salt_or F false path t2 = salt) as -> by (unfold salt_or; now rewrite M6). cbn [fst]. rewrite M7. cbn [bind]. now rewrite M8.
Qed.
Lemma made_kept F F' i t dn device g path salt key : made_of F i t dn device g path salt key ->
  salt_in F' true dn = Some device -> salt_in F' false path = Some salt -> made_of F' i t dn device g path salt key.
Proof. intros [[M1 M2] [M3 M4] [M5 M6] M7 M8] A B. split; auto. Qed.

(** ** Deleting *)
Lemma delete_spec t F : proper F -> exists F', delete_tokens t F = (Ok None, F') /\ proper F' /\
  forall a m, salt_in F' a m = if (negb a && match t_salt_path t with Some n => bytes_eqb m n | None => false end)%bool then None else salt_in F a m.
Proof.
  intros P. unfold ProfileModel.delete_tokens. destruct (t_salt_path t) as [n|].
  - destruct (s_secure F n) as [[x mode]|] eqn:E.
    + destruct P as [P1 P2 P3]. pose proof (P3 _ _ E) as (D & X & M). cbn in X, M. subst mode.
      unfold SaltModel.alone, entry. rewrite E. cbn -[blen put_entry].
      exists (put_entry false n {| SaltModel.dirs := s_dirs F; SaltModel.file := None |} F). split; [reflexivity|]. split.
      * split; cbn.
        -- exact P1.
        -- exact P2.
        -- intros m y Q. unfold set_entry in Q. destruct (bytes_eqb m n); [discriminate|]. exact (P3 _ _ Q).
      * intros a m. rewrite salt_in_put. destruct a; cbn; reflexivity.
    + exists F. split; [reflexivity|]. split; [exact P|]. intros a m. destruct a; cbn; [reflexivity|].
      destruct (bytes_eqb m n) eqn:B; [|reflexivity]. apply bytes_eqb_eq in B. subst m. unfold salt_in. now rewrite E.
  - exists F. split; [reflexivity|]. split; [exact P|]. intros a m. now rewrite andb_false_r.
Qed.

(** ** What happens to others in between *)
Lemma acts_keep path dn device salt l : forall F, proper F -> Forall (leaves path) l -> salt_in F true dn = Some device -> salt_in F false path = Some salt ->
  proper (do_acts l F) /\ salt_in (do_acts l F) true dn = Some device /\ salt_in (do_acts l F) false path = Some salt.
Proof.
  induction l as [|a l IH]; intros F P FL E1 E2; [auto|]. inversion FL as [|? ? A FL']; subst. cbn [ProfileSpec.do_acts fold_left].
  apply IH; [|exact FL'| |].
  all: destruct a as [i t1 t2|t]; cbn [ProfileSpec.do_act]; cbn in A.
  1,3,5: destruct (generate_keeps i t1 t2 F P (proj1 A) (proj2 A)) as [Q1 Q2]; auto.
  all: destruct (delete_spec t F P) as (F' & -> & Q1 & Q2); cbn [snd].
  - exact Q1.
  - rewrite Q2. exact E1.
  - rewrite Q2. cbn. destruct (t_salt_path t) as [n|]; [|exact E2]. destruct (bytes_eqb path n) eqn:B; [|exact E2]. apply bytes_eqb_eq in B. congruence.
Qed.

(** ** What a login key determines *)
Notation gist_input := (gist_input sha3_512 PD).
Notation prekey_input := (prekey_input sha3_512 PD).
Notation login_queries := (login_queries H PD cf domain kdf_salt pepper).

Lemma login_ok salt g i key : login_key salt g i = Ok key ->
  exists x ss, prekey_input salt g (i_passphrase i) x /\ settings_in_limits i /\ blen (h_digest sha3_512 x 64) = 64 /\
    new cf domain kdf_salt H pepper (h_digest sha3_512 x 64) salt (PROFILE_LOGIN_KEY PD) (i_mb i) (i_cpu i) (i_cores i) 64 = (Ok key, ss).
Proof.
  intros E. unfold ProfileModel.login_key in E. apply bind_ok in E as ([] & V & E). apply bind_ok in E as (pk & PK & E).
  apply settings_ok in V. apply hash_512_ok in PK as (x & X & -> & PL).
  destruct (new _ _ _ _ _ _ _ _ _ _ _ _) as [r ss] eqn:NW. cbn [fst] in E. subst r. exists x, ss. auto.
Qed.

Lemma gist_inj d1 i1 d2 i2 x : blen d1 = 32 -> blen d2 = 32 -> gist_input d1 i1 x -> gist_input d2 i2 x ->
  d1 = d2 /\ (i_credentials i1, i_username i1, i_salt i1, i_aad i1) = (i_credentials i2, i_username i2, i_salt i2, i_aad i2).
Proof.
  intros L1 L2 G1 G2. destruct (ps_512 _ _ _ _ _ _ _ SU) as (_ & S2 & _).
  destruct (fun K B => hash_absorbed_inj sha3_512 _ _ _ (Some d1) _ _ _ (Some d2) x K B G1 G2) as (A & _ & B & _).
  - cbn. unfold blen in *. lia.
  - rewrite S2. reflexivity.
  - split; congruence.
Qed.
Lemma prekey_inj s1 g1 p1 s2 g2 p2 x : blen s1 = 32 -> blen s2 = 32 -> blen g1 = 64 -> blen g2 = 64 ->
  prekey_input s1 g1 p1 x -> prekey_input s2 g2 p2 x -> s1 = s2 /\ g1 = g2 /\ p1 = p2.
Proof.
  intros L1 L2 L3 L4 G1 G2. destruct (ps_512 _ _ _ _ _ _ _ SU) as (_ & S2 & _).
  destruct (fun K B => hash_absorbed_inj_items sha3_512 _ _ _ _ _ _ _ _ x K B G1 G2) as (A & _ & B & _).
  - cbn [map]. now rewrite L1, L2, L3, L4.
  - rewrite S2. reflexivity.
  - split; [congruence|]. split; congruence.
Qed.

Lemma keys_bind F1 F2 i1 i2 t1 t2 dn1 d1 g1 p1 s1 dn2 d2 g2 p2 s2 key : proper F1 -> proper F2 ->
  made_of F1 i1 t1 dn1 d1 g1 p1 s1 key -> made_of F2 i2 t2 dn2 d2 g2 p2 s2 key ->
  (i1 = i2 /\ d1 = d2 /\ s1 = s2 /\ t1 = t2) \/
  (exists x y, gist_input d1 i1 x /\ gist_input d2 i2 y /\ sha3_512_collision sha3_512 x y) \/
  (exists x y, prekey_input s1 g1 (i_passphrase i1) x /\ prekey_input s2 g2 (i_passphrase i2) y /\
     (sha3_512_collision sha3_512 x y \/
      PasscryptSpec.collision H (login_queries (h_digest sha3_512 x 64) s1 i1) (login_queries (h_digest sha3_512 y 64) s2 i2))).
Proof.
  intros P1 P2 [[A1 A2] [A3 A4] [A5 A6] A7 A8] [[B1 B2] [B3 B4] [B5 B6] B7 B8].
  pose proof (salt_length _ _ _ _ P1 A2) as DL1. pose proof (salt_length _ _ _ _ P2 B2) as DL2. pose proof (salt_length _ _ _ _ P1 A6) as SL1. pose proof (salt_length _ _ _ _ P2 B6) as SL2.
  apply login_ok in A7 as (x & ss1 & X & ST1 & XL & N1). apply login_ok in B7 as (y & ss2 & Y & ST2 & YL & N2).
  destruct (tag_bound cf spec_sound' domain kdf_salt H xof_H ltac:(rewrite block_H; reflexivity) _ _ _ _ _ _ _ _ _ _ _ _ _ _ _ _ _ _ N1 N2) as [C|[Q1 Q2]].
  - right. split; [congruence|reflexivity].
  - right. right. exists x, y. split; [exact X|]. split; [exact Y|]. right. unfold ProfileSpec.login_queries.
    pose proof (new_sessions cf domain kdf_salt H pepper (h_digest sha3_512 x 64) s1 (PROFILE_LOGIN_KEY PD) (i_mb i1) (i_cpu i1) (i_cores i1) 64) as W1. rewrite N1 in W1. cbn [snd] in W1.
    pose proof (new_sessions cf domain kdf_salt H pepper (h_digest sha3_512 y 64) s2 (PROFILE_LOGIN_KEY PD) (i_mb i2) (i_cpu i2) (i_cores i2) 64) as W2. rewrite N2 in W2. cbn [snd] in W2.
    now rewrite <- W1, <- W2.
  - injection Q1 as QD QS. injection Q2 as Q2 Q3 Q4. subst s2.
    destruct (bytes_eqb x y) eqn:B; [|right; right; exists x, y; split; [exact X|]; split; [exact Y|]; left; split; [now apply bytes_eqb_neq|exact QD]].
    apply bytes_eqb_eq in B. subst y. destruct (prekey_inj _ _ _ _ _ _ _ SL1 SL2 A4 B4 X Y) as (_ & QG & QP). subst g2.
    apply hash_512_ok in A3 as (u & U & UG & _). apply hash_512_ok in B3 as (v & V & VG & _).
    destruct (bytes_eqb u v) eqn:B; [|right; left; exists u, v; split; [exact U|]; split; [exact V|]; split; [now apply bytes_eqb_neq|congruence]].
    apply bytes_eqb_eq in B. subst v. destruct (gist_inj _ _ _ _ _ DL1 DL2 U V) as [QD' QI]. left. split; [destruct i1, i2; cbn in *; congruence|]. split; [exact QD'|]. split; [reflexivity|]. congruence.
Qed.
End Profiles.
