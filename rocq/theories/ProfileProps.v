(** * Profiles: the property C82 *)
From Coq Require Import Lia ZArith ZifyBool ZifyN ZifyNat Permutation Strings.String.
From Verif Require Import Base BaseFacts PermModel CanonModel KdfModel KdfSpec CipherModel CipherSpec ShippedProofs CipherProps DomainsModel NameModel NameProps PasscryptModel PasscryptSpec PasscryptProofs
  JsonModel LoadsModel DbModel DbSpec DbProofs DbProps StoreModel StoreSpec StoreProofs StoreProps ProfileModel ProfileSpec ProfileProofs.
From Verif Require SaltModel.
Import ListNotations.
Local Open Scope list_scope.
Local Open Scope N_scope.

Section Profiles.
Variables H sha3_512 : hasher.
Variable sha3_256 : bytes -> bytes.
Variable PD : profile_domains.
Variables metadata domain kdf_salt pepper : bytes.
Variable privileged : bool.
Variable created : N.
Notation cf := (passcrypt_spec metadata).
Notation generate := (generate H sha3_512 sha3_256 PD cf domain kdf_salt pepper privileged created).
Notation delete_tokens := (delete_tokens privileged created).
Notation do_acts := (do_acts H sha3_512 sha3_256 PD cf domain kdf_salt pepper privileged created).
Notation setup := (profile_setup H sha3_512 sha3_256 PD metadata domain pepper).

(** C82: with settings in the documented limits and any passphrase that is not empty,
    tokens are generated: a login key of 64 bytes.  The salts there were are kept, and
    only files that were missing are added: the device's and the profile's. *)
Theorem C82_generated : forall i token1 token2 F,
  setup -> proper F -> blen token1 = 32 -> blen token2 = 32 -> representable i -> settings_in_limits i -> i_passphrase i <> [] ->
  exists g path salt key F', generate i token1 token2 F =
      (Ok {| t_gist := Some g; t_salt := Some salt; t_salt_path := Some path; t_login_key := Some key |}, F') /\
    blen key = 64 /\ salt_in F' false path = Some salt /\ proper F' /\ keeps F F' /\
    exists device_path, forall admin n, salt_in F' admin n <> salt_in F admin n ->
      (admin = true /\ n = device_path /\ salt_in F true n = None /\ salt_in F' true n = Some token1) \/
      (admin = false /\ n = path /\ salt_in F false n = None /\ salt = token2).
Proof.
  intros i token1 token2 F SU P L1 L2 R ST NE.
  destruct (generate_keeps H sha3_512 sha3_256 PD metadata domain kdf_salt pepper privileged created SU i token1 token2 F P L1 L2) as [KP KK].
  destruct (generate_cases H sha3_512 sha3_256 PD metadata domain kdf_salt pepper privileged created SU i token1 token2 F P L1 L2) as (dn & F1 & E1 & P1 & W1 & C).
  assert (blen (salt_or F true dn token1) = 32) as DL.
  { unfold salt_or. destruct (salt_in F true dn) eqn:Q; [exact (salt_length _ _ _ _ P Q)|exact L1]. }
  destruct (gist_total H sha3_512 sha3_256 PD metadata domain pepper created SU _ i DL R) as (g' & G' & _).
  destruct C as [(e & X & _)|(g & path & F2 & G & GL & E2 & P2 & W2 & E)]; [congruence|]. rewrite E in *. cbn [fst snd] in *.
  assert (blen (salt_or F false path token2) = 32) as SL.
  { unfold salt_or. destruct (salt_in F false path) eqn:Q; [exact (salt_length _ _ _ _ P Q)|exact L2]. }
  destruct (login_total H sha3_512 sha3_256 PD metadata domain kdf_salt pepper created SU _ g i SL GL R ST NE) as (key & K & KL). rewrite K. cbn [bind].
  exists g, path, (salt_or F false path token2), key, F2. split; [reflexivity|]. split; [exact KL|]. split; [rewrite W2; cbn; now rewrite bytes_eqb_refl|]. split; [exact KP|]. split; [exact KK|].
  exists dn. intros admin n D. destruct admin.
  - left. assert (salt_in F2 true n = salt_in F1 true n) as Q by (rewrite W2; reflexivity). rewrite Q, W1 in D. cbn [Bool.eqb andb] in D. destruct (bytes_eqb n dn) eqn:B; [|congruence].
    apply bytes_eqb_eq in B. subst n. assert (salt_in F true dn = None) as N0 by (unfold salt_or in D; destruct (salt_in F true dn); [congruence|reflexivity]).
    split; [reflexivity|]. split; [reflexivity|]. split; [exact N0|]. rewrite Q, W1. cbn. rewrite bytes_eqb_refl. unfold salt_or. now rewrite N0.
  - right. rewrite W2 in D. cbn [Bool.eqb andb] in D. destruct (bytes_eqb n path) eqn:B.
    + apply bytes_eqb_eq in B. subst n. unfold salt_or in *. destruct (salt_in F false path); [congruence|]. auto.
    + rewrite W1 in D. now cbn in D.
Qed.

(** C82: the same inputs give the same tokens again, whoever else has generated or
    deleted profiles in the directory meanwhile, unless this profile's salt was
    deleted. *)
Theorem C82_same_again : forall i token1 token2 F t F' path l token1' token2',
  setup -> proper F -> blen token1 = 32 -> blen token2 = 32 -> generate i token1 token2 F = (Ok t, F') ->
  t_salt_path t = Some path -> Forall (leaves path) l -> blen token1' = 32 -> blen token2' = 32 ->
  fst (generate i token1' token2' (do_acts l F')) = Ok t.
Proof.
  intros i token1 token2 F t F' path l token1' token2' SU P L1 L2 E TP FL L1' L2'.
  destruct (generate_made H sha3_512 sha3_256 PD metadata domain kdf_salt pepper privileged created SU _ _ _ _ _ _ P L1 L2 E) as (dn & device & g & path' & salt & key & M).
  assert (path' = path) as -> by (rewrite (mo_tokens _ _ _ _ _ _ _ _ _ _ _ _ _ _ _ _ _ M) in TP; cbn in TP; congruence).
  pose proof (generate_keeps H sha3_512 sha3_256 PD metadata domain kdf_salt pepper privileged created SU i token1 token2 F P L1 L2) as [P' _]. rewrite E in P'. cbn [snd] in P'.
  destruct (acts_keep H sha3_512 sha3_256 PD metadata domain kdf_salt pepper privileged created SU path dn device salt l F' P' FL) as (P2 & Q1 & Q2); [apply M|apply M|].
  eapply made_generate; eauto. eapply made_kept; eauto.
Qed.

(** C82: two generations, in one directory or two, have the same login key only with
    the same inputs, passphrase and settings included, and the same salts; or two of
    the inputs of the hash functions, which are these, collide. *)
Theorem C82_login_keys_bind_inputs : forall i1 a1 b1 F1 t1 F1' i2 a2 b2 F2 t2 F2',
  setup -> proper F1 -> proper F2 -> blen a1 = 32 -> blen b1 = 32 -> blen a2 = 32 -> blen b2 = 32 ->
  generate i1 a1 b1 F1 = (Ok t1, F1') -> generate i2 a2 b2 F2 = (Ok t2, F2') -> t_login_key t1 = t_login_key t2 ->
  exists device_path device1 device2 g1 s1 g2 s2,
    salt_in F1' true device_path = Some device1 /\ salt_in F2' true device_path = Some device2 /\
    t_gist t1 = Some g1 /\ t_gist t2 = Some g2 /\ t_salt t1 = Some s1 /\ t_salt t2 = Some s2 /\
    ((i1 = i2 /\ t1 = t2 /\ device1 = device2) \/
     (exists x y, gist_input sha3_512 PD device1 i1 x /\ gist_input sha3_512 PD device2 i2 y /\ sha3_512_collision sha3_512 x y) \/
     (exists x y, prekey_input sha3_512 PD s1 g1 (i_passphrase i1) x /\ prekey_input sha3_512 PD s2 g2 (i_passphrase i2) y /\
        (sha3_512_collision sha3_512 x y \/
         PasscryptSpec.collision H (login_queries H PD cf domain kdf_salt pepper (h_digest sha3_512 x 64) s1 i1)
                                   (login_queries H PD cf domain kdf_salt pepper (h_digest sha3_512 y 64) s2 i2)))).
Proof.
  intros i1 a1 b1 F1 t1 F1' i2 a2 b2 F2 t2 F2' SU P1 P2 A1 B1 A2 B2 E1 E2 K.
  destruct (generate_made H sha3_512 sha3_256 PD metadata domain kdf_salt pepper privileged created SU _ _ _ _ _ _ P1 A1 B1 E1) as (dn1 & d1 & g1 & p1 & s1 & k1 & M1).
  destruct (generate_made H sha3_512 sha3_256 PD metadata domain kdf_salt pepper privileged created SU _ _ _ _ _ _ P2 A2 B2 E2) as (dn2 & d2 & g2 & p2 & s2 & k2 & M2).
  pose proof (generate_keeps H sha3_512 sha3_256 PD metadata domain kdf_salt pepper privileged created SU i1 a1 b1 F1 P1 A1 B1) as [P1' _]. rewrite E1 in P1'. cbn [snd] in P1'.
  pose proof (generate_keeps H sha3_512 sha3_256 PD metadata domain kdf_salt pepper privileged created SU i2 a2 b2 F2 P2 A2 B2) as [P2' _]. rewrite E2 in P2'. cbn [snd] in P2'.
  pose proof (mo_tokens _ _ _ _ _ _ _ _ _ _ _ _ _ _ _ _ _ M1) as T1. pose proof (mo_tokens _ _ _ _ _ _ _ _ _ _ _ _ _ _ _ _ _ M2) as T2.
  assert (k2 = k1) as -> by (rewrite T1, T2 in K; cbn in K; congruence).
  pose proof (mo_device _ _ _ _ _ _ _ _ _ _ _ _ _ _ _ _ _ M1) as [D1 D1']. pose proof (mo_device _ _ _ _ _ _ _ _ _ _ _ _ _ _ _ _ _ M2) as [D2 D2'].
  assert (dn2 = dn1) as -> by congruence.
  exists dn1, d1, d2, g1, s1, g2, s2. split; [exact D1'|]. split; [exact D2'|]. rewrite T1, T2. cbn [t_gist t_salt]. repeat (split; [reflexivity|]). rewrite <- T1, <- T2.
  destruct (keys_bind H sha3_512 sha3_256 PD metadata domain kdf_salt pepper SU _ _ _ _ _ _ _ _ _ _ _ _ _ _ _ _ _ P1' P2' M1 M2) as [(X1 & X2 & _ & X3)|[X|X]]; auto.
Qed.

(** C82: two profiles have their salts in the same file only if their gists condense to
    the same 8 bytes, or the two condensed gists collide in the first 24 bytes of
    sha3_256. *)
Theorem C82_shared_salt_file : forall i1 a1 b1 F1 t1 F1' i2 a2 b2 F2 t2 F2',
  setup -> proper F1 -> proper F2 -> blen a1 = 32 -> blen b1 = 32 -> blen a2 = 32 -> blen b2 = 32 ->
  generate i1 a1 b1 F1 = (Ok t1, F1') -> generate i2 a2 b2 F2 = (Ok t2, F2') -> t_salt_path t1 = t_salt_path t2 ->
  exists g1 g2 m1 m2, t_gist t1 = Some g1 /\ t_gist t2 = Some g2 /\ xi_mix g1 8 = Ok m1 /\ xi_mix g2 8 = Ok m2 /\
    (m1 = m2 \/ m1 <> m2 /\ take 24 (sha3_256 m1) = take 24 (sha3_256 m2)).
Proof.
  intros i1 a1 b1 F1 t1 F1' i2 a2 b2 F2 t2 F2' SU P1 P2 A1 B1 A2 B2 E1 E2 K.
  destruct (generate_made H sha3_512 sha3_256 PD metadata domain kdf_salt pepper privileged created SU _ _ _ _ _ _ P1 A1 B1 E1) as (dn1 & d1 & g1 & p1 & s1 & k1 & M1).
  destruct (generate_made H sha3_512 sha3_256 PD metadata domain kdf_salt pepper privileged created SU _ _ _ _ _ _ P2 A2 B2 E2) as (dn2 & d2 & g2 & p2 & s2 & k2 & M2).
  pose proof (mo_tokens _ _ _ _ _ _ _ _ _ _ _ _ _ _ _ _ _ M1) as T1. pose proof (mo_tokens _ _ _ _ _ _ _ _ _ _ _ _ _ _ _ _ _ M2) as T2.
  assert (p2 = p1) as -> by (rewrite T1, T2 in K; cbn in K; congruence).
  pose proof (mo_path _ _ _ _ _ _ _ _ _ _ _ _ _ _ _ _ _ M1) as [D1 _]. pose proof (mo_path _ _ _ _ _ _ _ _ _ _ _ _ _ _ _ _ _ M2) as [D2 _].
  destruct (C74_same_name sha3_256 g1 8 g2 8 p1 (ps_256 _ _ _ _ _ _ _ SU) D1 D2) as (m1 & m2 & X1 & X2 & X3).
  exists g1, g2, m1, m2. rewrite T1, T2. auto.
Qed.

(** C82: deleting the tokens of a profile deletes its salt and no other.  Whoever
    generates the profile again gets a new salt in the same place, so that (with
    C82_login_keys_bind_inputs) its login key is lost. *)
Theorem C82_deleted : forall i a b F t F' a' b',
  setup -> proper F -> blen a = 32 -> blen b = 32 -> generate i a b F = (Ok t, F') -> blen a' = 32 -> blen b' = 32 ->
  representable i ->
  exists path F2, t_salt_path t = Some path /\ delete_tokens (cleanup t) F' = (Ok None, F2) /\ proper F2 /\
    salt_in F2 false path = None /\
    (forall admin n, (admin, n) <> (false, path) -> salt_in F2 admin n = salt_in F' admin n) /\
    exists t' F3, generate i a' b' F2 = (Ok t', F3) /\ t_gist t' = t_gist t /\ t_salt_path t' = Some path /\ t_salt t' = Some b'.
Proof.
  intros i a b F t F' a' b' SU P LA LB E LA' LB' R.
  destruct (generate_made H sha3_512 sha3_256 PD metadata domain kdf_salt pepper privileged created SU _ _ _ _ _ _ P LA LB E) as (dn & device & g & path & salt & key & M).
  pose proof (generate_keeps H sha3_512 sha3_256 PD metadata domain kdf_salt pepper privileged created SU i a b F P LA LB) as [P' _]. rewrite E in P'. cbn [snd] in P'.
  destruct M as [[M1 M2] [M3 M4] [M5 M6] M7 M8].
  destruct (delete_spec privileged created (cleanup t) F' P') as (F2 & D & P2 & W). assert (t_salt_path (cleanup t) = Some path) as TP by (rewrite M8; reflexivity). rewrite TP in W.
  exists path, F2. split; [rewrite M8; reflexivity|]. split; [exact D|]. split; [exact P2|]. split; [rewrite W; cbn; now rewrite bytes_eqb_refl|]. split.
  { intros admin n NE. rewrite W. destruct admin; [reflexivity|]. cbn. destruct (bytes_eqb n path) eqn:B; [|reflexivity]. apply bytes_eqb_eq in B. subst n. congruence. }
  destruct (generate_cases H sha3_512 sha3_256 PD metadata domain kdf_salt pepper privileged created SU i a' b' F2 P2 LA' LB') as (dn' & F1 & E1 & P1 & W1 & C).
  assert (dn' = dn) as -> by congruence.
  assert (salt_or F2 true dn a' = device) as Q by (unfold salt_or; rewrite W; cbn; now rewrite M2). rewrite Q in *.
  destruct C as [(e & X & _)|(g' & path' & F3 & G & GL & E2 & P3 & W2 & ->)]; [congruence|].
  assert (g' = g) as -> by congruence. assert (path' = path) as -> by congruence.
  assert (salt_or F2 false path b' = b') as -> by (unfold salt_or; rewrite W; cbn; now rewrite bytes_eqb_refl).
  apply (login_ok H sha3_512 sha3_256 PD metadata domain kdf_salt pepper SU) in M7 as (x & ss & X & ST & _).
  assert (i_passphrase i <> []) as NE by (intros Z; unfold prekey_input in X; rewrite Z in X; discriminate X).
  destruct (login_total H sha3_512 sha3_256 PD metadata domain kdf_salt pepper created SU b' g i LB' M4 R ST NE) as (key' & -> & _). cbn [bind].
  eexists _, F3. split; [reflexivity|]. rewrite M8. auto.
Qed.

(** C82: an empty passphrase, or settings out of the limits, are refused with a
    ValueError; but the salt files have been made by then. *)
Theorem C82_refused_too_late : forall i token1 token2 F,
  setup -> proper F -> blen token1 = 32 -> blen token2 = 32 -> representable i -> ~ settings_in_limits i \/ i_passphrase i = [] ->
  exists F' device_path path, generate i token1 token2 F = (Err ValueErr, F') /\ proper F' /\ keeps F F' /\
    salt_in F' true device_path <> None /\ salt_in F' false path <> None.
Proof.
  intros i token1 token2 F SU P L1 L2 R B.
  destruct (generate_keeps H sha3_512 sha3_256 PD metadata domain kdf_salt pepper privileged created SU i token1 token2 F P L1 L2) as [KP KK].
  destruct (generate_cases H sha3_512 sha3_256 PD metadata domain kdf_salt pepper privileged created SU i token1 token2 F P L1 L2) as (dn & F1 & E1 & P1 & W1 & C).
  assert (blen (salt_or F true dn token1) = 32) as DL.
  { unfold salt_or. destruct (salt_in F true dn) eqn:Q; [exact (salt_length _ _ _ _ P Q)|exact L1]. }
  destruct (gist_total H sha3_512 sha3_256 PD metadata domain pepper created SU _ i DL R) as (g' & G' & _).
  destruct C as [(e & X & _)|(g & path & F2 & G & GL & E2 & P2 & W2 & E)]; [congruence|]. rewrite E in *. cbn [fst snd] in *.
  exists F2, dn, path. split; [f_equal|].
  - unfold login_key. destruct (validate_settings _ _ _ _ _ _) as [[]|e] eqn:V.
    + apply settings_ok in V. destruct B as [B|B]; [contradiction|]. cbn [bind]. unfold make_prekey, hash_bytes, hash_bytes_absorbed. rewrite B. reflexivity.
    + assert (e = ValueErr) as ->; [|reflexivity]. unfold validate_settings in V. repeat match type of V with (if ?b then _ else _) = _ => destruct b end; congruence.
  - split; [exact KP|]. split; [exact KK|]. split; [rewrite W2, W1; cbn; now rewrite bytes_eqb_refl|rewrite W2; cbn; now rewrite bytes_eqb_refl].
Qed.

(** ** The database *)
Variable C : constants.
Variables c ct : cfg.
Variable coin : nat -> coins.
Variable root_salts : nat -> bytes.
Variable set_order : list bytes -> list bytes.
Notation open_db := (open_db json loads_bytes bytes (st_root_filename H C) (st_filename H C) (st_decrypt H C c) (manifest_decrypt H C c) root_salts manifest_of_text set_order).
Notation session := (session json dumps_value loads_bytes bytes (st_root_filename H C) (st_filename H C) (st_encrypt H C c coin) (st_decrypt H C c)
  (st_encrypt_manifest H C c coin) manifest_text set_order).
Notation life := (life json dumps_value loads_bytes bytes (st_root_filename H C) (st_filename H C) (st_encrypt H C c coin) (st_decrypt H C c)
  (st_encrypt_manifest H C c coin) (manifest_decrypt H C c) root_salts manifest_text manifest_of_text set_order).
Notation generate_profile := (generate_profile H sha3_512 sha3_256 C PD cf domain kdf_salt pepper privileged created c coin root_salts set_order).
(** A new database, saved once. *)
Definition new_profile : adb json := snd (astep json dumps_value loads_bytes set_order (SaveDatabase _) (empty _)).

(** C82: the profile of new inputs is a new database under the login key, saved once,
    which keeps only the path of the salt; it answers like the abstract map of C40 and
    C41, over its whole life. *)
Theorem C82_profile_is_a_map : forall i preload token1 token2 F t F' key p w0 U,
  setup -> imported H C c ct -> good_draws c coin root_salts -> (forall l, NoDup l -> Permutation (set_order l) l) ->
  generate i token1 token2 F = (Ok t, F') -> t_login_key t = Some key -> root_kdf H C key = Ok p ->
  Forall encoded_tag U -> names_apart H C p (root_salts (clock w0)) U ->
  no_files (st_root_filename H C) (st_filename H C) p (root_salts (clock w0)) U (disk w0) ->
  exists d w, generate_profile i preload token1 token2 F w0 =
      (Ok (d, {| t_gist := None; t_salt := None; t_salt_path := t_salt_path t; t_login_key := None |}), F', w) /\
    (forall os, Forall (op_ok json dumps_value loads_bytes U) os ->
       fst (fst (session os d w)) = fst (arun json dumps_value loads_bytes set_order os new_profile)) /\
    (forall es, Forall (event_ok json dumps_value loads_bytes U) es ->
       life es d w = alife json dumps_value loads_bytes set_order es new_profile).
Proof.
  intros i preload token1 token2 F t F' key p w0 U SU IM G O E K RK TU A NF.
  destruct (C81_databases_are_maps H C c ct coin root_salts set_order key p U w0 true preload IM G O RK TU A NF) as (d & w1 & OP & S1 & S2).
  unfold ProfileModel.generate_profile. rewrite E. cbn [bind]. rewrite K. cbn [bind]. rewrite RK. cbn [bind]. rewrite OP.
  assert (exists_file (st_root_filename H C p) w1 = false) as NX.
  { destruct NF as [NF _]. clear - OP NF. unfold DbModel.open_db, load_manifest in OP. rewrite NF in OP.
    destruct (if preload then _ else _) as [r2 d2]. apply pair_equal_spec in OP as [_ <-].
    unfold exists_file. cbn. now rewrite NF. }
  rewrite NX.
  assert (op_ok json dumps_value loads_bytes U (SaveDatabase _)) as OK by (split; [intros t0 Q; discriminate Q|intros t0 v k0 Q; discriminate Q]).
  destruct (save_database json dumps_value bytes (st_root_filename H C) (st_encrypt H C c coin) (st_encrypt_manifest H C c coin) manifest_text d w1) as [r w] eqn:SV.
  assert (forall os, session (SaveDatabase _ :: os) d w1 = (reply_of json (fun _ => Done _) r :: fst (fst (session os d w)), snd (fst (session os d w)), snd (session os d w))) as SS.
  { intros os. cbn [DbModel.session perform]. rewrite SV. now destruct (session os d w) as [[rs d'] w']. }
  assert (r = Ok tt) as ->.
  { pose proof (S1 [SaveDatabase _]) as Q. rewrite SS in Q. cbn in Q. specialize (Q ltac:(repeat constructor; apply OK)). destruct r as [[]|e]; [reflexivity|discriminate Q]. }
  exists d, w. split; [reflexivity|]. split.
  - intros os FO. specialize (S1 (SaveDatabase _ :: os) ltac:(constructor; assumption)). rewrite SS in S1. cbn [fst] in S1.
    cbn [arun] in S1. unfold new_profile. destruct (astep json dumps_value loads_bytes set_order (SaveDatabase _) (empty _)) as [r0 a1]. cbn [snd].
    destruct (arun json dumps_value loads_bytes set_order os a1) as [rs a2]. cbn [fst] in *. congruence.
  - intros es FE. specialize (S2 (Op _ (SaveDatabase _) :: es) ltac:(constructor; assumption) ltac:(exact I)).
    cbn [DbModel.life perform] in S2. rewrite SV in S2. cbn [alife] in S2. unfold new_profile.
    destruct (astep json dumps_value loads_bytes set_order (SaveDatabase _) (empty _)) as [r0 a1]. cbn [snd]. congruence.
Qed.

(** C82: generating the profile again, with the same inputs, opens the database there
    is with the same key and writes nothing. *)
Theorem C82_profile_opened_again : forall i preload token1 token2 F t F' path l key p token1' token2' w,
  setup -> proper F -> blen token1 = 32 -> blen token2 = 32 -> generate i token1 token2 F = (Ok t, F') ->
  t_login_key t = Some key -> root_kdf H C key = Ok p ->
  t_salt_path t = Some path -> Forall (leaves path) l -> blen token1' = 32 -> blen token2' = 32 ->
  disk w (st_root_filename H C p) <> None ->
  fst (fst (generate_profile i preload token1' token2' (do_acts l F') w)) = (d <- fst (open_db p true preload w) ;; Ok (d, cleanup t)) /\
  disk (snd (generate_profile i preload token1' token2' (do_acts l F') w)) = disk w.
Proof.
  intros i preload token1 token2 F t F' path l key p token1' token2' w SU P L1 L2 E K RK TP FL L1' L2' X.
  pose proof (C82_same_again _ _ _ _ _ _ _ _ _ _ SU P L1 L2 E TP FL L1' L2') as G.
  unfold ProfileModel.generate_profile. destruct (generate i token1' token2' (do_acts l F')) as [r F2]. cbn [fst] in G. subst r. cbn [bind]. rewrite K. cbn [bind]. rewrite RK. cbn [bind].
  destruct (open_db p true preload w) as [r w1] eqn:OP. assert (disk w1 = disk w) as D.
  { unfold DbModel.open_db, load_manifest in OP. destruct (disk w (st_root_filename H C p)) as [x|]; [|contradiction].
    match type of OP with match ?r with _ => _ end = _ => destruct r as [d'|e] end; [|now injection OP as _ <-].
    destruct (if preload then _ else _) as [r2 d2]. now injection OP as _ <-. }
  destruct r as [d|e]; [|split; [reflexivity|exact D]].
  unfold exists_file. rewrite D. destruct (disk w (st_root_filename H C p)); [|contradiction]. split; [reflexivity|exact D].
Qed.
End Profiles.
Print Assumptions C82_generated.
Print Assumptions C82_same_again.
Print Assumptions C82_login_keys_bind_inputs.
Print Assumptions C82_shared_salt_file.
Print Assumptions C82_deleted.
Print Assumptions C82_refused_too_late.
Print Assumptions C82_profile_is_a_map.
Print Assumptions C82_profile_opened_again.

(** A case: a function of the last block of its input in place of shake_128, one that
    copies its input in place of sha3_512, a directory without salts, a passphrase of
    one byte; and two tags, under whatever login key comes out. *)
Definition tail_hash : hasher :=
  {| h_block_size := 168; h_digest_size := 0; h_is_xof := true;
     h_digest := fun x n => be_enc (N.to_nat n) (fold_left (fun a b => N.land (3 * a + bval b) 0xffffff) (skipn (length x - 168) x) 7) |}.
Definition copy_512 : hasher :=
  {| h_block_size := 72; h_digest_size := 64; h_is_xof := false; h_digest := fun x n => take 64 (rev x ++ repeat x00 64) |}.
Definition a_profile : inputs :=
  {| i_credentials := [[x61]; [x62; x63]]; i_username := [x64]; i_passphrase := [x65]; i_salt := []; i_aad := [x66]; i_mb := 1; i_cpu := 1; i_cores := 2 |}.
Definition tail_constants : constants :=
  Eval vm_compute in match constants_of tail_hash with Ok C => C | Err _ => Build_constants [] [] [] [] [] [] [] [] end.
Lemma tail_is : like_shake128 tail_hash.
Proof. split; [reflexivity|reflexivity|]. intros x n. cbn [h_digest tail_hash]. rewrite blen_be_enc. lia. Qed.

Lemma profile_setup_made H sha3_256 metadata domain pepper : like_shake128 H -> (forall x, blen (sha3_256 x) = 32) ->
  blen metadata < 2 ^ 60 /\ blen domain < 2 ^ 60 /\ blen pepper < 2 ^ 60 -> exists PD, profile_setup H copy_512 sha3_256 PD metadata domain pepper.
Proof.
  intros X S3 L.
  assert (forall s, blen (text s) < 2 ^ 64 -> exists v, encode H (db_constant s) = Ok v) as E.
  { intros s S1. apply (encode_constant_total H 168); auto; [split; reflexivity|split; reflexivity|reflexivity|reflexivity]. }
  assert (exists PD, profile_domains_of H = Ok PD) as (PD & EP).
  { unfold profile_domains_of.
    destruct (E "profile_credential_gist"%string eq_refl) as (v1 & ->). cbn [bind].
    destruct (E "temporary_profile_prekey"%string eq_refl) as (v2 & ->). cbn [bind].
    destruct (E "profile_login_key"%string eq_refl) as (v3 & ->). cbn [bind].
    destruct (E "device_salt"%string eq_refl) as (v4 & ->). cbn [bind]. eauto. }
  exists PD. split; auto. split; [reflexivity|]. split; [reflexivity|]. split; [reflexivity|].
  intros x n. cbn [h_digest copy_512]. rewrite blen_take, blen_app, blen_repeat. lia.
Qed.
Lemma no_salts_proper : proper no_salts.
Proof. split; [cbn; lia|discriminate|discriminate]. Qed.

(** Hashing names with that function does not depend on the key. *)
Lemma tail_app x y : (168 <= length y)%nat -> h_digest tail_hash (x ++ y) 24 = h_digest tail_hash y 24.
Proof.
  intros L. cbn [h_digest tail_hash]. f_equal. f_equal. rewrite app_length, skipn_app.
  rewrite skipn_all2 by lia. cbn [app]. f_equal. lia.
Qed.
Definition tail_number (data : list bytes) : N :=
  match canonical_pack (be_enc 8 24 :: data) 168 [x00] 8 with Ok y => be_int (h_digest tail_hash y 24) | Err _ => 0 end.
Lemma run_layout H obj p data size domain x : run_absorbed H obj p data size domain = Ok x ->
  exists pre sb pk, to_bytes_be INT_BYTES (size_or (run_size obj size) (h_digest_size obj)) = Ok sb /\
    canonical_pack (sb :: domain :: data) (h_block_size obj) zero_pad INT_BYTES = Ok pk /\ x = pre ++ pk.
Proof.
  intros R. unfold run_absorbed in R. apply CanonProofs.hash_absorbed_inv in R as (pre & sb & pk & _ & S1 & P & E). now exists pre, sb, pk.
Qed.
Lemma tail_run p data domain x y : canonical_pack (be_enc 8 24 :: domain :: data) 168 [x00] 8 = Ok y -> (168 <= length y)%nat ->
  run_absorbed tail_hash tail_hash p data (Some 24) domain = Ok x -> be_int (h_digest tail_hash x 24) = tail_number (domain :: data).
Proof.
  intros E L R. apply run_layout in R as (pre & sb & pk & S1 & P & ->).
  assert (to_bytes_be INT_BYTES (size_or (run_size tail_hash (Some 24)) (h_digest_size tail_hash)) = Ok (be_enc 8 24)) as S2 by reflexivity.
  assert (sb = be_enc 8 24) as -> by (rewrite S2 in S1; congruence). clear S1 S2.
  assert (h_block_size tail_hash = 168) as Z by reflexivity. rewrite Z in P. unfold zero_pad, INT_BYTES in P.
  assert (pk = y) as -> by (rewrite E in P; congruence). unfold tail_number. rewrite E, tail_app by exact L. reflexivity.
Qed.

Example C82_case : forall metadata domain kdf_salt pepper privileged created (root_salts : nat -> bytes), let H := tail_hash in
  blen metadata < 2 ^ 60 /\ blen domain < 2 ^ 60 /\ blen pepper < 2 ^ 60 -> root_salts 5%nat = repeat x09 24 ->
  exists PD c ct t F' key p, profile_setup H copy_512 name_hash PD metadata domain pepper /\ imported H tail_constants c ct /\
    representable a_profile /\ settings_in_limits a_profile /\ proper no_salts /\
    generate H copy_512 name_hash PD (passcrypt_spec metadata) domain kdf_salt pepper privileged created a_profile (repeat x01 32) (repeat x02 32) no_salts = (Ok t, F') /\
    t_login_key t = Some key /\ root_kdf H tail_constants key = Ok p /\
    Forall encoded_tag two_tags /\ names_apart H tail_constants p (root_salts 5%nat) two_tags.
Proof.
  intros metadata domain kdf_salt pepper privileged created root_salts H L RS.
  destruct (profile_setup_made H name_hash metadata domain pepper tail_is name_hash_len L) as (PD & SU).
  destruct (C81_importable H 13 13 tail_is eq_refl) as (C & c & ct & _ & _ & IM & RT).
  { eexists. vm_compute. reflexivity. } { eexists. vm_compute. reflexivity. }
  assert (constants_of H = Ok tail_constants) as E by (vm_compute; reflexivity).
  assert (C = tail_constants) as -> by (pose proof (im_constants _ _ _ _ IM); congruence).
  assert (representable a_profile) as R by (split; [repeat constructor|reflexivity]).
  assert (settings_in_limits a_profile) as ST by (unfold settings_in_limits; cbn; lia).
  destruct (C82_generated H copy_512 name_hash PD metadata domain kdf_salt pepper privileged created a_profile (repeat x01 32) (repeat x02 32) no_salts SU no_salts_proper eq_refl eq_refl R ST ltac:(discriminate))
    as (g & path & salt & key & F' & G & KL & _).
  destruct (RT key ltac:(lia)) as (p & RK).
  exists PD, c, ct, {| t_gist := Some g; t_salt := Some salt; t_salt_path := Some path; t_login_key := Some key |}, F', key, p.
  split; [exact SU|]. split; [exact IM|]. split; [exact R|]. split; [exact ST|]. split; [exact no_salts_proper|]. split; [exact G|]. split; [reflexivity|]. split; [exact RK|]. clear - RS. rewrite RS. split.
  - constructor; [|constructor; [|constructor]]; (split; [|vm_compute; reflexivity]).
    + exists [97]. split; [|reflexivity]. constructor; [|constructor]. unfold unicode. lia.
    + exists [8364; 128512]. split; [|reflexivity]. constructor; [|constructor; [|constructor]]; unfold unicode; lia.
  - assert (forall t x : bytes, In t two_tags -> name_input H tail_constants p (repeat x09 24) t x -> be_int (h_digest H x 24) = tail_number [FILENAME tail_constants; repeat x09 24; t]) as A.
    { intros t x I X. unfold name_input in X. destruct I as [<-|[<-|[]]]; (eapply tail_run; [vm_compute; reflexivity|vm_compute; lia|exact X]). }
    assert (forall x : bytes, root_input H tail_constants p x -> be_int (h_digest H x 24) = tail_number [ROOT_FILENAME tail_constants]) as B.
    { intros x X. eapply tail_run; [vm_compute; reflexivity|vm_compute; lia|exact X]. }
    split; [|split].
    + intros t u x y It Iu N0 X Y E. apply (A _ _ It) in X. apply (A _ _ Iu) in Y. rewrite E, Y in X. apply N0. clear - It Iu X. destruct It as [<-|[<-|[]]], Iu as [<-|[<-|[]]]; try reflexivity; vm_compute in X; discriminate X.
    + intros t x y It X Y E. apply (A _ _ It) in X. apply B in Y. rewrite E, Y in X. clear - It X. destruct It as [<-|[<-|[]]]; vm_compute in X; discriminate X.
    + intros t x It X. apply (A _ _ It) in X. rewrite X. clear - It. destruct It as [<-|[<-|[]]]; split; vm_compute; discriminate.
Qed.
