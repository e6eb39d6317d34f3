(** * Sessions of two keys of different lengths which absorb the same bytes *)
From Coq Require Import ZArith.
From Verif Require Import Base BaseFacts CanonModel CanonSpec PermModel ClockModel
  GentoolsModel CipherModel CipherSpec CipherProofs SessionProofs BindingProofs ShippedProofs.
Local Open Scope N_scope.

(** Nothing after the construction of a bundle reads its associated data. *)
Definition with_aad (a : bytes) (b : bundle) : bundle :=
  {| b_salt := b_salt b; b_aad := a; b_iv := b_iv b; b_iv_is_fresh := b_iv_is_fresh b;
     b_mode := b_mode b; b_registered := b_registered b;
     b_mac := b_mac b; b_left := b_left b; b_right := b_right b |}.
Definition relabel (a : bytes) (st : session) : session := (with_aad a (fst st), snd st).
Definition lift {A} (a : bytes) (r : result (A * session)) : result (A * session) :=
  match r with Ok (o, st) => Ok (o, relabel a st) | Err e => Err e end.

Section Relabel.
Variable H : hasher.
Variable c : cfg.
Variable Ty : c_type c = ShakePermute.

Lemma transform_relabel a m f st blk :
  transform H c m f (relabel a st) blk = lift a (transform H c m f st blk).
Proof.
  destruct st as [b s]. unfold transform. rewrite Ty. destruct m; unfold relabel; cbn [fst snd].
  - unfold shake_encipher. destruct (s_finalized s); [reflexivity|]. cbv zeta.
    destruct (chain_uncapped_permute _ _); [|reflexivity]. cbn [bind].
    destruct (z_to_bytes _ _ _); reflexivity.
  - unfold shake_decipher. destruct (s_finalized s); [reflexivity|]. cbv zeta.
    destruct (chain_uncapped_invert _ _); [|reflexivity]. cbn [bind].
    destruct (z_to_bytes _ _ _); reflexivity.
Qed.
Lemma blocks_relabel a m : forall l f st,
  transform_blocks H c m f (relabel a st) l = lift a (transform_blocks H c m f st l).
Proof.
  induction l as [|x l IH]; intros f st; [reflexivity|]. cbn [transform_blocks].
  rewrite transform_relabel. destruct (transform H c m f st x) as [[o st1]|]; [|reflexivity].
  cbn [lift bind]. rewrite IH. destruct (transform_blocks H c m false st1 l) as [[o' st2]|]; reflexivity.
Qed.

Definition twin (a : bytes) (r1 r2 : result bundle) : Prop :=
  r2 = match r1 with Ok b => Ok (with_aad a b) | Err e => Err e end.

Lemma encrypt_same_bundle ks1 ks2 r data salt a1 a2 :
  twin a2 (make_bundle H c ks1 salt a1 None (r_salt r) (r_iv r))
          (make_bundle H c ks2 salt a2 None (r_salt r) (r_iv r)) ->
  bytes_encrypt H c ks1 r data salt a1 = bytes_encrypt H c ks2 r data salt a2.
Proof.
  unfold twin, bytes_encrypt. intros ->.
  destruct (make_bundle H c ks1 salt a1 None (r_salt r) (r_iv r)) as [[sa ad v fr mo re ma lf rt]|];
    [|reflexivity].
  unfold with_aad; cbn [bind b_salt b_aad b_iv b_iv_is_fresh b_mode b_registered b_mac b_left b_right].
  unfold set_run_mode;
  cbn [bind b_salt b_aad b_iv b_iv_is_fresh b_mode b_registered b_mac b_left b_right].
  destruct mo; [reflexivity|].
  cbn [bind]. unfold make_shmac. cbn [b_mode b_mac].
  destruct (make_chain _ _) as [p|]; [|reflexivity]. cbn [bind].
  unfold for_encryption. cbn [s_mode b_iv_is_fresh negb]. destruct fr; [|reflexivity]. cbn [negb].
  cbn [bind]. destruct (pad_plaintext _ _ _ _ _) as [pd|]; [|reflexivity]. cbn [bind].
  unfold junction, register_shmac. cbn [b_registered]. destruct re; [reflexivity|].
  cbn [bind b_salt b_aad b_iv b_iv_is_fresh b_mode b_mac b_left b_right].
  unfold check_modes, set_cipher_mode. cbn [b_mode s_mode mode_eqb run_mode_eqb bind].
  unfold combine_streams. rewrite Ty.
  match goal with |- ?L = ?R =>
    match L with context [transform_blocks _ _ _ _ ?st1 _] =>
    match R with context [transform_blocks _ _ _ _ ?st2 _] =>
    set (st := st1); change st2 with (relabel a2 st) end end end.
  rewrite blocks_relabel. destruct (transform_blocks _ _ _ _ st _) as [[o [b' s']]|]; [|reflexivity].
  cbn [lift bind relabel fst snd]. unfold finalize. destruct (s_finalized s'); reflexivity.
Qed.

Lemma absorbed_same_bundle ks1 ks2 salt iv body a1 a2 :
  twin a2 (make_bundle H c ks1 (Some salt) a1 (Some iv) salt iv)
          (make_bundle H c ks2 (Some salt) a2 (Some iv) salt iv) ->
  absorbed H c ks1 salt a1 iv body = absorbed H c ks2 salt a2 iv body.
Proof.
  unfold twin, absorbed. intros ->.
  destruct (make_bundle H c ks1 (Some salt) a1 (Some iv) salt iv) as [[sa ad v fr mo re ma lf rt]|];
    [|reflexivity].
  unfold with_aad; cbn [bind b_salt b_aad b_iv b_iv_is_fresh b_mode b_registered b_mac b_left b_right].
  unfold set_run_mode;
  cbn [bind b_salt b_aad b_iv b_iv_is_fresh b_mode b_registered b_mac b_left b_right].
  destruct mo; [reflexivity|].
  cbn [bind]. unfold make_shmac. cbn [b_mode b_mac].
  destruct (make_chain _ _) as [p|]; [|reflexivity]. cbn [bind].
  match goal with |- ?L = ?R =>
    match L with context [transform_blocks _ _ _ _ ?st1 _] =>
    match R with context [transform_blocks _ _ _ _ ?st2 _] =>
    set (st := st1); change st2 with (relabel a2 st) end end end.
  rewrite blocks_relabel. destruct (transform_blocks _ _ _ _ st _) as [[o [b' s']]|]; reflexivity.
Qed.
End Relabel.

(** [key2] contains the encoding of [key1]; the rest of what a session with
    [key2] and no associated data absorbs before the first block is put in the
    associated data [aad1] of a session with [key1]. *)
Definition key1 : bytes := repeat x07 64.
Definition key2 (salt : bytes) : bytes :=
  key1 ++ le_enc 8 64 ++ le_enc 8 168 ++ repeat xac 88 ++
  [x04] ++ be_enc 4 5 ++ be_enc 4 4 ++ be_enc 4 1 ++ be_enc 4 1 ++ [x00] ++
  be_enc 4 8 ++ salt ++ be_enc 4 168.
Definition aad1 (salt : bytes) : bytes :=
  le_enc 8 202 ++ le_enc 8 168 ++ repeat xac 118 ++
  [x04] ++ be_enc 4 5 ++ be_enc 4 4 ++ be_enc 4 1 ++ be_enc 4 1 ++ [x00] ++
  be_enc 4 8 ++ salt ++ be_enc 4 0.

Lemma eight (l : bytes) : blen l = 8 ->
  exists a b c d e f g h, l = [a;b;c;d;e;f;g;h].
Proof.
  unfold blen. intros L.
  do 8 (destruct l as [|? l]; [cbn in L; lia|]).
  destruct l; [|cbn in L; lia]. repeat eexists.
Qed.

Lemma confused_bytes (salt iv : bytes) : blen salt = 8 -> blen iv = 8 ->
  exists ek1 ek2 s1 s2 p1 p2,
    encode_key key1 168 [xac] = Ok ek1 /\ encode_key (key2 salt) 168 [xac] = Ok ek2 /\
    canonical_pack [salt; aad1 salt; iv] 1 [x00] 4 = Ok s1 /\
    canonical_pack [salt; []; iv] 1 [x00] 4 = Ok s2 /\
    fullblock_ljust s1 168 [xac] = Ok p1 /\ fullblock_ljust s2 168 [xac] = Ok p2 /\
    ek1 ++ p1 = ek2 ++ p2.
Proof.
  intros Ls Li.
  apply eight in Ls as (s1 & s2 & s3 & s4 & s5 & s6 & s7 & s8 & ->).
  apply eight in Li as (i1 & i2 & i3 & i4 & i5 & i6 & i7 & i8 & ->).
  do 6 eexists.
  split; [vm_compute; reflexivity|]. split; [vm_compute; reflexivity|].
  split; [vm_compute; reflexivity|]. split; [vm_compute; reflexivity|].
  split; [vm_compute; reflexivity|]. split; [vm_compute; reflexivity|].
  vm_compute. reflexivity.
Qed.

Lemma confused_sessions H meta mult c salt :
  like_shake128 H -> blen meta < 2 ^ 63 -> slick256 meta mult = Ok c -> blen salt = 8 ->
  exists ks1 ks2,
    make_cipher H c key1 = Ok ks1 /\ make_cipher H c (key2 salt) = Ok ks2 /\
    forall oiv rs ri,
      twin [] (make_bundle H c ks1 (Some salt) (aad1 salt) oiv rs ri)
              (make_bundle H c ks2 (Some salt) [] oiv rs ri).
Proof.
  intros X M C Ls.
  pose proof (slick256_valid _ _ _ _ X M C) as V.
  destruct (vc_kdfs _ _ V (c_shmac_kdf c) (or_introl eq_refl)) as [f F].
  pose proof (xof_rate _ _ X) as R.
  assert (Fld : c_type c = ShakePermute /\ kc_pad (c_shmac_kdf c) = [xac] /\
                kc_offset_amount (c_shmac_kdf c) = 0 /\ c_salt_bytes c = 8 /\ c_iv_bytes c = 8).
  { unfold slick256 in C. apply bind_ok in C as (? & _ & C). apply Ok_inj in C. subst c.
    cbn. auto. }
  destruct Fld as (Ty & Pd & Of & Sb & Ib).
  destruct (confused_bytes salt (repeat x00 8) Ls eq_refl) as (ek1 & ek2 & _ & _ & _ & _ & K1 & K2 & _).
  assert (L2 : 64 <= blen (key2 salt)).
  { unfold key2. rewrite blen_app. change (blen key1) with 64. lia. }
  exists {| kd_shmac := f ++ ek1; kd_left := []; kd_right := [] |},
         {| kd_shmac := f ++ ek2; kd_left := []; kd_right := [] |}.
  split. { unfold make_cipher, keyed_kdf, rate. rewrite Ty, F, R, Pd, K1. reflexivity. }
  split. { unfold make_cipher, keyed_kdf, rate, MIN_KEY_BYTES. rewrite Ty, F, R, Pd, K2.
           destruct (N.ltb_spec (blen (key2 salt)) 64); [lia|]. reflexivity. }
  intros oiv rs ri. unfold twin, make_bundle. rewrite Sb, Ib, Ty.
  rewrite choose_some by (intros ->; discriminate). rewrite Ls. cbn [N.eqb Pos.eqb negb].
  destruct (choose_iv oiv ri) as [v fr].
  destruct (N.eqb_spec (blen v) 8) as [Li|]; [|reflexivity]. cbn [negb].
  destruct (confused_bytes salt v Ls Li) as (k1 & k2 & s1 & s2 & p1 & p2 & K1' & K2' & S1 & S2 & P1 & P2 & E).
  rewrite S1. cbn [bind]. 
  match goal with |- context [canonical_pack ?l 1 [x00] 4] =>
    replace (canonical_pack l 1 [x00] 4) with (Ok s2) by (symmetry; exact S2) end. cbn [bind]. unfold new_session_copy, rate. rewrite Pd, Of, R, P1, P2.
  rewrite K1 in K1'. apply Ok_inj in K1'. subst k1. rewrite K2 in K2'. apply Ok_inj in K2'. subst k2.
  cbn [bind kd_shmac N.to_nat repeat concat with_aad b_salt b_iv b_iv_is_fresh b_mode b_registered b_mac b_left b_right].
  unfold with_aad. cbn [b_salt b_iv b_iv_is_fresh b_mode b_registered b_mac b_left b_right].
  rewrite !app_nil_r, <- !app_assoc, E. reflexivity.
Qed.
