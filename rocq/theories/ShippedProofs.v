From Coq Require Import ZArith.
From Verif Require Import Base BaseFacts CanonModel CanonSpec CanonProofs PermModel PermSpec
  PermProofs ClockModel ClockProofs GentoolsModel GentoolsProofs CipherModel CipherSpec
  CipherProofs SessionProofs BindingProofs.
Local Open Scope N_scope.

Lemma encode_constant_total H r (constant : bytes) size (domain aad : bytes) p :
  an_xof r H -> 0 < r < 2 ^ 56 -> 0 < size < 2 ^ 64 ->
  blen constant < 2 ^ 64 -> blen domain < 2 ^ 64 -> blen aad < 2 ^ 64 ->
  exists x, encode_constant H constant size domain aad [p] = Ok x.
Proof.
  intros X R S C D A. destruct X as [X1 X2 X3]. unfold encode_constant, hash_bytes, hash_bytes_absorbed.
  cbn [bind size_or truthy_size]. destruct (N.eqb_spec size 0); [lia|].
  change INT_BYTES with 8. change (256 ^ 8) with (2 ^ 64) in *.
  rewrite to_bytes_be_fit by (change (256 ^ 8) with (2 ^ 64); lia). cbn [bind].
  match goal with |- context [canonical_pack ?i ?b _ ?w] =>
    destruct (canonical_pack_total i b p w) as [y ->] end.
  { rewrite X2. unfold fits. change (256 ^ 8) with (2 ^ 64).
    change (2 ^ 56) with 72057594037927936 in *. change (2 ^ 64) with 18446744073709551616 in *.
    split; [lia|]. split; [lia|]. split; [vm_compute; reflexivity|].
    repeat constructor; assumption. }
  cbn [bind app]. unfold call_digest. rewrite X1. eexists. reflexivity.
Qed.

Lemma factory_total H r c k :
  an_xof r H -> 0 < r < 2 ^ 56 -> blen (kc_name k) < 2 ^ 63 -> blen (c_config_id c) < 2 ^ 64 ->
  blen (c_metadata c) < 2 ^ 64 ->
  exists f, kdf_factory H c k = Ok f.
Proof.
  intros X R K D M. unfold kdf_factory. eapply encode_constant_total; eauto.
  - unfold rate. rewrite (xof_rate _ _ X).
    change (2 ^ 56) with 72057594037927936 in *. change (2 ^ 64) with 18446744073709551616. lia.
  - rewrite blen_app. change (2 ^ 63) with 9223372036854775808 in *.
    change (2 ^ 64) with 18446744073709551616. change (blen SALT_SUFFIX) with 5. lia.
Qed.

Lemma make_cipher_total H c key :
  valid_cfg H c -> 64 <= blen key < 2 ^ 64 -> exists ks, make_cipher H c key = Ok ks.
Proof.
  intros V K. unfold make_cipher. unfold MIN_KEY_BYTES.
  destruct (N.ltb_spec (blen key) 64); [lia|].
  pose proof (vc_rate _ _ V) as R.
  assert (Q : forall k, In k [c_shmac_kdf c; c_left_kdf c; c_right_kdf c] ->
     exists x, keyed_kdf H c k key = Ok x).
  { intros k I. unfold keyed_kdf. destruct (vc_kdfs _ _ V k) as [f ->]; [cbn in *; tauto|].
    cbn [bind]. destruct (vc_pads _ _ V k I) as [p ->].
    destruct (encode_key_total key (rate H) p) as [x ->].
    - intros ->. rewrite (@blen_nil byte) in K. lia.
    - unfold rate. change (2 ^ 56) with 72057594037927936 in *. change (2 ^ 64) with 18446744073709551616 in *. lia.
    - lia.
    - cbn [bind]. eexists. reflexivity. }
  destruct (Q (c_shmac_kdf c)) as [x ->]; [cbn; auto|]. cbn [bind].
  destruct (c_type c); [eexists; reflexivity|].
  destruct (Q (c_left_kdf c)) as [y ->]; [cbn; auto|]. cbn [bind].
  destruct (Q (c_right_kdf c)) as [z ->]; [cbn; auto|]. cbn [bind]. eexists. reflexivity.
Qed.

Lemma slick256_valid H meta mult c :
  like_shake128 H -> blen meta < 2 ^ 63 -> slick256 meta mult = Ok c -> valid_cfg H c.
Proof.
  intros X M E. unfold slick256 in E. apply bind_ok in E as (perm & P & E). apply Ok_inj in E.
  pose proof (xof_rate _ _ X) as R.
  assert (Kd : forall k, In k [c_shmac_kdf c; c_left_kdf c; c_right_kdf c; c_block_id_kdf c] ->
            (exists f, kdf_factory H c k = Ok f) /\ (exists p, kc_pad k = [p])).
  { intros k I. split.
    - eapply factory_total; [exact X|split; reflexivity| | |].
      + subst c. cbn in I. destruct I as [<-|[<-|[<-|[<-|[]]]]]; reflexivity.
      + subst c. reflexivity.
      + subst c. cbn [c_metadata]. change (2 ^ 63) with 9223372036854775808 in M. change (2 ^ 64) with 18446744073709551616. lia.
    - subst c. cbn in I. destruct I as [<-|[<-|[<-|[<-|[]]]]]; eexists; reflexivity. }
  constructor.
  - rewrite R. split; reflexivity.
  - subst c. unfold check_config, check_shake_config, rate. rewrite R. reflexivity.
  - subst c. vm_compute. discriminate.
  - subst c. rewrite R. cbn. lia.
  - subst c. split; [cbn; lia|reflexivity].
  - subst c. reflexivity.
  - intros k I. apply Kd. cbn in *. tauto.
  - intros k I. now apply Kd.
  - subst c. exists FastChain, mult. exact P.
Qed.

Lemma chunky2048_valid H meta mult c :
  like_shake128 H -> blen meta < 2 ^ 63 -> chunky2048 meta mult = Ok c -> valid_cfg H c.
Proof.
  intros X M E. unfold chunky2048 in E. apply bind_ok in E as (perm & P & E). apply Ok_inj in E.
  pose proof (xof_rate _ _ X) as R.
  assert (Kd : forall k, In k [c_shmac_kdf c; c_left_kdf c; c_right_kdf c; c_block_id_kdf c] ->
            (exists f, kdf_factory H c k = Ok f) /\ (exists p, kc_pad k = [p])).
  { intros k I. split.
    - eapply factory_total; [exact X|split; reflexivity| | |].
      + subst c. cbn in I. destruct I as [<-|[<-|[<-|[<-|[]]]]]; reflexivity.
      + subst c. reflexivity.
      + subst c. cbn [c_metadata]. change (2 ^ 63) with 9223372036854775808 in M. change (2 ^ 64) with 18446744073709551616. lia.
    - subst c. cbn in I. destruct I as [<-|[<-|[<-|[<-|[]]]]]; eexists; reflexivity. }
  constructor.
  - rewrite R. split; reflexivity.
  - subst c. unfold check_config, check_dual_config, embedded_capacity_bytes, rate. rewrite R. reflexivity.
  - subst c. vm_compute. discriminate.
  - subst c. rewrite R. cbn. lia.
  - subst c. split; [cbn; lia|reflexivity].
  - subst c. reflexivity.
  - intros k I. apply Kd. cbn in *. tauto.
  - intros k I. now apply Kd.
  - subst c. exists FastChain, mult. exact P.
Qed.
