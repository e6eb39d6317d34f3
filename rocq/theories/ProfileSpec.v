(** * Profiles: vocabulary of the specification *)
From Verif Require Import Base CanonModel CipherSpec PasscryptModel PasscryptSpec ProfileModel.
Local Open Scope N_scope.

(** The salt in a file. *)
Definition salt_in (F : salts) (admin : bool) (n : bytes) : option bytes :=
  option_map fst ((if admin then s_admin F else s_secure F) n).

(** The salt files of a directory as the package makes them: 32 bytes, permission bits
    cleared, and their directories are there. *)
Definition closed_salt (x : bytes * N) : Prop := blen (fst x) = 32 /\ snd x = 0.
Record proper (F : salts) : Prop := {
  pr_dirs : (s_dirs F <= 2)%nat;
  pr_admin : forall n x, s_admin F n = Some x -> s_dirs F = 2%nat /\ closed_salt x;
  pr_secure : forall n x, s_secure F n = Some x -> (1 <= s_dirs F)%nat /\ closed_salt x;
}.
Definition no_salts : salts := {| s_dirs := 0; s_admin := fun _ => None; s_secure := fun _ => None |}.

(** Nothing is lost or changed. *)
Definition keeps (F F' : salts) : Prop := forall admin n x, salt_in F admin n = Some x -> salt_in F' admin n = Some x.

(** The functions and constants profiles are made with: shake_128, sha3_512, sha3_256,
    passcrypt with the package's configuration. *)
Record profile_setup (H sha3_512 : hasher) (sha3_256 : bytes -> bytes) (PD : profile_domains) (metadata domain pepper : bytes) : Prop := {
  ps_xof : like_shake128 H;
  ps_512 : h_is_xof sha3_512 = false /\ h_block_size sha3_512 = 72 /\ h_digest_size sha3_512 = 64 /\ forall x n, blen (h_digest sha3_512 x n) = 64;
  ps_256 : forall x, blen (sha3_256 x) = 32;
  ps_domains : profile_domains_of H = Ok PD;
  ps_small : blen metadata < 2 ^ 60 /\ blen domain < 2 ^ 60 /\ blen pepper < 2 ^ 60;
}.

(** Inputs of sizes that can occur, with settings in the documented limits. *)
Record representable (i : inputs) : Prop := {
  rp_bytes : Forall (fun x => blen x < 2 ^ 60) (i_passphrase i :: i_salt i :: i_aad i :: i_username i :: i_credentials i);
  rp_credentials : blen (i_credentials i) < 2 ^ 59;
}.
Definition settings_in_limits (i : inputs) : Prop := (1 <= i_mb i <= 256 ^ 3 /\ 1 <= i_cpu i <= 256 /\ 1 <= i_cores i <= 256)%Z.

(** What may happen to the salts of a directory: profiles are generated, successfully
    or not, and the tokens of profiles are deleted. *)
Inductive act := Generate (i : inputs) (token1 token2 : bytes) | Forget (t : tokens).
Section Acts.
Variables H sha3_512 : hasher.
Variable sha3_256 : bytes -> bytes.
Variable PD : profile_domains.
Variable cf : config.
Variables domain kdf_salt pepper : bytes.
Variable privileged : bool.
Variable created : N.
Definition do_act (a : act) (F : salts) : salts :=
  match a with
  | Generate i token1 token2 => snd (generate H sha3_512 sha3_256 PD cf domain kdf_salt pepper privileged created i token1 token2 F)
  | Forget t => snd (delete_tokens privileged created t F)
  end.
Definition do_acts (l : list act) (F : salts) : salts := fold_left (fun F a => do_act a F) l F.
(** The salts that are drawn have 32 bytes; the salt of [path] is not deleted. *)
Definition leaves (path : bytes) (a : act) : Prop :=
  match a with
  | Generate _ token1 token2 => blen token1 = 32 /\ blen token2 = 32
  | Forget t => t_salt_path t <> Some path
  end.

(** What the hash functions are given: for the gist, for the prekey, and by passcrypt
    for the login key. *)
Definition gist_input (device : bytes) (i : inputs) (x : bytes) : Prop :=
  hash_bytes_absorbed sha3_512 (GIST PD :: device :: i_salt i :: i_aad i :: i_username i :: i_credentials i) [x00] None (Some device) = Ok x.
Definition prekey_input (salt gist passphrase x : bytes) : Prop :=
  hash_bytes_absorbed sha3_512 [TMP_PREKEY PD; salt; gist] [x00] None (Some passphrase) = Ok x.
Definition login_queries (prekey salt : bytes) (i : inputs) : list (bytes * N) :=
  queries cf domain kdf_salt H 64 (snd (spawn cf prekey salt (PROFILE_LOGIN_KEY PD) pepper (i_mb i) (i_cpu i) (i_cores i) 64)).
Definition sha3_512_collision (x y : bytes) : Prop := x <> y /\ h_digest sha3_512 x 64 = h_digest sha3_512 y 64.
End Acts.
