(** * Model of the databases of users who have a passphrase only:
    aiootp/databases/profile_tokens.py, sync_database.py 93-145 and 678-686.

    The asynchronous variants repeat the statements.  One profile is made at a time;
    what can happen when several processes make salt files together is C57. *)
From Coq Require Import Strings.String.
From Verif Require Import Base CanonModel KdfModel CipherModel DomainsModel JsonModel LoadsModel NameModel PasscryptModel DbModel StoreModel.
From Verif Require SaltModel.
Import ListNotations.
Local Open Scope list_scope.
Local Open Scope N_scope.

(** dbdomains.py 43-45, 49. *)
Record profile_domains := { DEVICE_SALT : bytes; GIST : bytes; TMP_PREKEY : bytes; PROFILE_LOGIN_KEY : bytes }.
(** dbdomains.py 43-45, 49. *)
Definition profile_domains_of (H : hasher) : result profile_domains :=
  gist <- encode H (db_constant "profile_credential_gist") ;;
  tmp_prekey <- encode H (db_constant "temporary_profile_prekey") ;;
  profile_login_key <- encode H (db_constant "profile_login_key") ;;
  device_salt <- encode H (db_constant "device_salt") ;;
  Ok {| DEVICE_SALT := device_salt; GIST := gist; TMP_PREKEY := tmp_prekey; PROFILE_LOGIN_KEY := profile_login_key |}.

(** The salt files of a directory: _paths.py 52-66.  [s_dirs] tells how many of
    "secure" and "secure/_admin" there are; a file has contents and permission bits
    (SaltModel.v). *)
Definition salt_files := bytes -> option (bytes * N).
(** _paths.py 52-66. *)
Record salts := { s_dirs : nat; s_admin : salt_files; s_secure : salt_files }.
(** No counterpart: a file changes. *)
Definition set_entry (f : salt_files) (n : bytes) (x : option (bytes * N)) : salt_files :=
  fun m => if bytes_eqb m n then x else f m.
(** No counterpart: one salt file, as SaltModel.v sees it. *)
Definition entry (admin : bool) (n : bytes) (F : salts) : SaltModel.fs :=
  {| SaltModel.dirs := s_dirs F; SaltModel.file := (if admin then s_admin F else s_secure F) n |}.
(** No counterpart: one salt file changes. *)
Definition put_entry (admin : bool) (n : bytes) (e : SaltModel.fs) (F : salts) : salts :=
  {| s_dirs := SaltModel.dirs e;
     s_admin := if admin then set_entry (s_admin F) n (SaltModel.file e) else s_admin F;
     s_secure := if admin then s_secure F else set_entry (s_secure F) n (SaltModel.file e) |}.

(** The inputs of [generate_profile]. sync_database.py 93-145: the arguments. *)
Record inputs := {
  i_credentials : list bytes; i_username : bytes; i_passphrase : bytes; i_salt : bytes; i_aad : bytes;
  i_mb : Z; i_cpu : Z; i_cores : Z;
}.
(** profile_tokens.py 158: the slots; unset ones are None. *)
Record tokens := { t_gist : option bytes; t_salt : option bytes; t_salt_path : option bytes; t_login_key : option bytes }.

Section Profile.
(** hashlib.shake_128, sha3_512 and sha3_256. *)
Variables H sha3_512 : hasher.
Variable sha3_256 : bytes -> bytes.
Variable C : constants.
Variable PD : profile_domains.
(** The configuration passcrypt_spec, the constants of passcrypt and its PEPPER. *)
Variable cf : config.
Variables PASSCRYPT_DOMAIN kdf_salt PEPPER : bytes.
(** Of the operating system: whether permission bits bind the user, and those of new
    files. *)
Variable privileged : bool.
Variable created : N.

(** _paths.py 146-151 [find_salt_file], 317-343 [SecureSaltPath] and 207-224
    [read_salt_file], called one after the other.  [token] is the salt drawn if
    there is no file yet. *)
Definition read_or_make (admin : bool) (key token : bytes) (F : salts) : result (bytes * bytes) * salts :=
  match deniable_filename sha3_256 key 8 with
  | Err e => (Err e, F)
  | Ok name =>
    let need := if admin then 2%nat else 1%nat in
    let '(events, w) := SaltModel.run privileged created need (fun _ => 0%nat) (repeat 0%nat 30)
      (SaltModel.launch (fun _ => SaltModel.open_salt need token) (entry admin name F)) in
    (match rev events with
     | SaltModel.Done _ _ (Ok (Some x)) :: _ => Ok (name, x)
     | SaltModel.Done _ _ (Err e) :: _ => Err e
     | _ => Err OtherErr
     end, put_entry admin name (SaltModel.disk w) F)
  end.

(** profile_tokens.py 234-244: the gist. *)
Definition make_gist (device_salt : bytes) (i : inputs) : result bytes :=
  hash_bytes sha3_512 (GIST PD :: device_salt :: i_salt i :: i_aad i :: i_username i :: i_credentials i) [x00] None (Some device_salt).
(** profile_tokens.py 196-217 [_generate_profile_login_key]. *)
Definition make_prekey (salt gist passphrase : bytes) : result bytes :=
  hash_bytes sha3_512 [TMP_PREKEY PD; salt; gist] [x00] None (Some passphrase).
(** profile_tokens.py 196-217. *)
Definition login_key (salt gist : bytes) (i : inputs) : result bytes :=
  _ <- validate_settings cf (i_mb i) (i_cpu i) (i_cores i) 64 DEFAULT_SCHEMA_SALT_SIZE ;;
  prekey <- make_prekey salt gist (i_passphrase i) ;;
  fst (new cf PASSCRYPT_DOMAIN kdf_salt H PEPPER prekey salt (PROFILE_LOGIN_KEY PD) (i_mb i) (i_cpu i) (i_cores i) 64).

(** profile_tokens.py 174-194, 219-250 [generate] of a new object.  [token1] and [token2] are the salts
    drawn for files that do not exist. *)
Definition generate (i : inputs) (token1 token2 : bytes) (F : salts) : result tokens * salts :=
  let '(r, F) := read_or_make true (DEVICE_SALT PD) token1 F in
  match r with
  | Err e => (Err e, F)
  | Ok (_, device_salt) =>
    match make_gist device_salt i with
    | Err e => (Err e, F)
    | Ok gist =>
      let '(r, F) := read_or_make false gist token2 F in
      match r with
      | Err e => (Err e, F)
      | Ok (path, salt) =>
        (key <- login_key salt gist i ;;
         Ok {| t_gist := Some gist; t_salt := Some salt; t_salt_path := Some path; t_login_key := Some key |}, F)
      end
    end
  end.
(** profile_tokens.py 252-259 [cleanup]. *)
Definition cleanup (t : tokens) : tokens :=
  {| t_gist := None; t_salt := None; t_salt_path := t_salt_path t; t_login_key := None |}.

(** sync_database.py 678-686 [_delete_profile_tokens], of an object whose tokens hold
    this salt path. *)
Definition delete_tokens (t : tokens) (F : salts) : result (option bytes) * salts :=
  match t_salt_path t with
  | None => (Ok None, F)
  | Some path =>
    match s_secure F path with
    | None => (Ok None, F)
    | Some _ =>
      let '(r, e) := SaltModel.alone privileged created 1 (fun _ => 0%nat) SaltModel.Delete (entry false path F) in
      (r, put_entry false path e F)
    end
  end.

(** sync_database.py 93-145 [generate_profile]; DbModel.v and StoreModel.v have the
    rest.  [c] is the configuration of Chunky2048. *)
Variable c : cfg.
Variable coin : nat -> coins.
Variable root_salts : nat -> bytes.
Variable set_order : list bytes -> list bytes.
(** sync_database.py 93-145. *)
Definition generate_profile (i : inputs) (preload : bool) (token1 token2 : bytes) (F : salts) (w : world)
    : result (db json bytes * tokens) * salts * world :=
  let '(r, F) := generate i token1 token2 F in
  match (t <- r ;; match t_login_key t with
                   | None => Err AttributeErr
                   | Some key => p <- root_kdf H C key ;; Ok (t, p)
                   end) with
  | Err e => (Err e, F, w)
  | Ok (t, p) =>
    let '(r, w) := open_db json loads_bytes bytes (st_root_filename H C) (st_filename H C) (st_decrypt H C c)
      (manifest_decrypt H C c) root_salts manifest_of_text set_order p true preload w in
    match r with
    | Err e => (Err e, F, w)
    | Ok d =>
      if exists_file (st_root_filename H C p) w then (Ok (d, cleanup t), F, w)
      else
        let '(r, w) := save_database json dumps_value bytes (st_root_filename H C) (st_encrypt H C c coin)
          (st_encrypt_manifest H C c coin) manifest_text d w in
        (_ <- r ;; Ok (d, cleanup t), F, w)
    end
  end.
End Profile.
