(** * Model of aiootp/keygens/package_signer.py and package_verifier.py

    Ed25519 is the model of CurveModel, over an abstract curve.  SHA-384 and the
    encrypted tokens of the database are parameters.  The database is modelled as
    far as the signer uses it: what is in the cache, and what was saved. *)
From Coq Require Import Strings.String.
From Verif Require Import Base StrModel JsonModel CurveModel.
Local Open Scope N_scope.
Open Scope list_scope.

(** aiootp/_constants/misc.py 82-83, 184, 196, 225-226. *)
Definition CHECKSUM : str := lit "checksum".
(** aiootp/_constants/misc.py 82-226; package_signer.py 114-121. *)
Definition CHECKSUMS : str := lit "checksums".
(** aiootp/_constants/misc.py 82-226; package_signer.py 114-121. *)
Definition PUBLIC_CREDENTIALS : str := lit "public_credentials".
(** aiootp/_constants/misc.py 82-226; package_signer.py 114-121. *)
Definition SCOPE : str := lit "scope".
(** aiootp/_constants/misc.py 82-226; package_signer.py 114-121. *)
Definition SIGNATURE : str := lit "signature".
(** aiootp/_constants/misc.py 82-226; package_signer.py 114-121. *)
Definition SIGNING_KEY : str := lit "signing_key".
(** package_signer.py 36-55. *)
Definition PACKAGE : str := lit "package".
(** package_signer.py 36-55. *)
Definition VERSION : str := lit "version".
(** package_signer.py 36-55. *)
Definition DATE : str := lit "date".

(** [bytes.hex()]. As used in package_signer.py 207-247. *)
Definition hex (b : bytes) : str := flat_map (fun x => [hex_char (bval x / 16); hex_char (bval x mod 16)]) b.
(** [bytes.fromhex]: ASCII whitespace between the bytes is skipped, both cases are accepted. For
    package_verifier.py 102-115. *)
Definition hex_digit (c : N) : option N :=
  if (48 <=? c) && (c <=? 57) then Some (c - 48)
  else if (97 <=? c) && (c <=? 102) then Some (c - 87)
  else if (65 <=? c) && (c <=? 70) then Some (c - 55)
  else None.
(** No counterpart: ASCII whitespace. *)
Definition space (c : N) : bool := (c =? 32) || (9 <=? c) && (c <=? 13).
(** As used in package_verifier.py 102-115. *)
Fixpoint fromhex (s : str) : result bytes :=
  match s with
  | [] => Ok []
  | c :: s =>
    if space c then fromhex s
    else match s with
         | [] => Err ValueErr
         | d :: s =>
           match hex_digit c, hex_digit d with
           | Some a, Some b => rest <- fromhex s ;; Ok (byte_of (16 * a + b) :: rest)
           | _, _ => Err ValueErr
           end
         end
  end.
(** [bytes.fromhex] of a JSON value. As used in package_verifier.py 102-115. *)
Definition fromhex_json (v : json) : result bytes := match v with JStr s => fromhex s | _ => Err TypeErr end.

(** [dict(sorted(d.items()))]: the keys are strings and unique, so that values are never
    compared. No counterpart: for [sort_items]. *)
Fixpoint insert_item {V} (kv : str * V) (l : list (str * V)) : list (str * V) :=
  match l with
  | [] => [kv]
  | x :: l' => if str_ltb (fst x) (fst kv) then x :: insert_item kv l' else kv :: l
  end.
(** As used in package_signer.py 215-229. *)
Definition sort_items {V} (l : list (str * V)) : list (str * V) := fold_right insert_item [] l.

(** Assigning to an [OpenNamespace] (commons/slots.py 175-227): names of the methods
    are refused, [__dict__] and [__class__] are no items.  Names that hide other
    attributes of the class are not modelled. *)
Definition RESTRICTED_NAMES : list str := map lit ["keys"; "values"; "items"; "update"; "clear"]%string.
(** slots.py 175-227. *)
Definition ns_set {V} (ns : list (str * V)) (k : str) (v : V) : result (list (str * V)) :=
  if existsb (str_eqb k) RESTRICTED_NAMES then Err PermissionErr
  else if str_eqb k (lit "__dict__") || str_eqb k (lit "__class__") then Err TypeErr
  else Ok (dict_set str_eqb ns k v).
(** slots.py 308-324 [update]: what was set before an exception stays. *)
Fixpoint ns_update {V} (ns : list (str * V)) (items : list (str * V)) : list (str * V) * result unit :=
  match items with
  | [] => (ns, Ok tt)
  | (k, v) :: items =>
    match ns_set ns k v with
    | Ok ns => ns_update ns items
    | Err e => (ns, Err e)
    end
  end.

Section Package.
Variable C : curve.
Variable sha384 : bytes -> bytes.
(** databases/sync_database.py 369-388 [make_token], 436-457 [read_token] with the
    associated data made of a constant and the name of the package (package_signer.py
    193, 314); the first argument of [make_token] is its randomness. *)
Variable make_token : bytes -> bytes -> str -> str.
Variable read_token : str -> str -> result bytes.

(** ** The signer *)

(** package_signer.py 127-137 [_database_template]: what the database holds for a
    package.  Versions and signatures are strings. *)
Record entry := { e_key : str; e_versions : list (str * str); e_credentials : list (str * json) }.
(** package_signer.py 127-137. *)
Definition template : entry := {| e_key := []; e_versions := []; e_credentials := [] |}.

(** A signer object: its scope and files, and its database once connected. The database is what
    the connected object caches, and what is saved. package_signer.py 146-163, 249-278. *)
Record world := {
  w_saved : list (str * entry);
  w_cache : option (list (str * entry));
  w_scope : list (str * json);
  w_files : list (str * str);
}.
(** No counterpart: a new cache. *)
Definition set_cache (w : world) c := {| w_saved := w_saved w; w_cache := c; w_scope := w_scope w; w_files := w_files w |}.
(** No counterpart: a new scope. *)
Definition set_scope (w : world) s := {| w_saved := w_saved w; w_cache := w_cache w; w_scope := s; w_files := w_files w |}.
(** No counterpart: new files. *)
Definition set_files (w : world) f := {| w_saved := w_saved w; w_cache := w_cache w; w_scope := w_scope w; w_files := f |}.

(** package_signer.py 36-55, 146-163: a new signer object, not connected to a database.  [date] is the
    number of days since the epoch if it is not given. *)
Definition new_signer (w : world) (package version : str) (date : Z) (scopes : list (str * json)) : world * result unit :=
  match ns_update [] scopes with
  | (_, Err e) => (w, Err e)
  | (s, Ok _) =>
    match ns_update s [(PACKAGE, JStr package); (VERSION, JStr version); (DATE, JInt date)] with
    | (_, Err e) => (w, Err e)
    | (s, Ok _) => ({| w_saved := w_saved w; w_cache := None; w_scope := s; w_files := [] |}, Ok tt)
    end
  end.

(** [self._scope.package] and [self._scope.version], where they are strings. package_signer.py
    179-205. *)
Definition scope_str (w : world) (k : str) : result str :=
  match dict_get str_eqb (w_scope w) k with
  | Some (JStr s) => Ok s
  | Some _ => Err TypeErr
  | None => Err AttributeErr
  end.
(** package_signer.py 196-205 [db]; database_properties.py 173-180: [self.db[package]] is None if the
    package is not in the cache, and None has no items. *)
Definition db_entry (w : world) (package : str) : result entry :=
  match w_cache w with
  | None => Err AttributeErr
  | Some cache => match dict_get str_eqb cache package with Some e => Ok e | None => Err TypeErr end
  end.
(** package_signer.py 288-316: an item of the database changes. *)
Definition put_entry (w : world) (package : str) (e : entry) : world :=
  match w_cache w with
  | None => w
  | Some cache => set_cache w (Some (dict_set str_eqb cache package e))
  end.

(** package_signer.py 179-194 [signing_key]. *)
Definition signing_key (w : world) : result (key C) :=
  package <- scope_str w PACKAGE ;;
  e <- db_entry w package ;;
  match e_key e with
  | [] => Err AttributeErr
  | token =>
    k <- read_token token package ;;
    match import_secret_key C (new_key C) (SBytes k) with
    | (key, Ok _) => Ok key
    | (_, Err e) => Err e
    end
  end.

(** package_signer.py 207-229 [_checksums], [_summary]. *)
Definition as_strings (l : list (str * str)) : list (str * json) := map (fun kv => (fst kv, JStr (snd kv))) l.
(** package_signer.py 215-229. *)
Definition summary (w : world) : result (list (str * json)) :=
  package <- scope_str w PACKAGE ;;
  e <- db_entry w package ;;
  k <- signing_key w ;;
  p <- public_bytes C k ;;
  Ok [(CHECKSUMS, JObj (as_strings (sort_items (w_files w))));
      (PUBLIC_CREDENTIALS, JObj (sort_items (e_credentials e)));
      (SCOPE, JObj (sort_items (w_scope w)));
      (SIGNING_KEY, JStr (hex p))].
(** package_signer.py 231-236 [_checksum]. *)
Definition checksum_of (summary : list (str * json)) : bytes := sha384 (dumps_bytes (JObj summary)).
(** package_signer.py 231-236. *)
Definition checksum (w : world) : result bytes :=
  s <- summary w ;;
  Ok (checksum_of s).
(** package_signer.py 238-247 [_signature]. *)
Definition signature (w : world) : result bytes :=
  package <- scope_str w PACKAGE ;;
  e <- db_entry w package ;;
  version <- scope_str w VERSION ;;
  match dict_get str_eqb (e_versions e) version with
  | Some s => fromhex s
  | None => Err AttributeErr
  end.

(** package_signer.py 249-278 [connect_to_secure_database]: the package is loaded, or a template is
    cached for it. *)
Definition connect (w : world) : world * result unit :=
  match scope_str w PACKAGE with
  | Err e => (w, Err e)
  | Ok package =>
    (set_cache w (Some [(package, match dict_get str_eqb (w_saved w) package with Some e => e | None => template end)]), Ok tt)
  end.
(** [db.save_database()]: everything that is cached is saved. package_signer.py 326-338. *)
Definition save (w : world) : world * result unit :=
  match w_cache w with
  | None => (w, Err AttributeErr)
  | Some cache => ({| w_saved := dict_update str_eqb (w_saved w) cache; w_cache := w_cache w; w_scope := w_scope w; w_files := w_files w |}, Ok tt)
  end.

(** package_signer.py 280-286 [update_scope]. *)
Definition update_scope (w : world) (scopes : list (str * json)) : world * result unit :=
  let '(s, r) := ns_update (w_scope w) scopes in (set_scope w s, r).
(** package_signer.py 288-299 [update_public_credentials]. *)
Definition update_credentials (w : world) (credentials : list (str * json)) : world * result unit :=
  match (package <- scope_str w PACKAGE ;; e <- db_entry w package ;; Ok (package, e)) with
  | Err e => (w, Err e)
  | Ok (package, e) =>
    (put_entry w package {| e_key := e_key e; e_versions := e_versions e; e_credentials := dict_update str_eqb (e_credentials e) credentials |}, Ok tt)
  end.
(** package_signer.py 301-316 [update_signing_key]: the argument is a key object, or something to
    import. *)
Definition update_signing_key (w : world) (random : bytes) (k : key C + sarg C) : world * result unit :=
  match (k <- (match k with
               | inl k => Ok k
               | inr a => match import_secret_key C (new_key C) a with (k, Ok _) => Ok k | (_, Err e) => Err e end
               end) ;;
         package <- scope_str w PACKAGE ;;
         secret <- secret_bytes C k ;;
         e <- db_entry w package ;;
         Ok (package, secret, e)) with
  | Err e => (w, Err e)
  | Ok (package, secret, e) =>
    (put_entry w package {| e_key := make_token random secret package; e_versions := e_versions e; e_credentials := e_credentials e |}, Ok tt)
  end.
(** package_signer.py 318-324 [add_file]. *)
Definition add_file (w : world) (name : str) (data : bytes) : world * result unit :=
  match ns_set (w_files w) name (hex (sha384 data)) with
  | Ok f => (set_files w f, Ok tt)
  | Err e => (w, Err e)
  end.
(** package_signer.py 326-338 [sign_package]; leaving the [with] block saves the database. *)
Definition sign_package (w : world) : world * result unit :=
  match (c <- checksum w ;;
         version <- scope_str w VERSION ;;
         k <- signing_key w ;;
         s <- sign C k c ;;
         package <- scope_str w PACKAGE ;;
         e <- db_entry w package ;;
         Ok (version, s, package, e)) with
  | Err e => (w, Err e)
  | Ok (version, s, package, e) =>
    save (put_entry w package {| e_key := e_key e; e_versions := dict_set str_eqb (e_versions e) version (hex s); e_credentials := e_credentials e |})
  end.
(** package_signer.py 340-358 [summarize]. *)
Definition summarize (w : world) : result (list (str * json)) :=
  c <- checksum w ;;
  s <- signature w ;;
  k <- signing_key w ;;
  _ <- (match verify C k s c None with
        | Ok u => Ok u
        | Err InvalidSignature => Err ValueErr
        | Err e => Err e
        end) ;;
  body <- summary w ;;
  Ok ((CHECKSUM, JStr (hex c)) :: body ++ [(SIGNATURE, JStr (hex s))]).

(** Everything that changes the state. package_signer.py 249-338. *)
Inductive sop :=
| NewSigner (package version : str) (date : Z) (scopes : list (str * json))
| Connect
| SaveDatabase
| UpdateScope (scopes : list (str * json))
| UpdateCredentials (credentials : list (str * json))
| UpdateKey (random : bytes) (k : key C + sarg C)
| AddFile (name : str) (data : bytes)
| SignPackage.
(** One of these calls, package_signer.py 249-338. *)
Definition do_sop (w : world) (p : sop) : world * result unit :=
  match p with
  | NewSigner package version date scopes => new_signer w package version date scopes
  | Connect => connect w
  | SaveDatabase => save w
  | UpdateScope scopes => update_scope w scopes
  | UpdateCredentials credentials => update_credentials w credentials
  | UpdateKey random k => update_signing_key w random k
  | AddFile name data => add_file w name data
  | SignPackage => sign_package w
  end.
(** No counterpart: before the first call. *)
Definition empty_world : world := {| w_saved := []; w_cache := None; w_scope := []; w_files := [] |}.
(** No counterpart: calls one after another. *)
Definition run_sops (ps : list sop) : world := fold_left (fun w p => fst (do_sop w p)) ps empty_world.

(** ** The verifier *)

(** package_verifier.py 68-92 [__init__]: the key, and the directory of the files as
    a function that reads a file, if files are to be verified.  [path / file_path] is
    left to that function. *)
Record verifier := { v_key : key C; v_read : option (str -> result bytes) }.
(** package_verifier.py 68-92. *)
Definition make_verifier (k : key C + parg C) (path : option (str -> result bytes)) (verify_files : bool) : result verifier :=
  k <- (match k with
        | inl k => Ok k
        | inr a => match import_public_key C (new_key C) a with (k, Ok _) => Ok k | (_, Err e) => Err e end
        end) ;;
  if verify_files then
    match path with
    | Some read => Ok {| v_key := k; v_read := Some read |}
    | None => Err TypeErr
    end
  else match path with
       | Some _ => Err ValueErr
       | None => Ok {| v_key := k; v_read := None |}
       end.

(** package_verifier.py 102-115 [_import_summary]: the checksum and the signature. *)
Definition import_summary (s : list (str * json)) : result (bytes * bytes) :=
  match dict_get str_eqb s CHECKSUM with
  | None => Err KeyErr
  | Some c =>
    c <- fromhex_json c ;;
    let s := dict_del str_eqb s CHECKSUM in
    match dict_get str_eqb s SIGNATURE with
    | None => Err KeyErr
    | Some sg =>
      sg <- fromhex_json sg ;;
      let s := dict_del str_eqb s SIGNATURE in
      if bytes_eqb (checksum_of s) c then Ok (c, sg) else Err ValueErr
    end
  end.
(** package_verifier.py 117-129 [_verify_file_checksums]: which files are read, and the result. *)
Fixpoint verify_files (read : str -> result bytes) (files : list (str * json)) : list str * result unit :=
  match files with
  | [] => ([], Ok tt)
  | (name, h) :: files =>
    match fromhex_json h with
    | Err e => ([], Err e)
    | Ok purported =>
      match read name with
      | Err e => ([name], Err e)
      | Ok data =>
        if bytes_eqb purported (sha384 data) then
          let '(reads, r) := verify_files read files in (name :: reads, r)
        else ([name], Err InvalidDigest)
      end
    end
  end.
(** package_verifier.py 131-147 [verify_summary], for a dict. *)
Definition verify_summary (v : verifier) (s : list (str * json)) : list str * result unit :=
  match (match dict_get str_eqb s SIGNING_KEY with None => Err KeyErr | Some k => fromhex_json k end) with
  | Err e => ([], Err e)
  | Ok purported =>
    match public_bytes C (v_key v) with
    | Err e => ([], Err e)
    | Ok mine =>
      if bytes_eqb purported mine then
        match import_summary s with
        | Err e => ([], Err e)
        | Ok (c, sg) =>
          let '(reads, r) := match v_read v with
                             | None => ([], Ok tt)
                             | Some read =>
                               match dict_get str_eqb s CHECKSUMS with
                               | None => ([], Err KeyErr)
                               | Some (JObj files) => verify_files read files
                               | Some _ => ([], Err AttributeErr)
                               end
                             end in
          match r with
          | Err e => (reads, Err e)
          | Ok _ => (reads, verify C (v_key v) sg c None)
          end
        end
      else ([], Err ValueErr)
    end
  end.
(** The summary as text is parsed first ([json.loads]); it need not be a dict.
    package_verifier.py 102-147. *)
Definition verify_text (loads : bytes -> result json) (v : verifier) (text : bytes) : list str * result unit :=
  match loads text with
  | Err e => ([], Err e)
  | Ok (JObj s) => verify_summary v s
  | Ok _ => ([], Err TypeErr)
  end.
End Package.
