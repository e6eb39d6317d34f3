(** * The signing service: vocabulary of the specification *)
From Coq Require Import Strings.String Permutation.
From Verif Require Import Base CanonModel CanonSpec KdfModel ClockModel CipherModel CipherSpec StrModel JsonModel JsonSpec LoadsModel LoadsSpec CurveModel CurveSpec PackageModel PackageSpec ServiceModel.
Import ListNotations.
Open Scope list_scope.
Local Open Scope N_scope.

(** The bytes that arrive before anything goes wrong, in whatever pieces, and what then happens:
    at the end of the stream, the channel is closed. *)
Fixpoint stream (l : list arrival) : bytes :=
  match l with [] => [] | Piece b :: l => b ++ stream l | Trouble _ :: _ => [] end.
Fixpoint fate (l : list arrival) : problem :=
  match l with [] => Aborted | Piece _ :: l => fate l | Trouble p :: _ => p end.

(** A message in the stream: its length in eight bytes, then the message. *)
Definition frame (data framed : bytes) : Prop :=
  exists size, framed = size ++ data /\ blen size = 8 /\ be_int size = blen data.

(** Names that can be keys of the signer's namespaces. *)
Definition usable (name : str) : Prop :=
  ~ In name (map lit ["keys"; "values"; "items"; "update"; "clear"; "__dict__"; "__class__"]%string).

(** A scope that the signer takes: its name and version are strings, and its keys are usable. *)
Record good_scope (package version : str) (scope : list (str * json)) : Prop := {
  gs_normal : normal (JObj scope);
  gs_package : dict_get str_eqb scope (lit "package") = Some (JStr package);
  gs_version : dict_get str_eqb scope (lit "version") = Some (JStr version);
  gs_self : dict_get str_eqb scope (lit "self") = None;
  gs_names : Forall (fun kv => usable (fst kv)) scope;
}.
(** Files and their hashes. *)
Record good_files (files : list (str * str)) : Prop := {
  gf_once : NoDup (map fst files);
  gf_clean : Forall (fun kv => clean_str (fst kv) /\ clean_str (snd kv)) files;
  gf_names : Forall (fun kv => usable (fst kv)) files;
}.
(** The JSON object of some files. *)
Definition file_object (files : list (str * str)) : json := JObj (map (fun kv => (fst kv, JStr (snd kv))) files).

(** The scope that is signed: what the client gave, with a date if it gave none. *)
Definition dated (scope : list (str * json)) (today : Z) (signed : list (str * json)) : Prop :=
  exists date, (forall d, dict_get str_eqb scope (lit "date") = Some d -> truthy d = true -> date = d) /\
    (dict_get str_eqb scope (lit "date") = None -> date = JInt today) /\
    NoDup (map fst signed) /\
    forall k, dict_get str_eqb signed k = if str_eqb k (lit "date") then Some date else dict_get str_eqb scope k.

Section Spec.
Variable C : curve.
Variable read_token : str -> str -> result bytes.

(** The signer is connected to its database, which has the signing key [s] of the package. *)
Definition ready (package : str) (s : secret C) (w : world) : Prop :=
  exists cache e k, w_cache w = Some cache /\ dict_get str_eqb cache package = Some e /\ e_key e <> [] /\
    read_token (e_key e) package = Ok k /\ from_private C k = Ok s /\ normal (JObj (e_credentials e)).

(** What a database holds: its packages in memory and those saved. *)
Definition database (w : world) : option (list (str * entry)) * list (str * entry) := (w_cache w, w_saved w).
(** The signature of a version of a package in a table of packages. *)
Definition stored (t : list (str * entry)) (package version : str) : option str :=
  match dict_get str_eqb t package with
  | Some e => dict_get str_eqb (e_versions e) version
  | None => None
  end.
End Spec.

(** A message opens in time: it is not older than two units of the clock. *)
Definition in_time (c : cfg) (made now : Z) : Prop :=
  (clock_time (c_clock c) now - clock_time (c_clock c) made <= 2)%Z.

(** ** The inventory *)
(** A text without the white space at its two ends. *)
Definition stripped (s t : str) : Prop :=
  exists a b, s = a ++ t ++ b /\ Forall (fun c => blank c = true) a /\ Forall (fun c => blank c = true) b /\
    (forall c r, t = c :: r -> blank c = false) /\ (forall c r, t = r ++ [c] -> blank c = false).
(** The lines of a text, without white space and without empty lines. *)
Definition listed (tree : str) (names : list str) : Prop :=
  exists lines all, Forall (fun l => ~ In 10 l) lines /\ lines <> [] /\ tree = intercalate [10] lines /\
    Forall2 stripped lines all /\ names = filter (fun n => negb (str_eqb n [])) all.
(** A name that the manifest leaves out. *)
Definition left_out (name : str) : Prop :=
  exists part a b, In part (map lit [".github/"; "aiootp/db/"; "aiootp/tor/"]%string) /\ name = a ++ part ++ b.
(** The text of the manifest for names. *)
Inductive manifest_of : list str -> str -> Prop :=
| no_more : manifest_of [] []
| leaves_out name names text : left_out name -> manifest_of names text -> manifest_of (name :: names) text
| includes name names text : ~ left_out name -> manifest_of names text ->
    manifest_of (name :: names) (lit "include " ++ name ++ [10] ++ text).

(** The associated data of requests, and of the responses to a request with a given header. *)
Definition asking : bytes := ascii_encode (lit "build_signature_request").
Definition answering (header aad : bytes) : Prop := canonical_pack [ascii_encode (lit "provided_build_signature"); header] 1 [x00] 8 = Ok aad.
(** The first bytes of a ciphertext: its tag, salt and IV. *)
Definition head (c : cfg) (ciphertext header : bytes) : Prop :=
  exists body, ciphertext = header ++ body /\ blen header = c_shmac_bytes c + c_salt_bytes c + c_iv_bytes c.
