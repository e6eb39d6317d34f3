(** * Model of the signing service and of the script that uses it

    sign_package_service.py and sign_package_build.py, at the root of /repo.  The ciphers,
    the encodings, JSON and the package signer are the models of CipherModel, CanonModel,
    JsonModel, LoadsModel and PackageModel. *)
From Coq Require Import Strings.String.
From Verif Require Import Base CanonModel GentoolsModel KdfModel CipherModel StrModel JsonModel LoadsModel CurveModel PackageModel StoreModel.
Import ListNotations.
Open Scope list_scope.
Local Open Scope N_scope.

(** ** Sockets *)

(** What ends a call: an exception of the socket, [KeyboardInterrupt] or [SystemExit], or another
    exception. As listed in sign_package_service.py 60-84. *)
Inductive problem :=
| Aborted          (* ConnectionAbortedError *)
| Reset            (* ConnectionResetError *)
| TimedOut         (* socket.timeout *)
| BrokenPipe       (* BrokenPipeError *)
| Interrupted      (* KeyboardInterrupt, SystemExit *)
| Raised (e : exn).
(** No counterpart: a result, or what ended the call. *)
Inductive got (A : Type) := Got (a : A) | Fails (p : problem).
Arguments Got {A} a.
Arguments Fails {A} p.
(** No counterpart: exceptions of library functions. *)
Definition lift {A} (r : result A) : got A := match r with Ok a => Got a | Err e => Fails (Raised e) end.

(** What the network brings to one end of a channel: pieces of the stream, or an exception of
    [recv]. At the end of the list the other end has closed the channel. No counterpart: the
    operating system. *)
Inductive arrival := Piece (b : bytes) | Trouble (p : problem).
(** [channel.recv(n)], with [n] not 0. No counterpart: the operating system. *)
Fixpoint recv (n : N) (l : list arrival) : list arrival * got bytes :=
  match l with
  | [] => ([], Got [])
  | Piece [] :: l => recv n l
  | Piece b :: l => (if n <? blen b then Piece (drop n b) :: l else l, Got (take n b))
  | Trouble p :: l => (l, Fails p)
  end.

(** sign_package_service.py 54. *)
Definition MAX_BUFFER : N := 8192.
(** sign_package_service.py 184-200 [buffer_recv]: the loop.  Every round but the last receives
    at least one byte, so that one round more than there are bytes is enough. *)
Fixpoint receive (rounds : nat) (size : N) (buffer : bytes) (l : list arrival) : list arrival * got bytes :=
  if blen buffer <? size then
    match rounds with
    | O => (l, Fails Aborted)
    | S rounds =>
        match recv (N.min (size - blen buffer) MAX_BUFFER) l with
        | (l, Fails p) => (l, Fails p)
        | (l, Got []) => (l, Fails Aborted)
        | (l, Got b) => receive rounds size (buffer ++ b) l
        end
    end
  else (l, Got buffer).
(** No counterpart: the number of bytes that may arrive. *)
Fixpoint pending (l : list arrival) : nat :=
  match l with [] => O | Piece b :: l => (List.length b + pending l)%nat | Trouble _ :: l => pending l end.
(** sign_package_service.py 184-200 [buffer_recv]. *)
Definition buffer_recv (size : N) (l : list arrival) : list arrival * got bytes := receive (S (pending l)) size [] l.

(** Calls of [channel.sendall], one after another. The list says which of the calls raise what;
    those beyond its end succeed. Nothing is recorded of what a failing call has sent. What was
    sent is the second component. sign_package_service.py 211-214. *)
Fixpoint send_all (parts : list bytes) (net : list (option problem)) : bytes * got unit :=
  match parts with
  | [] => ([], Got tt)
  | x :: parts =>
      match net with
      | Some p :: _ => ([], Fails p)
      | _ => let '(sent, r) := send_all parts (tl net) in (x ++ sent, r)
      end
  end.
(** sign_package_service.py 203-215 [buffer_send]. *)
Definition buffer_send (data : bytes) (net : list (option problem)) : bytes * got unit :=
  match to_bytes_be 8 (blen data) with
  | Err e => ([], Fails (Raised e))
  | Ok size => send_all (size :: batch data MAX_BUFFER) net
  end.
(** sign_package_service.py 228-229; sign_package_build.py 204-205: the length, then as many bytes. *)
Definition recv_message (l : list arrival) : list arrival * got bytes :=
  match buffer_recv 8 l with
  | (l, Fails p) => (l, Fails p)
  | (l, Got size) => buffer_recv (be_int size) l
  end.

(** ** Texts *)

(** [json.dumps(..., indent=4)], which separates with a comma and a new line. No counterpart: part
    of the standard library, [json.encoder._make_iterencode]; called in sign_package_service.py
    248. *)
Definition new_line (level : nat) : str := 10 :: repeat 32 (4 * level).
(** No counterpart: as [dumps] of JsonModel.v, with an indentation of 4. *)
Fixpoint dumps4 (level : nat) (v : json) : str :=
  match v with
  | JArr [] => [91; 93]
  | JArr l => 91 :: new_line (S level) ++ intercalate (44 :: new_line (S level)) (map (dumps4 (S level)) l) ++ new_line level ++ [93]
  | JObj [] => [123; 125]
  | JObj l => 123 :: new_line (S level) ++
      intercalate (44 :: new_line (S level)) (map (fun '(k, v) => dumps_str k ++ [58; 32] ++ dumps4 (S level) v) l) ++ new_line level ++ [125]
  | _ => dumps v
  end.
(** [json.dumps(..., indent=4).encode()]. sign_package_service.py 248. *)
Definition dumps4_bytes (v : json) : bytes := ascii_encode (dumps4 0 v).
(** [bool(v)] of a JSON value; a float is represented by its text, as [repr] gives it: other texts of zero are not
    recognized. For package_signer.py 161. *)
Definition truthy (v : json) : bool :=
  match v with
  | JNull => false
  | JBool b => b
  | JInt z => negb (z =? 0)%Z
  | JFloat r => negb (str_eqb r (lit "0.0") || str_eqb r (lit "-0.0"))
  | JStr s => negb (str_eqb s [])
  | JArr l => match l with [] => false | _ => true end
  | JObj l => match l with [] => false | _ => true end
  end.

(** [b"build_signature_request"]: RECV_AAD in sign_package_service.py 55, SEND_AAD in
    sign_package_build.py 62. *)
Definition REQUEST_AAD : bytes := ascii_encode (lit "build_signature_request").
(** [b"provided_build_signature"]: SEND_AAD in sign_package_service.py 56, RECV_AAD in
    sign_package_build.py 63. *)
Definition RESPONSE_AAD : bytes := ascii_encode (lit "provided_build_signature").
(** sign_package_service.py 52: 2.0 seconds. *)
Definition TTL : Z := 2.
(** canon.py 209-251 with its defaults, as called in sign_package_service.py 263 and
    sign_package_build.py 184-187, 206. *)
Definition pack (items : list bytes) : result bytes := canonical_pack items 1 [x00] 8.

Section Service.
Variable C : curve.
Variable sha384 : bytes -> bytes.
Variable read_token : str -> str -> result bytes.
Variable H : hasher.
Variable cfg : cfg.
(** [aiootp.__package__]. *)
Variable the_package : str.

(** ** The service *)

(** One client: what arrives on its channel, what becomes of the calls of [sendall], what
    [get_transmit_key] returns, and the time and the randomness that the ciphers and the signer
    use. No counterpart: the environment. *)
Record client := {
  arrivals : list arrival;
  sendings : list (option problem);
  transmit_key : result bytes;
  now : Z;
  unused_salt : bytes;
  today : Z;
  drawn : coins;
}.

(** sign_package_service.py 218-232 [get_and_parse_request]. *)
Definition get_and_parse_request (ks : kdfs) (c : client) : got (bytes * json * json) :=
  match recv_message (arrivals c) with
  | (_, Fails p) => Fails p
  | (_, Got request) =>
      lift (signing_request <- bytes_decrypt H cfg ks (unused_salt c) (now c) request REQUEST_AAD (Some TTL) ;;
            items <- canonical_unpack signing_request ;;
            match items with
            | [scope; files] =>
                scope <- loads_bytes scope ;;
                files <- loads_bytes files ;;
                Ok (take (header_bytes cfg) request, scope, files)
            | _ => Err ValueErr
            end)
  end.

(** [signer.__init__] with keyword arguments, on an object that exists: package_signer.py 146-163, 41-55.
    The files are replaced first; the database stays connected. *)
Definition reinit (scope : list (str * json)) (today : Z) (w : world) : world * result unit :=
  match dict_get str_eqb scope (lit "self"), dict_get str_eqb scope PACKAGE, dict_get str_eqb scope VERSION with
  | None, Some package, Some version =>
      let w := set_files w [] in
      let date := match dict_get str_eqb scope DATE with
                  | Some d => if truthy d then d else JInt today
                  | None => JInt today
                  end in
      let extras := filter (fun kv => negb (existsb (str_eqb (fst kv)) [PACKAGE; VERSION; DATE])) scope in
      match ns_update [] extras with
      | (_, Err e) => (w, Err e)
      | (s, Ok _) =>
          match ns_update s [(PACKAGE, package); (VERSION, version); (DATE, date)] with
          | (_, Err e) => (w, Err e)
          | (s, Ok _) => (set_scope w s, Ok tt)
          end
      end
  | _, _, _ => (w, Err TypeErr)
  end.
(** [signer.files.update(files)], slots.py 308-324.  Only dicts whose values are strings are modelled: others
    are refused here, although the signer would take what [dict()] takes, and any values. *)
Fixpoint strings (l : list (str * json)) : option (list (str * str)) :=
  match l with
  | [] => Some []
  | (k, JStr s) :: l => match strings l with Some l => Some ((k, s) :: l) | None => None end
  | _ => None
  end.
(** sign_package_service.py 246, slots.py 308-324. *)
Definition add_files (files : json) (w : world) : world * result unit :=
  match files with
  | JObj l =>
      match strings l with
      | Some l => let '(f, r) := ns_update (w_files w) l in (set_files w f, r)
      | None => (w, Err TypeErr)
      end
  | _ => (w, Err TypeErr)
  end.
(** sign_package_service.py 235-248 [produce_signed_summary]. *)
Definition produce_signed_summary (scope : list (str * json)) (files : json) (today : Z) (w : world) : world * result bytes :=
  match reinit scope today w with
  | (w, Err e) => (w, Err e)
  | (w, Ok _) =>
      match add_files files w with
      | (w, Err e) => (w, Err e)
      | (w, Ok _) =>
          match sign_package C sha384 read_token w with
          | (w, Err e) => (w, Err e)
          | (w, Ok _) => (w, s <- summarize C sha384 read_token w ;; Ok (dumps4_bytes (JObj s)))
          end
      end
  end.
(** sign_package_service.py 251-265 [send_packaged_response]. *)
Definition send_packaged_response (ks : kdfs) (header summary : bytes) (c : client) : bytes * got unit :=
  match (aad <- pack [RESPONSE_AAD; header] ;; bytes_encrypt H cfg ks (drawn c) summary None aad) with
  | Err e => ([], Fails (Raised e))
  | Ok response => buffer_send response (sendings c)
  end.
(** sign_package_service.py 286: [scope["package"] != __package__], of a JSON value. *)
Definition right_package (scope : json) : result (list (str * json)) :=
  match scope with
  | JObj l =>
      match dict_get str_eqb l PACKAGE with
      | Some (JStr p) => if str_eqb p the_package then Ok l else Err ValueErr
      | Some _ => Err ValueErr
      | None => Err KeyErr
      end
  | _ => Err TypeErr
  end.
(** sign_package_service.py 281-290: the body of the [try] statement: the signer, what was sent, and
    how it ended. *)
Definition serve (c : client) (w : world) : world * bytes * got unit :=
  match lift (key <- transmit_key c ;; make_cipher H cfg key) with
  | Fails p => (w, [], Fails p)
  | Got ks =>
      match get_and_parse_request ks c with
      | Fails p => (w, [], Fails p)
      | Got (header, scope, files) =>
          match right_package scope with
          | Err e => (w, [], Fails (Raised e))
          | Ok scope =>
              match produce_signed_summary scope files (today c) w with
              | (w, Err e) => (w, [], Fails (Raised e))
              | (w, Ok summary) =>
                  let '(sent, r) := send_packaged_response ks header summary c in (w, sent, r)
              end
          end
      end
  end.

(** Which exceptions are instances of [ValueError], of those the models raise. _exceptions.py
    250-310, 368; [binascii.Error] and [JSONDecodeError] are, too. *)
Definition value_error (e : exn) : bool :=
  match e with
  | ValueErr | InvalidLength | BinasciiErr | CanonicalEncodingError _ | InvalidCiphertextSize | InvalidSHMAC
  | InvalidBlockID | InvalidDigest | InvalidPassphrase | ImproperPassphrase | UnpackErr => true
  | _ => false
  end.
(** What the [except] clauses do. sign_package_service.py 291-300. *)
Inductive reaction := GoOn | Leave | Escape.
(** sign_package_service.py 66-84, 291-298.  [TimestampExpired] is a [TimeoutError]. *)
Definition react (p : problem) : reaction :=
  match p with
  | Interrupted => Leave
  | Aborted | Reset | TimedOut => GoOn
  | BrokenPipe => Escape
  | Raised TypeErr | Raised (TimestampExpired _) => GoOn
  | Raised e => if value_error e then GoOn else Escape
  end.

(** What [server.accept()] gives: a channel, or an exception. sign_package_service.py 277-280. *)
Inductive visit := Comes (c : client) | NoOne (p : problem).
(** What the service does to channels, in order. sign_package_service.py 278, 265, 300. *)
Inductive deed := Accepts | Sends (b : bytes) | Closes.
(** How the loop ends: it is still waiting, it was left, or an exception escaped. sign_package_service.py
    276-300. *)
Inductive ending := Waiting | Left | Died (p : problem).
(** sign_package_service.py 60-65: exceptions of [accept] that end the loop. *)
Definition idle_shutdown (p : problem) : bool :=
  match p with Interrupted | TimedOut | Raised (TimestampExpired _) => true | _ => false end.
(** sign_package_service.py 268-300 [signing_service_loop]. *)
Fixpoint service_loop (vs : list visit) (w : world) : world * list deed * ending :=
  match vs with
  | [] => (w, [], Waiting)
  | NoOne p :: _ => (w, [], if idle_shutdown p then Left else Died p)
  | Comes c :: vs =>
      let '(w, sent, r) := serve c w in
      let deeds := [Accepts; Sends sent; Closes] in
      match r with
      | Got _ => let '(w, ds, e) := service_loop vs w in (w, deeds ++ ds, e)
      | Fails p =>
          match react p with
          | GoOn => let '(w, ds, e) := service_loop vs w in (w, deeds ++ ds, e)
          | Leave => (w, deeds, Left)
          | Escape => (w, deeds, Died p)
          end
      end
  end.

(** ** The script *)

(** sign_package_build.py 170-190 [send_request]: the request, and its header. *)
Definition make_request (ks : kdfs) (r : coins) (scope files : json) : result bytes :=
  scope <- dumps_value scope ;;
  files <- dumps_value files ;;
  signing_request <- pack [scope; files] ;;
  bytes_encrypt H cfg ks r signing_request None REQUEST_AAD.
(** sign_package_build.py 170-190 [send_request]: what is sent, and the header. *)
Definition send_request (ks : kdfs) (r : coins) (scope files : json) (net : list (option problem)) : bytes * got bytes :=
  match make_request ks r scope files with
  | Err e => ([], Fails (Raised e))
  | Ok request =>
      match buffer_send request net with
      | (sent, Fails p) => (sent, Fails p)
      | (sent, Got _) => (sent, Got (take (header_bytes cfg) request))
      end
  end.
(** sign_package_build.py 193-207 [recv_response]. *)
Definition recv_response (ks : kdfs) (header : bytes) (unused_salt : bytes) (now : Z) (l : list arrival) : got bytes :=
  match recv_message l with
  | (_, Fails p) => Fails p
  | (_, Got response) =>
      lift (aad <- pack [RESPONSE_AAD; header] ;; bytes_decrypt H cfg ks unused_salt now response aad (Some TTL))
  end.

(** [str.strip()]: the whitespace of Python. No counterpart: part of the standard library. *)
Definition blank (c : N) : bool :=
  (9 <=? c) && (c <=? 13) || (28 <=? c) && (c <=? 32) || (c =? 133) || (c =? 160) || (c =? 5760) ||
  (8192 <=? c) && (c <=? 8202) || (c =? 8232) || (c =? 8233) || (c =? 8239) || (c =? 8287) || (c =? 12288).
(** No counterpart: [str.lstrip()]. *)
Fixpoint lstrip (s : str) : str :=
  match s with
  | c :: r => if blank c then lstrip r else s
  | [] => []
  end.
(** No counterpart: [str.strip()]. *)
Definition strip (s : str) : str := rev (lstrip (rev (lstrip s))).
(** [s.split("\n")]. No counterpart: part of the standard library. *)
Fixpoint split_lines (s : str) : list str :=
  match s with
  | [] => [[]]
  | c :: r =>
      if c =? 10 then [] :: split_lines r
      else match split_lines r with
           | l :: ls => (c :: l) :: ls
           | [] => [[c]]
           end
  end.
(** No counterpart: [s.startswith(t)]. *)
Fixpoint starts_with (t s : str) : bool :=
  match t, s with
  | [], _ => true
  | a :: t, b :: s => (a =? b) && starts_with t s
  | _, [] => false
  end.
(** [part in s], for strings. No counterpart: part of the standard library. *)
Fixpoint contains (part s : str) : bool :=
  starts_with part s || match s with [] => false | _ :: s => contains part s end.

(** sign_package_build.py 67-71. *)
Definition MANIFEST_EXCLUDES : list str := map lit [".github/"; "aiootp/db/"; "aiootp/tor/"]%string.
(** sign_package_build.py 73. *)
Definition MANIFEST_FILENAME : str := lit "MANIFEST.in".
(** sign_package_build.py 74. *)
Definition SIGNATURE_FILENAME : str := lit "SIGNATURE.txt".
(** sign_package_build.py 139-146: the lines of the manifest, and the files with their hashes. *)
Fixpoint take_inventory (read : str -> result bytes) (lines : list str) (manifest : str) (files : list (str * str))
    : result (str * list (str * str)) :=
  match lines with
  | [] => Ok (manifest, files)
  | line :: lines =>
      let filename := strip line in
      if str_eqb filename [] then take_inventory read lines manifest files
      else
        let manifest :=
          if existsb (fun part => contains part filename) MANIFEST_EXCLUDES then manifest
          else manifest ++ lit "include " ++ filename ++ [10] in
        if existsb (str_eqb filename) [MANIFEST_FILENAME; SIGNATURE_FILENAME] then take_inventory read lines manifest files
        else
          data <- read filename ;;
          take_inventory read lines manifest (dict_set str_eqb files filename (hex (sha384 data)))
  end.
(** sign_package_build.py 125-150 [discover_file_inventory]. *)
Definition discover_file_inventory (read : str -> result bytes) (git_branch_tree : str) : result (bytes * list (str * str)) :=
  ' (manifest, files) <- take_inventory read (split_lines git_branch_tree) [] [] ;;
  let manifest := utf8 manifest in
  Ok (manifest, dict_set str_eqb files MANIFEST_FILENAME (hex (sha384 manifest))).
End Service.
