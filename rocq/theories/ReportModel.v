(** * ReportModel: encrypted reports of security issues,
    [aiootp/__engagement/issue_reporting.py].

    What the user types is a list of answers, in the order in which they are
    asked for; an answer that is missing is the EOFError of [input].  The
    encrypted databases of all users are one map from credentials to what is
    saved; that such a database keeps what is saved is the subject of
    ProfileModel.v and DbModel.v.  Printed explanations are left out. *)

From Verif Require Import Base CanonModel TransformModel ClockModel KdfModel CurveModel CipherModel.
Local Open Scope N_scope.

(** No counterpart: a Python [str] as a list of code points. *)
Definition text := list N.

Section Report.

(** No counterpart: the classes X25519PrivateKey and X25519PublicKey. *)
Variable C : curve.
(** No counterpart: hashlib.shake_128 and hashlib.sha3_256. *)
Variables shake_128 sha3_256 : hasher.
(** No counterpart: [Domains.KDF] and the constant of [DomainKDF], as in
    KdfModel.v. *)
Variables KDF_DOMAIN salt : bytes.
(** No counterpart: [Domains.USER], [Domains.SIV], [Domains.ENCRYPTION_KEY]. *)
Variables USER SIV ENCRYPTION_KEY : bytes.
(** No counterpart: ChaCha20Poly1305(key).encrypt(nonce, data,
    associated_data). *)
Variable seal : bytes -> bytes -> bytes -> bytes -> bytes.
(** No counterpart: the configuration of Chunky2048, as in CipherModel.v. *)
Variable c : cfg.
(** No counterpart: [str.lower] and [str.strip], [int(str)] or its ValueError,
    and [str.encode] with its UnicodeEncodeError. *)
Variable normal : text -> text.
Variable parse_int : text -> option Z.
Variable encode : text -> result bytes.

(** aiootp/__init__.py:34-36, the bytes of [__PUBLIC_X25519_KEY__]. *)
Variable aiootp_public_key : bytes.

(** The credentials of a database, issue_reporting.py:96-102: email address,
    passphrase and megabytes. *)
Definition credentials := (bytes * bytes * Z)%type.

(** [Database.generate_profile] with these credentials raises, or opens a
    database whose [make_token] encrypts under its keys (with random coins).
    No counterpart: see ProfileModel.v and CipherModel.v. *)
Variable refused : credentials -> option exn.
Variable make_token : credentials -> coins -> bytes -> result bytes.

(** No counterpart: what the databases hold on disk, for the tag
    [CONVERSATION]: the list [PERIOD_KEYS], or nothing. *)
Definition store := credentials -> option (list bytes).

(** No counterpart: equality of credentials. *)
Definition same (a b : credentials) : bool :=
  match a, b with
  | (e, p, m), (e', p', m') => bytes_eqb e e' && bytes_eqb p p' && Z.eqb m m'
  end.

(** No counterpart: a map with one value replaced. *)
Definition put (st : store) (cr : credentials) (l : list bytes) : store :=
  fun cr' => if same cr' cr then Some l else st cr'.

(** issue_reporting.py:38-43 and 73-76, [.lower().strip().startswith(x)] for a
    letter [x]. *)
Definition starts (x : N) (answer : text) : bool :=
  match normal answer with
  | a :: _ => a =? x
  | [] => false
  end.

(** No counterpart: the letters y and n. *)
Definition letter_y : N := 121.
(** No counterpart: the letters y and n. *)
Definition letter_n : N := 110.

(** issue_reporting.py:70-86, the loop that asks for megabytes; [mb] is the
    answer to the first question. *)
Fixpoint choose_mb (mb : text) (answers : list text) {struct answers} : result (Z * list text) :=
  match parse_int mb with
  | None =>
      match answers with
      | [] => Err OtherErr
      | mb :: answers => choose_mb mb answers
      end
  | Some z =>
      let mb := Z.max z 1 in
      match answers with
      | [] => Err OtherErr
      | confirmation :: answers =>
          if starts letter_n confirmation then
            match answers with
            | [] => Err OtherErr
            | mb :: answers => choose_mb mb answers
            end
          else Ok (mb, answers)
      end
  end.

(** issue_reporting.py:157-162, the four fields that are printed as JSON; the
    layout of the text is not modelled. *)
Record report := {
  rp_date : bytes;
  rp_public_key : bytes;
  rp_siv : bytes;
  rp_encrypted_message : bytes
}.

(** issue_reporting.py:105-115: a new list if there is none, the last three of the
    old keys ([deque(.., maxlen=3)]), and the new one. *)
Definition period_keys (old : option (list bytes)) (token : bytes) : list bytes :=
  let l := match old with Some l => l | None => [] end in
  skipn (length l - 3) l ++ [token].

(** issue_reporting.py:131-136, the padded message; [lines] are those of standard
    input. *)
Definition make_message (r : coins) (email : bytes) (lines : list text) : result bytes :=
  typed <- fold_right (fun line rest => x <- encode line ;; y <- rest ;; Ok (x ++ y)) (Ok []) lines ;;
  packed <- canonical_pack [email; typed] 1 zero_pad INT_BYTES ;;
  pad_plaintext c (r_now r) (r_siv r) (r_extra r) packed.

(** issue_reporting.py:138-162, keys and encryption. *)
Definition make_report (r : coins) (public raw_shared_key message : bytes) : result report :=
  date <- make_timestamp {| ck_unit := Days; ck_epoch := EPOCH_NS |} (r_now r) 4 BigEndian ;;
  shared_kdf <- new_kdf shake_128 KDF_DOMAIN salt USER [date; public; aiootp_public_key] raw_shared_key ;;
  siv <- run_kdf shake_128 sha3_256 shared_kdf [message] None SIV ;;
  key <- run_kdf shake_128 sha3_256 shared_kdf [siv] None ENCRYPTION_KEY ;;
  let encrypted_message := seal key (take 12 siv) message siv in
  Ok {| rp_date := bytes_to_urlsafe date;
        rp_public_key := bytes_to_urlsafe public;
        rp_siv := bytes_to_urlsafe siv;
        rp_encrypted_message := bytes_to_urlsafe encrypted_message |}.

(** issue_reporting.py:34-169, [report_security_issue].  [s] is the secret key
    that is generated, [r'] and [r] are the random values and times of
    the token and of the message.  An exception in the [with db] block goes on after
    the database is saved (databases/sync_database.py:794-806).  The result is [None] if the user does not want to
    report anything. *)
Definition report_security_issue (answers lines : list text) (s : secret C) (r r' : coins) (st : store)
    : store * result (option report) :=
  match answers with
  | [] => (st, Err OtherErr)
  | want :: answers =>
      if negb (starts letter_y want) then (st, Ok None)
      else
        let '(your_public_key, made) := generate C (new_key C) s in
        match (_ <- made ;; exchange C your_public_key (PBytes aiootp_public_key)) with
        | Err e => (st, Err e)
        | Ok raw_shared_key =>
            match answers with
            | [] => (st, Err OtherErr)
            | mb :: answers =>
                match choose_mb mb answers with
                | Err e => (st, Err e)
                | Ok (mb, email :: passphrase :: _) =>
                    match (e <- encode email ;; p <- encode passphrase ;; Ok (e, p)) with
                    | Err e => (st, Err e)
                    | Ok (email, passphrase) =>
                        let cr := (email, passphrase, mb) in
                        match refused cr with
                        | Some e => (st, Err e)
                        | None =>
                            match (x <- secret_bytes C your_public_key ;; make_token cr r' x) with
                            | Err e => (put st cr (match st cr with Some l => skipn (length l - 3) l | None => [] end), Err e)
                            | Ok token =>
                                (put st cr (period_keys (st cr) token),
                                 public <- public_bytes C your_public_key ;;
                                 message <- make_message r email lines ;;
                                 x <- make_report r public raw_shared_key message ;;
                                 Ok (Some x))
                            end
                        end
                    end
                | Ok (mb, _) => (st, Err OtherErr)
                end
            end
        end
  end.

End Report.
