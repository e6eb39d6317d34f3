(** * Databases: specification

    An abstract database knows nothing of files, names and encryption: it has a
    cached and a stored value for each tag, the list of tags, and the list of
    tags as it was at the last save. *)
From Verif Require Import Base DbModel.
Local Open Scope nat_scope.

Section Spec.
Variable json : Type.
Variable dumps : json -> result bytes.
Variable loads : bytes -> result json.
Notation value := (value json).
Notation op := (op json).
Notation reply := (reply json).

(** A value as it comes back from its serialisation; e.g. json turns the keys of
    a dict into strings. *)
Definition reload (v : value) : result value :=
  match v with
  | Bytes _ b => Ok (Bytes _ b)
  | Json _ j => x <- dumps j ;; j' <- loads x ;; Ok (Json _ j')
  end.
(** The value that comes back; the value itself if it cannot be stored. *)
Definition kept (v : value) : value := match reload v with Ok v' => v' | Err _ => v end.
Definition storable (v : value) : Prop := exists v', reload v = Ok v'.

Record adb := {
  cached : bytes -> option value;
  stored : bytes -> option value;
  listed : list bytes;
  ledger : option (list bytes);
}.

Definition mem (t : bytes) (l : list bytes) : bool := existsb (bytes_eqb t) l.
Definition add_tag (t : bytes) (l : list bytes) : list bytes := if mem t l then l else l ++ [t].
Definition remove_tag (t : bytes) (l : list bytes) : list bytes := filter (fun u => negb (bytes_eqb t u)) l.
Definition assign (t : bytes) (x : option value) (f : bytes -> option value) : bytes -> option value :=
  fun u => if bytes_eqb u t then x else f u.

(** The current value of a tag. *)
Definition current (a : adb) (t : bytes) : option value :=
  match cached a t with Some v => Some v | None => stored a t end.

Fixpoint load_all (l : list bytes) (silent : bool) (a : adb) : reply * adb :=
  match l with
  | [] => (Done _, a)
  | t :: l =>
    match current a t with
    | Some v => load_all l silent {| cached := assign t (Some v) (cached a); stored := stored a; listed := listed a; ledger := ledger a |}
    | None => if silent then load_all l silent a else (Raised _ LookupErr, a)
    end
  end.

Definition astep (set_order : list bytes -> list bytes) (o : op) (a : adb) : reply * adb :=
  match o with
  | SetTag _ t v true =>
    (Done _, {| cached := assign t (Some v) (cached a); stored := stored a;
                listed := add_tag t (listed a); ledger := ledger a |})
  | SetTag _ t v false =>
    (Done _, {| cached := assign t None (cached a); stored := assign t (Some (kept v)) (stored a);
                listed := add_tag t (listed a); ledger := ledger a |})
  | QueryTag _ t silent keep =>
    match current a t with
    | Some v =>
      (Got _ (Some v),
       if keep then {| cached := assign t (Some v) (cached a); stored := stored a;
                       listed := listed a; ledger := ledger a |} else a)
    | None => (if silent then Got _ None else Raised _ LookupErr, a)
    end
  | GetItem _ t => (Got _ (cached a t), a)
  | PopTag _ t silent =>
    (match current a t with
     | Some v => Got _ (Some v)
     | None => if silent || mem t (listed a) then Got _ None else Raised _ LookupErr
     end,
     {| cached := assign t None (cached a); stored := assign t None (stored a);
        listed := remove_tag t (listed a); ledger := ledger a |})
  | DelItem _ t =>
    (Done _, {| cached := assign t None (cached a); stored := assign t None (stored a);
                listed := remove_tag t (listed a); ledger := ledger a |})
  | RollbackTag _ t keep =>
    (Done _, {| cached := assign t (if keep then stored a t else None) (cached a); stored := stored a;
                listed := match stored a t with Some _ => listed a | None => remove_tag t (listed a) end;
                ledger := ledger a |})
  | ClearCache _ => (Done _, {| cached := fun _ => None; stored := stored a; listed := listed a; ledger := ledger a |})
  | SaveTag _ t drop =>
    match cached a t with
    | Some v =>
      (Done _, {| cached := if drop then assign t None (cached a) else cached a;
                  stored := assign t (Some (kept v)) (stored a); listed := listed a; ledger := ledger a |})
    | None => (Raised _ LookupErr, a)
    end
  | SaveDatabase _ =>
    (Done _, {| cached := cached a;
                stored := fun t => match cached a t with Some v => Some (kept v) | None => stored a t end;
                listed := listed a; ledger := Some (listed a) |})
  | LoadTags _ silent => load_all (set_order (listed a)) silent a
  | Contains _ t => (Truth _ (mem t (listed a) || match cached a t with Some _ => true | None => false end), a)
  | Length _ => (Size _ (length (listed a)), a)
  end.

Fixpoint arun (set_order : list bytes -> list bytes) (os : list op) (a : adb) : list reply * adb :=
  match os with
  | [] => ([], a)
  | o :: os => let '(r, a1) := astep set_order o a in let '(rs, a2) := arun set_order os a1 in (r :: rs, a2)
  end.

(** An empty database; and what another process that opens it has. *)
Definition empty : adb := {| cached := fun _ => None; stored := fun _ => None; listed := []; ledger := None |}.
Definition reopened (a : adb) (l : list bytes) : adb :=
  {| cached := fun _ => None; stored := stored a; listed := l; ledger := Some l |}.

(** Opening: optionally with every listed tag loaded. *)
Definition aopen (set_order : list bytes -> list bytes) (silent preload : bool) (a : adb) (l : list bytes) : reply * adb :=
  if preload then load_all (set_order l) silent (reopened a l) else (Done _, reopened a l).

(** A life that opens the database again only once it has been saved; what
    happens otherwise is the subject of C45. *)
Fixpoint alife (set_order : list bytes -> list bytes) (es : list (event json)) (a : adb) : list reply :=
  match es with
  | [] => []
  | Op _ o :: es => let '(r, a1) := astep set_order o a in r :: alife set_order es a1
  | Reopen _ silent preload :: es =>
    match ledger a with
    | None => []
    | Some l =>
      match aopen set_order silent preload a l with
      | (Done _, a1) => Done _ :: alife set_order es a1
      | (r, _) => [r]
      end
    end
  end.
Fixpoint saved_first (es : list (event json)) : Prop :=
  match es with
  | [] => True
  | Op _ (SaveDatabase _) :: _ => True
  | Op _ _ :: es => saved_first es
  | Reopen _ _ _ :: _ => False
  end.

(** The tags an operation names, and the values it stores. *)
Definition op_tag (o : op) : option bytes :=
  match o with
  | SetTag _ t _ _ | QueryTag _ t _ _ | GetItem _ t | PopTag _ t _ | DelItem _ t | RollbackTag _ t _
  | SaveTag _ t _ | Contains _ t => Some t
  | _ => None
  end.
Definition op_ok (U : list bytes) (o : op) : Prop :=
  (forall t, op_tag o = Some t -> In t U) /\
  (forall t v keep, o = SetTag _ t v keep -> storable v).

Definition event_ok (U : list bytes) (e : event json) : Prop :=
  match e with Op _ o => op_ok U o | Reopen _ _ _ => True end.

(** Operations that leave the current value of a tag alone, whatever they do to
    others. *)
Definition leaves (t : bytes) (o : op) : Prop :=
  match o with
  | SetTag _ u _ _ | PopTag _ u _ | DelItem _ u | RollbackTag _ u _ | SaveTag _ u true => u <> t
  | ClearCache _ => False
  | _ => True
  end.

(** Operations that leave the files alone. *)
Definition unsaved (o : op) : Prop :=
  match o with
  | SetTag _ _ _ keep => keep = true
  | PopTag _ _ _ | DelItem _ _ | SaveTag _ _ _ | SaveDatabase _ => False
  | _ => True
  end.

End Spec.

(** What the cipher, the manifest's serialisation and json are relied on for: only
    for one key, the salts that are generated, and the tags [U]. *)
Record storage_laws {json key : Type} (dumps : json -> result bytes) (loads : bytes -> result json)
    (filename_of : key -> bytes -> bytes -> bytes)
    (encrypt : nat -> key -> bytes -> bytes -> bytes -> bytes) (decrypt : key -> bytes -> bytes -> bytes -> result bytes)
    (encrypt_manifest : nat -> key -> bytes -> bytes) (decrypt_manifest : key -> bytes -> result bytes)
    (new_salt : nat -> bytes)
    (manifest_text : manifest -> bytes) (manifest_of_text : bytes -> result manifest)
    (kk : key) (U : list bytes) : Prop := {
  law_decrypt : forall i j t x, In t U ->
    decrypt kk (new_salt j) (filename_of kk (new_salt j) t) (encrypt i kk (new_salt j) (filename_of kk (new_salt j) t) x) = Ok x;
  law_nonempty : forall i j t x, In t U -> encrypt i kk (new_salt j) (filename_of kk (new_salt j) t) x <> [];
  law_manifest : forall i x, decrypt_manifest kk (encrypt_manifest i kk x) = Ok x;
  law_text : forall m j, m_salt m = new_salt j -> m_metatags m = [] ->
    (forall n t, In (n, t) (m_tags m) -> In t U /\ n = filename_of kk (new_salt j) t /\ n <> [x30] /\ n <> [x31]) ->
    NoDup (map fst (m_tags m)) -> manifest_of_text (manifest_text m) = Ok m;
  law_json : forall j x, dumps j = Ok x -> firstn 2 x <> [x01; x02];
  law_again : forall j x j', dumps j = Ok x -> loads x = Ok j' -> exists x', dumps j' = Ok x' /\ loads x' = Ok j';
}.

(** No two of the tags share a file name, none has the manifest's, and none is
    called like the manifest's own entries. *)
Definition distinct_names {key : Type} (root_filename : key -> bytes) (filename_of : key -> bytes -> bytes -> bytes)
    (k : key) (s : bytes) (U : list bytes) : Prop :=
  (forall t u, In t U -> In u U -> filename_of k s t = filename_of k s u -> t = u) /\
  (forall t, In t U -> filename_of k s t <> root_filename k /\ filename_of k s t <> [x30] /\ filename_of k s t <> [x31]).

(** A directory without files of the database. *)
Definition no_files {key : Type} (root_filename : key -> bytes) (filename_of : key -> bytes -> bytes -> bytes)
    (k : key) (s : bytes) (U : list bytes) (f : files) : Prop :=
  f (root_filename k) = None /\ forall t, In t U -> f (filename_of k s t) = None.
