(** * Model of aiootp/databases/sync_database.py and database_properties.py:
    one database object (without its metatags) and the files of its directory.

    [AsyncDatabase] repeats the same statements with event-loop switches; where
    it gathers tasks the order of the file operations is not fixed (see
    [save_tags]).  Values are immutable here: a caller who mutates a cached list
    or dict in place changes the cached value, which is a new [set_tag] here. *)
From Verif Require Import Base.
Local Open Scope nat_scope.

(** Ordered dictionaries: assignment keeps the position of a known name. *)
Section Dict.
Context {A : Type}.
(** The dictionaries of database_properties.py 38-48. *)
Definition dict := list (bytes * A).
(** No counterpart: [dict.get]. *)
Fixpoint get (n : bytes) (d : dict) : option A :=
  match d with
  | [] => None
  | (m, a) :: d => if bytes_eqb n m then Some a else get n d
  end.
(** No counterpart: assignment to a key. *)
Fixpoint put (n : bytes) (a : A) (d : dict) : dict :=
  match d with
  | [] => [(n, a)]
  | (m, b) :: d => if bytes_eqb n m then (n, a) :: d else (m, b) :: put n a d
  end.
(** No counterpart: [dict.pop]. *)
Fixpoint del (n : bytes) (d : dict) : dict :=
  match d with
  | [] => []
  | (m, b) :: d => if bytes_eqb n m then d else (m, b) :: del n d
  end.
(** No counterpart: [in]. *)
Definition has (n : bytes) (d : dict) : bool := match get n d with Some _ => true | None => false end.
End Dict.
Arguments dict : clear implicits.

Section Database.
(** JSON serialisable values and json.dumps / json.loads. *)
Variable json : Type.
Variable dumps : json -> result bytes.
Variable loads : bytes -> result json.

(** What sync_database.py 467-483 accepts. *)
Inductive value := Bytes (b : bytes) | Json (j : json).

(** The secrets of an object: [_root_kdf].  All names and keys are derived from
    it; see KdfModel for the derivation. *)
Variable key : Type.
(** database_properties.py 73-82 [_root_filename]. *)
Variable root_filename : key -> bytes.
(** sync_database.py 316-326 [filename], database_properties.py 130-140: from the
    root salt and the tag. *)
Variable filename_of : key -> bytes -> bytes -> bytes.
(** sync_database.py 328-346 [bytes_encrypt], 390-411 [bytes_decrypt] with the key
    for a salt and a file name, no time to live.  The number stands for
    the salt, IV, padding and time of the call. *)
Variable encrypt : nat -> key -> bytes -> bytes -> bytes -> bytes.
Variable decrypt : key -> bytes -> bytes -> bytes -> result bytes.
(** sync_database.py 701-710, 207-216: the same for the manifest. *)
Variable encrypt_manifest : nat -> key -> bytes -> bytes.
Variable decrypt_manifest : key -> bytes -> result bytes.
(** sync_database.py 226-231 [_generate_root_salt]. *)
Variable new_salt : nat -> bytes.

(** The manifest: "0" (root salt, kept decoded here), "1" (metatags; absent in
    none of the states written by this version) and the tag of each file name.
    A file name equal to "0" or "1" is not considered. *)
Record manifest := { m_salt : bytes; m_metatags : list bytes; m_tags : dict bytes }.
(** json.dumps / json.loads of the manifest. *)
Variable manifest_text : manifest -> bytes.
Variable manifest_of_text : bytes -> result manifest.

(** File operations and the directory; [clock] numbers the calls of the random number generator;
    [log] is the sequence of file operations so far. sync_database.py 459-465, 530-538, 712-718. *)
Inductive fileop := Write (n data : bytes) | Unlink (n : bytes).
(** No counterpart: the directory of the database. *)
Definition files := bytes -> option bytes.
(** No counterpart: the effect of a file operation. *)
Definition apply_op (o : fileop) (f : files) : files :=
  match o with
  | Write n data => fun m => if bytes_eqb m n then Some data else f m
  | Unlink n => fun m => if bytes_eqb m n then None else f m
  end.
(** No counterpart: the effect of file operations in order. *)
Definition replay (l : list fileop) (f : files) : files := fold_left (fun f o => apply_op o f) l f.
(** No counterpart: all that a database shares with the rest of the world. *)
Record world := { disk : files; log : list fileop; clock : nat }.
(** No counterpart: a file operation takes place. *)
Definition file_op (o : fileop) (w : world) : world :=
  {| disk := apply_op o (disk w); log := log w ++ [o]; clock := clock w |}.
(** No counterpart: the random number generator is used. *)
Definition tick (w : world) : world := {| disk := disk w; log := log w; clock := S (clock w) |}.

(** database_properties.py 38-48: the slots.  [_root_salt] and the manifest's
    entry are always equal. *)
Record db := { k : key; m : manifest; cache : dict value }.
(** No counterpart: a new cache. *)
Definition set_cache (d : db) (c : dict value) : db := {| k := k d; m := m d; cache := c |}.
(** No counterpart: new tags in the manifest. *)
Definition set_tags (d : db) (t : dict bytes) : db :=
  {| k := k d; m := {| m_salt := m_salt (m d); m_metatags := m_metatags (m d); m_tags := t |}; cache := cache d |}.
(** No counterpart: new metatags in the manifest. *)
Definition set_metatags (d : db) (t : list bytes) : db :=
  {| k := k d; m := {| m_salt := m_salt (m d); m_metatags := t; m_tags := m_tags (m d) |}; cache := cache d |}.

(** sync_database.py 218-224. *)
Definition salt (d : db) : bytes := m_salt (m d).
(** sync_database.py 316-326. *)
Definition filename (d : db) (tag : bytes) : bytes := filename_of (k d) (salt d) tag.

(** database_properties.py 101-112 [tags] (a set: the order is unspecified),
    158-162 [__len__], 142-148 [__contains__], 173-180 [__getitem__]. *)
Definition tags (d : db) : list bytes := map snd (m_tags (m d)).
(** database_properties.py 158-162 [__len__]. *)
Definition db_len (d : db) : nat := length (m_tags (m d)).
(** database_properties.py 142-148 [__contains__]. *)
Definition contains (d : db) (tag : bytes) : bool :=
  has (filename d tag) (m_tags (m d)) || has (filename d tag) (cache d).
(** database_properties.py 173-180 [__getitem__]. *)
Definition get_item (d : db) (tag : bytes) : option value := get (filename d tag) (cache d).

(** _constants/misc.py 28-29. *)
Definition BYTES_FLAG : bytes := [x01; x02].
(** sync_database.py 734-738 and 521-525. *)
Definition to_text (v : value) : result bytes :=
  match v with
  | Bytes b => Ok (BYTES_FLAG ++ b)
  | Json j => dumps j
  end.
(** sync_database.py 521-525. *)
Definition of_text (x : bytes) : result value :=
  if bytes_eqb (firstn 2 x) BYTES_FLAG then Ok (Bytes (skipn 2 x))
  else j <- loads x ;; Ok (Json j).

(** sync_database.py 729-740 [_save_file], 459-465 [_save_ciphertext]. *)
Definition save_file (d : db) (n : bytes) (w : world) : result unit * world :=
  match get n (cache d) with
  | None => (Err AttributeErr, w)
  | Some v =>
    match to_text v with
    | Err e => (Err e, w)
    | Ok x => (Ok tt, file_op (Write n (encrypt (clock w) (k d) (salt d) n x)) (tick w))
    end
  end.

(** sync_database.py 757-776 [save_tag]. *)
Definition save_tag (d : db) (tag : bytes) (drop_cache : bool) (w : world) : result unit * db * world :=
  let n := filename d tag in
  let '(r, w1) := save_file d n w in
  (match r with Err AttributeErr => Err LookupErr | r => r end,
   if drop_cache then set_cache d (del n (cache d)) else d, w1).

(** sync_database.py 467-483 [set_tag]; database_properties.py 164-171
    [__setitem__] is the case [cache = true]. *)
Definition set_tag (d : db) (tag : bytes) (data : value) (keep : bool) (w : world) : result unit * db * world :=
  let n := filename d tag in
  let d1 := set_tags (set_cache d (put n data (cache d))) (put n tag (m_tags (m d))) in
  if keep then (Ok tt, d1, w) else save_tag d1 tag true w.

(** sync_database.py 485-500 [_query_ciphertext], 502-528 [query_tag]. *)
Definition query_tag (d : db) (tag : bytes) (silent keep : bool) (w : world) : result (option value) * db :=
  let n := filename d tag in
  match get n (cache d) with
  | Some v => (Ok (Some v), d)
  | None =>
    match disk w n with
    | None => (if silent then Ok None else Err LookupErr, d)
    | Some [] => (Ok None, d)
    | Some ciphertext =>
      match decrypt (k d) (salt d) n ciphertext with
      | Err e => (Err e, d)
      | Ok x =>
        match of_text x with
        | Err e => (Err e, d)
        | Ok v => (Ok (Some v), if keep then set_cache d (put n v (cache d)) else d)
        end
      end
    end
  end.

(** pathlib.Path.unlink: a missing file raises. As used in sync_database.py 530-538. *)
Definition unlink (n : bytes) (w : world) : world :=
  match disk w n with Some _ => file_op (Unlink n) w | None => w end.
(** [Path.is_file], as used in sync_database.py 252-264. *)
Definition exists_file (n : bytes) (w : world) : bool := match disk w n with Some _ => true | None => false end.

(** sync_database.py 530-565 [_delete_file], [pop_tag]. *)
Definition pop_tag (d : db) (tag : bytes) (silent : bool) (w : world) : result (option value) * db * world :=
  let n := filename d tag in
  match fst (query_tag d tag true false w) with
  | Err e => (Err e, d, w)
  | Ok v =>
    let d1 := set_cache (set_tags d (del n (m_tags (m d)))) (del n (cache d)) in
    (if negb silent && negb (has n (m_tags (m d))) && negb (has n (cache d)) && negb (exists_file n w)
     then Err LookupErr else Ok v, d1, unlink n w)
  end.

(** database_properties.py 182-193 [__delitem__]. *)
Definition del_item (d : db) (tag : bytes) (w : world) : db * world :=
  let n := filename d tag in
  (set_cache (set_tags d (del n (m_tags (m d)))) (del n (cache d)), unlink n w).

(** sync_database.py 567-582 [rollback_tag]. *)
Definition rollback_tag (d : db) (tag : bytes) (keep : bool) (w : world) : result unit * db :=
  let n := filename d tag in
  let d1 := if exists_file n w then d else set_tags d (del n (m_tags (m d))) in
  let d2 := set_cache d1 (del n (cache d)) in
  if keep then
    let '(r, d3) := query_tag d2 tag false true w in
    (match r with Err LookupErr => Ok tt | Err e => Err e | Ok _ => Ok tt end, d3)
  else (Ok tt, d2).

(** sync_database.py 584-593 [clear_cache], without the metatags. *)
Definition clear_cache (d : db) : db := set_cache d [].

(** sync_database.py 701-727 [_close_manifest]. *)
Definition close_manifest (d : db) (w : world) : world :=
  file_op (Write (root_filename (k d)) (encrypt_manifest (clock w) (k d) (manifest_text (m d)))) (tick w).

(** sync_database.py 742-748 [_save_tags]; the first failure ends the loop.  In
    async_database.py [_asave_tags] the order is that of the event loop. *)
Fixpoint save_files (d : db) (l : list bytes) (w : world) : result unit * world :=
  match l with
  | [] => (Ok tt, w)
  | n :: l =>
    let '(r, w1) := save_file d n w in
    match r with Err e => (Err e, w1) | Ok _ => save_files d l w1 end
  end.
(** sync_database.py 742-748 [_save_tags]. *)
Definition save_tags (d : db) (w : world) : result unit * world := save_files d (map fst (cache d)) w.

(** sync_database.py 778-785 [save_database], without the metatags. *)
Definition save_database (d : db) (w : world) : result unit * world := save_tags d (close_manifest d w).

(** sync_database.py 266-273 [load_tags]: the loop, for an order of the set
    [tags]. *)
Fixpoint query_all (d : db) (l : list bytes) (silent : bool) (w : world) : result unit * db :=
  match l with
  | [] => (Ok tt, d)
  | t :: l =>
    let '(r, d1) := query_tag d t silent true w in
    match r with Err e => (Err e, d1) | Ok _ => query_all d1 l silent w end
  end.
(** The order of iteration over a set of strings is unspecified (and differs
    between processes); it is a parameter. *)
Variable set_order : list bytes -> list bytes.
(** sync_database.py 266-273 [load_tags]. *)
Definition load_tags (d : db) (silent : bool) (w : world) : result unit * db :=
  query_all d (set_order (tags d)) silent w.

(** sync_database.py 252-264 [_load_manifest], 207-250.  The cache stays. *)
Definition load_manifest (kk : key) (c : dict value) (w : world) : result db * world :=
  match disk w (root_filename kk) with
  | Some ciphertext =>
    (x <- decrypt_manifest kk ciphertext ;;
     mm <- manifest_of_text x ;;
     Ok {| k := kk; m := mm; cache := c |}, w)
  | None => (Ok {| k := kk; m := {| m_salt := new_salt (clock w); m_metatags := []; m_tags := [] |}; cache := c |}, tick w)
  end.

(** sync_database.py 291-314 [load_database], without the metatags. *)
Definition load_database (d : db) (silent manifest preload : bool) (w : world) : result unit * db * world :=
  let '(r, w1) := if manifest then load_manifest (k d) (cache d) w else (Ok d, w) in
  match r with
  | Err e => (Err e, d, w1)
  | Ok d1 =>
    let '(r2, d2) := if preload then load_tags d1 silent w1 else (Ok tt, d1) in
    (r2, d2, w1)
  end.

(** sync_database.py 147-187 [__init__]. *)
Definition open_db (kk : key) (silent preload : bool) (w : world) : result db * world :=
  let '(r, w1) := load_manifest kk [] w in
  match r with
  | Err e => (Err e, w1)
  | Ok d =>
    let '(r2, d2) := if preload then load_tags d silent w1 else (Ok tt, d) in
    (match r2 with Err e => Err e | Ok _ => Ok d2 end, w1)
  end.

(** Operations on one object, and what the caller sees. The public methods modelled above:
    sync_database.py 467-593, 757-785, database_properties.py 142-193. *)
Inductive op :=
| SetTag (tag : bytes) (v : value) (keep : bool)
| QueryTag (tag : bytes) (silent keep : bool)
| GetItem (tag : bytes)
| PopTag (tag : bytes) (silent : bool)
| DelItem (tag : bytes)
| RollbackTag (tag : bytes) (keep : bool)
| ClearCache
| SaveTag (tag : bytes) (drop : bool)
| SaveDatabase
| LoadTags (silent : bool)
| Contains (tag : bytes)
| Length.
(** No counterpart: the result of such a call. *)
Inductive reply := Done | Got (v : option value) | Truth (b : bool) | Size (n : nat) | Raised (e : exn).

(** No counterpart: a result or exception as a reply. *)
Definition reply_of {A} (f : A -> reply) (r : result A) : reply := match r with Ok a => f a | Err e => Raised e end.

(** One such call. *)
Definition perform (o : op) (d : db) (w : world) : reply * db * world :=
  match o with
  | SetTag t v keep => let '(r, d1, w1) := set_tag d t v keep w in (reply_of (fun _ => Done) r, d1, w1)
  | QueryTag t silent keep => let '(r, d1) := query_tag d t silent keep w in (reply_of Got r, d1, w)
  | GetItem t => (Got (get_item d t), d, w)
  | PopTag t silent => let '(r, d1, w1) := pop_tag d t silent w in (reply_of Got r, d1, w1)
  | DelItem t => let '(d1, w1) := del_item d t w in (Done, d1, w1)
  | RollbackTag t keep => let '(r, d1) := rollback_tag d t keep w in (reply_of (fun _ => Done) r, d1, w)
  | ClearCache => (Done, clear_cache d, w)
  | SaveTag t drop => let '(r, d1, w1) := save_tag d t drop w in (reply_of (fun _ => Done) r, d1, w1)
  | SaveDatabase => let '(r, w1) := save_database d w in (reply_of (fun _ => Done) r, d, w1)
  | LoadTags silent => let '(r, d1) := load_tags d silent w in (reply_of (fun _ => Done) r, d1, w)
  | Contains t => (Truth (contains d t), d, w)
  | Length => (Size (db_len d), d, w)
  end.

(** No counterpart: such calls one after another. *)
Fixpoint session (os : list op) (d : db) (w : world) : list reply * db * world :=
  match os with
  | [] => ([], d, w)
  | o :: os =>
    let '(r, d1, w1) := perform o d w in
    let '(rs, d2, w2) := session os d1 w1 in
    (r :: rs, d2, w2)
  end.

(** The life of a database over several processes: operations, and another process opening it
    with the same key once this one has ended. If opening raises there is no object and no
    further operation. No counterpart: an operation or a new process. *)
Inductive event := Op (o : op) | Reopen (silent preload : bool).
(** No counterpart: what the user sees over such a life. *)
Fixpoint life (es : list event) (d : db) (w : world) : list reply :=
  match es with
  | [] => []
  | Op o :: es => let '(r, d1, w1) := perform o d w in r :: life es d1 w1
  | Reopen silent preload :: es =>
    let '(r, w1) := open_db (k d) silent preload w in
    match r with
    | Ok d1 => Done :: life es d1 w1
    | Err e => [Raised e]
    end
  end.

End Database.
