(** * Model of metatags: aiootp/databases/sync_database.py

    A database object with its metatags is a tree of the flat databases of
    DbModel.v; all of them keep their files in one directory. *)
From Verif Require Import Base DbModel.
Local Open Scope nat_scope.

Section Tree.
Variable json : Type.
Variable dumps : json -> result bytes.
Variable loads : bytes -> result json.
Variable key : Type.
Variable root_filename : key -> bytes.
Variable filename_of : key -> bytes -> bytes -> bytes.
Variable encrypt : nat -> key -> bytes -> bytes -> bytes -> bytes.
Variable decrypt : key -> bytes -> bytes -> bytes -> result bytes.
Variable encrypt_manifest : nat -> key -> bytes -> bytes.
Variable decrypt_manifest : key -> bytes -> result bytes.
Variable new_salt : nat -> bytes.
Variable manifest_text : manifest -> bytes.
Variable manifest_of_text : bytes -> result manifest.
Variable set_order : list bytes -> list bytes.
(** sync_database.py 595-603 [_metatag_key]: from the key, the root salt and the
    metatag. *)
Variable child_key : key -> bytes -> bytes -> key.
(** The attributes of the class: [hasattr(cls, tag)]. *)
Variable reserved : bytes -> bool.

Notation db := (db json key).
Notation op := (op json).
Notation reply := (reply json).

(** The metatags' objects are attributes of the object, in its [__dict__]. sync_database.py
    605-651. *)
Inductive node := Node (self : db) (kids : list (bytes * node)).
(** No counterpart: a projection. *)
Definition self (x : node) : db := let 'Node d _ := x in d.
(** No counterpart: a projection. *)
Definition kids (x : node) : list (bytes * node) := let 'Node _ l := x in l.
(** database_properties.py 123-128. *)
Definition metatags (d : db) : list bytes := m_metatags (m _ _ d).

(** sync_database.py 147-187 [__init__] with 275-289 [load_metatags]; [fuel]
    bounds the depth of the tree on disk. *)
Fixpoint open_node (fuel : nat) (kk : key) (silent preload : bool) (w : world) : result node * world :=
  match fuel with
  | O => (Err OtherErr, w)
  | S fuel =>
    let '(r, w1) := open_db json loads key root_filename filename_of decrypt decrypt_manifest new_salt manifest_of_text set_order kk silent preload w in
    match r with
    | Err e => (Err e, w1)
    | Ok d =>
      (fix load (l : list bytes) (ks : list (bytes * node)) (w : world) : result node * world :=
        match l with
        | [] => (Ok (Node d ks), w)
        | t :: l =>
          if reserved t then (Err AttributeErr, w)
          else
            let '(r, w1) := open_node fuel (child_key (k _ _ d) (salt _ _ d) t) silent preload w in
            match r with
            | Err e => (Err e, w1)
            | Ok c => load l (ks ++ [(t, c)]) w1
            end
        end) (set_order (metatags d)) [] w1
    end
  end.

(** sync_database.py 605-651 [metatag]. *)
Definition metatag (fuel : nat) (tag : bytes) (silent preload : bool) (x : node) (w : world) : result unit * node * world :=
  let 'Node d ks := x in
  let listed := if existsb (bytes_eqb tag) (metatags d) then d else set_metatags _ _ d (metatags d ++ [tag]) in
  if reserved tag then (Err AttributeErr, x, w)
  else if has tag ks then (Ok tt, Node listed ks, w)
  else
    let '(r, w1) := open_node fuel (child_key (k _ _ d) (salt _ _ d) tag) silent preload w in
    match r with
    | Err e => (Err e, x, w1)
    | Ok c => (Ok tt, Node listed (ks ++ [(tag, c)]), w1)
    end.

(** sync_database.py 778-785 [save_database] with 750-755 [_save_metatags]. *)
Fixpoint save_node (x : node) (w : world) : result unit * world :=
  let 'Node d ks := x in
  let savers := (fix f (l : list (bytes * node)) := match l with [] => [] | (t, c) :: l => (t, save_node c) :: f l end) ks in
  let '(r, w2) :=
    (fix save (l : list bytes) (w : world) : result unit * world :=
      match l with
      | [] => (Ok tt, w)
      | t :: l =>
        match get t savers with
        | None => (Err AttributeErr, w)
        | Some s => let '(r, w1) := s w in match r with Err e => (Err e, w1) | Ok _ => save l w1 end
        end
      end) (set_order (metatags d))
      (close_manifest json key root_filename encrypt_manifest manifest_text d w) in
  match r with
  | Err e => (Err e, w2)
  | Ok _ => save_tags json dumps key encrypt d w2
  end.

(** sync_database.py 584-593 [clear_cache]. *)
Fixpoint clear_node (x : node) : node :=
  let 'Node d ks := x in
  Node (clear_cache json key d)
    ((fix f (l : list (bytes * node)) := match l with [] => [] | (t, c) :: l => (t, if existsb (bytes_eqb t) (metatags d) then clear_node c else c) :: f l end) ks).

(** sync_database.py 688-699 [delete_database]: the files named by the entries of
    the manifest ("0" and "1" among them) and the manifest's own.  A listed
    metatag without its object would be opened first; no reachable object has one
    (see TreeProofs), so here it raises. *)
Definition LEDGERNAMES : list bytes := [[x30]; [x31]].
(** sync_database.py 664-699: the files are deleted one after another. *)
Definition unlink_all (l : list bytes) (w : world) : world := fold_left (fun w n => unlink n w) l w.
(** sync_database.py 664-699. *)
Fixpoint delete_node (x : node) (w : world) : result unit * world :=
  let 'Node d ks := x in
  let deleters := (fix f (l : list (bytes * node)) := match l with [] => [] | (t, c) :: l => (t, delete_node c) :: f l end) ks in
  let '(r, w1) :=
    (fix delete (l : list bytes) (w : world) : result unit * world :=
      match l with
      | [] => (Ok tt, w)
      | t :: l =>
        match get t deleters with
        | None => (Err AttributeErr, w)
        | Some s => let '(r, w1) := s w in match r with Err e => (Err e, w1) | Ok _ => delete l w1 end
        end
      end) (set_order (metatags d)) w in
  match r with
  | Err e => (Err e, w1)
  | Ok _ => (Ok tt, unlink_all (LEDGERNAMES ++ map fst (m_tags (m _ _ d)) ++ [root_filename (k _ _ d)]) w1)
  end.

(** sync_database.py 653-662 [delete_metatag]. *)
Definition remove_first (t : bytes) : list bytes -> list bytes :=
  fix f l := match l with [] => [] | u :: l => if bytes_eqb t u then l else u :: f l end.
(** sync_database.py 653-662. *)
Definition delete_metatag (tag : bytes) (x : node) (w : world) : result unit * node * world :=
  let 'Node d ks := x in
  if existsb (bytes_eqb tag) (metatags d) then
    match get tag ks with
    | None => (Err AttributeErr, x, w)
    | Some c =>
      let '(r, w1) := delete_node c w in
      match r with
      | Err e => (Err e, x, w1)
      | Ok _ => (Ok tt, Node (set_metatags _ _ d (remove_first tag (metatags d))) (del tag ks), w1)
      end
    end
  else (Err LookupErr, x, w).

(** Operations on an object of the tree, reached from the top by dotted lookup. sync_database.py
    584-699, 778-785. *)
Inductive treeop :=
| Flat (o : op)              (** on the object itself; [SaveDatabase] and
                                 [ClearCache] here without the metatags *)
| Save
| Clear
| Metatag (tag : bytes) (silent preload : bool)
| DeleteMetatag (tag : bytes).

(** sync_database.py 584-699, 778-785: one call. *)
Definition perform_node (fuel : nat) (o : treeop) (x : node) (w : world) : reply * node * world :=
  match o with
  | Flat o =>
    let '(r, d, w1) := perform json dumps loads key root_filename filename_of encrypt decrypt encrypt_manifest manifest_text set_order o (self x) w in
    (r, Node d (kids x), w1)
  | Save => let '(r, w1) := save_node x w in (reply_of json (fun _ => Done _) r, x, w1)
  | Clear => (Done _, clear_node x, w)
  | Metatag t silent preload => let '(r, x1, w1) := metatag fuel t silent preload x w in (reply_of json (fun _ => Done _) r, x1, w1)
  | DeleteMetatag t => let '(r, x1, w1) := delete_metatag t x w in (reply_of json (fun _ => Done _) r, x1, w1)
  end.
(** No counterpart: the object is reached by attribute lookup. *)
Fixpoint perform_at (fuel : nat) (path : list bytes) (o : treeop) (x : node) (w : world) : reply * node * world :=
  match path with
  | [] => perform_node fuel o x w
  | t :: path =>
    match get t (kids x) with
    | None => (Raised _ AttributeErr, x, w)
    | Some c => let '(r, c1, w1) := perform_at fuel path o c w in (r, Node (self x) (put t c1 (kids x)), w1)
    end
  end.
(** No counterpart: the object is reached by attribute lookup. *)
Fixpoint find (path : list bytes) (x : node) : option node :=
  match path with
  | [] => Some x
  | t :: path => match get t (kids x) with None => None | Some c => find path c end
  end.

(** No counterpart: calls one after another. *)
Fixpoint tree_session (fuel : nat) (l : list (list bytes * treeop)) (x : node) (w : world) : list reply * node * world :=
  match l with
  | [] => ([], x, w)
  | (p, o) :: l =>
    let '(r, x1, w1) := perform_at fuel p o x w in
    let '(rs, x2, w2) := tree_session fuel l x1 w1 in
    (r :: rs, x2, w2)
  end.
End Tree.
