(** * Model of a database whose values are mutable objects

    aiootp/databases/sync_database.py 462-600, 726-790, database_properties.py 160-196.  A
    value is an object in the memory of the program, which other values, and variables of the
    user, may refer to as well; the user changes objects between calls.  What is in a file is
    the text that [json.dumps] made of the object, or its bytes: here a tree, since
    encryption (C40) and the text (C80) bring it back.  A file name is a tag (C40).  The
    asynchronous database does the same between its calls. *)
From Verif Require Import Base.

Section Alias.
(** The values without parts (str, int, bool, bytes ...) and the keys of dicts. No counterpart. *)
Variables A K : Type.
(** How deep [json.dumps] can follow an object. No counterpart: the limit of the interpreter. *)
Variable limit : nat.

(** An object: a value that cannot be changed, or a list or dict that refers to other
    objects. No counterpart: Python's memory. *)
Inductive node := Atom (x : A) | Many (l : list (K * nat)).
(** No counterpart: Python's memory. An address is a number. *)
Definition heap := list node.
(** What is in a file. sync_database.py 734-741: the text, here with its structure. *)
Inductive tree := TAtom (x : A) | TMany (l : list (K * tree)).

(** No counterpart: all members, if all are there. *)
Fixpoint all_of {X} (l : list (option X)) : option (list X) :=
  match l with
  | [] => Some []
  | None :: _ => None
  | Some x :: l => match all_of l with None => None | Some r => Some (x :: r) end
  end.
(** [json.dumps] and [BYTES_FLAG +], sync_database.py 735-738. [None]: it raises, because the object
    refers to itself or is nested too deeply. *)
Fixpoint dumps (fuel : nat) (h : heap) (a : nat) : option tree :=
  match fuel with
  | O => None
  | S fuel =>
      match nth_error h a with
      | None => None
      | Some (Atom x) => Some (TAtom x)
      | Some (Many l) =>
          option_map TMany (all_of (map (fun p => option_map (pair (fst p)) (dumps fuel h (snd p))) l))
      end
  end.
(** [json.loads], or the bytes behind the flag, sync_database.py 522-525: new objects. *)
Fixpoint loads (t : tree) (h : heap) : nat * heap :=
  match t with
  | TAtom x => (length h, h ++ [Atom x])
  | TMany ts =>
      let '(l, h) :=
        (fix go ts h :=
           match ts with
           | [] => ([], h)
           | (k, t) :: ts =>
               let '(a, h) := loads t h in
               let '(l, h) := go ts h in
               ((k, a) :: l, h)
           end) ts h in
      (length h, h ++ [Many l])
  end.

(** sync_database.py 181-182: the cache, in the order of insertion, and the tags in the manifest; the
    files, and the memory of the program. *)
Record base := {
  memory : heap;
  cache : list (nat * nat);
  manifest : list nat;
  files : nat -> option tree
}.

(** [getattr(self._cache, filename)]. No counterpart: commons/namespaces.py, as C58 describes it. *)
Fixpoint get (n : nat) (c : list (nat * nat)) : option nat :=
  match c with
  | [] => None
  | (m, a) :: c => if Nat.eqb m n then Some a else get n c
  end.
(** [setattr(self._cache, filename, data)]: an old entry keeps its place. No counterpart: commons/namespaces.py. *)
Fixpoint put (n a : nat) (c : list (nat * nat)) : list (nat * nat) :=
  match c with
  | [] => [(n, a)]
  | (m, b) :: c => if Nat.eqb m n then (m, a) :: c else (m, b) :: put n a c
  end.
(** [delattr(self._cache, filename)], where there may be no entry. No counterpart: commons/namespaces.py. *)
Definition del (n : nat) (c : list (nat * nat)) : list (nat * nat) :=
  filter (fun p => negb (Nat.eqb (fst p) n)) c.

(** No counterpart: fields are replaced. *)
Definition with_memory (h : heap) (b : base) : base :=
  {| memory := h; cache := cache b; manifest := manifest b; files := files b |}.
(** No counterpart: fields are replaced. *)
Definition with_cache (c : list (nat * nat)) (b : base) : base :=
  {| memory := memory b; cache := c; manifest := manifest b; files := files b |}.
(** No counterpart: fields are replaced. *)
Definition with_manifest (m : list nat) (b : base) : base :=
  {| memory := memory b; cache := cache b; manifest := m; files := files b |}.
(** sync_database.py 454-460: the file of a tag is written. 534-542: [None] deletes it. *)
Definition with_file (n : nat) (t : option tree) (b : base) : base :=
  {| memory := memory b; cache := cache b; manifest := manifest b;
     files := fun m => if Nat.eqb m n then t else files b m |}.

(** What a call returns or raises. No counterpart. *)
Inductive reply := Fine | Object (a : nat) | Nothing | Raised (e : exn).

(** sync_database.py 729-742, [_save_file]: AttributeError when the tag is not in the cache. *)
Definition save_file (n : nat) (b : base) : base * reply :=
  match get n (cache b) with
  | None => (b, Raised AttributeErr)
  | Some a =>
      match dumps limit (memory b) a with
      | None => (b, Raised ValueErr)
      | Some t => (with_file n (Some t) b, Fine)
      end
  end.
(** sync_database.py 757-776, [save_tag]: the cached value is dropped in any case. *)
Definition save_tag (n : nat) (drop_cache : bool) (b : base) : base * reply :=
  let '(b, r) := save_file n b in
  let r := match r with Raised AttributeErr => Raised LookupErr | r => r end in
  (if drop_cache then with_cache (del n (cache b)) b else b, r).
(** sync_database.py 744-749, [_save_tags]. *)
Fixpoint save_tags (ns : list nat) (b : base) : base * reply :=
  match ns with
  | [] => (b, Fine)
  | n :: ns =>
      match save_file n b with
      | (b, Raised e) => (b, Raised e)
      | (b, _) => save_tags ns b
      end
  end.
(** sync_database.py 462-483, [set_tag]; database_properties.py 163-171, [__setitem__], with [cache]. *)
Definition set_tag (n a : nat) (cache_ : bool) (b : base) : base * reply :=
  let b := with_cache (put n a (cache b)) b in
  let b := with_manifest (if existsb (Nat.eqb n) (manifest b) then manifest b else manifest b ++ [n]) b in
  if cache_ then (b, Fine) else save_tag n true b.
(** sync_database.py 500-528, [query_tag]. *)
Definition query_tag (n : nat) (silent cache_ : bool) (b : base) : base * reply :=
  match get n (cache b) with
  | Some a => (b, Object a)
  | None =>
      match files b n with
      | None => (b, if silent then Nothing else Raised LookupErr)
      | Some t =>
          let '(a, h) := loads t (memory b) in
          let b := with_memory h b in
          (if cache_ then with_cache (put n a (cache b)) b else b, Object a)
      end
  end.
(** database_properties.py 173-180, [__getitem__]. *)
Definition get_item (n : nat) (b : base) : base * reply :=
  (b, match get n (cache b) with Some a => Object a | None => Nothing end).
(** sync_database.py 540-565, [pop_tag]. *)
Definition pop_tag (n : nat) (silent : bool) (b : base) : base * reply :=
  let '(b, v) := query_tag n true false b in
  let missing := negb (existsb (Nat.eqb n) (manifest b)) && match get n (cache b) with None => true | _ => false end
                 && match files b n with None => true | _ => false end in
  let b := with_manifest (filter (fun m => negb (Nat.eqb m n)) (manifest b)) b in
  let b := with_file n None (with_cache (del n (cache b)) b) in
  (b, if negb silent && missing then Raised LookupErr else v).
(** sync_database.py 567-582, [rollback_tag]. *)
Definition rollback_tag (n : nat) (cache_ : bool) (b : base) : base * reply :=
  let b := match files b n with
           | None => with_manifest (filter (fun m => negb (Nat.eqb m n)) (manifest b)) b
           | Some _ => b
           end in
  let b := with_cache (del n (cache b)) b in
  (if cache_ then fst (query_tag n false true b) else b, Fine).

(** What the user does: makes an object, changes an object, calls the database. No counterpart
    for the first two: the user's code, which can refer only to objects that exist. *)
Inductive op :=
| Make (x : node)
| Change (a : nat) (x : node)
| Set_ (n a : nat) (cache_ : bool)
| Query (n : nat) (silent cache_ : bool)
| Item (n : nat)
| Save (n : nat) (drop_cache : bool)
| SaveAll
| Rollback (n : nat) (cache_ : bool)
| Clear
| Pop (n : nat) (silent : bool).

(** No counterpart: the objects that a node refers to. *)
Definition parts (x : node) : list nat := match x with Atom _ => [] | Many l => map snd l end.
(** No counterpart: the [i]-th member of a list is replaced. *)
Fixpoint replace {X} (i : nat) (x : X) (l : list X) : list X :=
  match l, i with
  | [], _ => []
  | _ :: l, O => x :: l
  | y :: l, S i => y :: replace i x l
  end.
(** No counterpart: the user's code, and the calls above. [clear_cache] is sync_database.py 584-593 without
    metatags, [save_database] 778-785 without metatags and the manifest's file. Objects that do not exist cannot be named: nothing happens. *)
Definition step (o : op) (b : base) : base * reply :=
  match o with
  | Make x =>
      if forallb (fun a => Nat.ltb a (length (memory b))) (parts x)
      then (with_memory (memory b ++ [x]) b, Object (length (memory b))) else (b, Nothing)
  | Change a x =>
      if forallb (fun a => Nat.ltb a (length (memory b))) (parts x)
      then (with_memory (replace a x (memory b)) b, Nothing) else (b, Nothing)
  | Set_ n a cache_ => if Nat.ltb a (length (memory b)) then set_tag n a cache_ b else (b, Nothing)
  | Query n silent cache_ => query_tag n silent cache_ b
  | Item n => get_item n b
  | Save n drop_cache => save_tag n drop_cache b
  | SaveAll => save_tags (map fst (cache b)) b
  | Rollback n cache_ => rollback_tag n cache_ b
  | Clear => (with_cache [] b, Fine)
  | Pop n silent => pop_tag n silent b
  end.
(** No counterpart: a history. *)
Fixpoint run (os : list op) (b : base) : base :=
  match os with
  | [] => b
  | o :: os => run os (fst (step o b))
  end.
End Alias.
