(** * Model of tasks that use one AsyncDatabase while another deletes it

    aiootp/databases/async_database.py 489-582 [aset_tag], [aquery_tag], 714-751 [_anullify],
    [adelete_database], 781-837 [_asave_file], [asave_tag], for a database without
    sub-databases and without profile tokens.  A task runs without interruption between two
    points where it awaits something that yields: the derivation of a filename, encryption,
    decryption, [asleep], and operations on files, which are done by other threads.  Reading or
    writing a file is one step; TasksModel.v has them step by step. *)
From Verif Require Import Base.

Section Wipe.
(** Values; a file is the value that is sealed in it. *)
Variable V : Type.

(** The filenames that the manifest lists, in the order in which they were added (with the two
    entries of _maintenance_records, whose files do not exist); the cache; the files of the
    directory; whether the manifest is on disk; whether the object still has its attributes.
    database_properties.py 38-48. *)
Record base := { manifest : list nat; cache : nat -> option V; files : nat -> option V; root : bool; alive : bool }.
(** No counterpart: a function changed in one place. *)
Definition upd {A} (f : nat -> A) (n : nat) (x : A) : nat -> A := fun m => if Nat.eqb m n then x else f m.
(** async_database.py 514 [setattr(self._manifest, filename, tag)]: a new name goes to the end. *)
Definition list_name (n : nat) (l : list nat) : list nat := if existsb (Nat.eqb n) l then l else l ++ [n].
(** async_database.py 513-514. *)
Definition store (n : nat) (v : V) (b : base) : base :=
  {| manifest := list_name n (manifest b); cache := upd (cache b) n (Some v); files := files b; root := root b; alive := alive b |}.
(** async_database.py 565: [setattr(self._cache, filename, result)]; 835-836: [delattr]. *)
Definition with_cache (n : nat) (v : option V) (b : base) : base :=
  {| manifest := manifest b; cache := upd (cache b) n v; files := files b; root := root b; alive := alive b |}.
(** async_database.py 489-499 [_asave_ciphertext], 568-582 [_adelete_file]. *)
Definition with_file (n : nat) (v : option V) (b : base) : base :=
  {| manifest := manifest b; cache := cache b; files := upd (files b) n v; root := root b; alive := alive b |}.
(** async_database.py 749: the file of the manifest is deleted. *)
Definition without_root (b : base) : base :=
  {| manifest := manifest b; cache := cache b; files := files b; root := false; alive := alive b |}.
(** async_database.py 720-722 of [_anullify]. *)
Definition emptied (b : base) : base :=
  {| manifest := []; cache := fun _ => None; files := files b; root := root b; alive := alive b |}.
(** async_database.py 723-727 of [_anullify]: the slots of DatabaseProperties are gone. *)
Definition stripped (b : base) : base :=
  {| manifest := manifest b; cache := cache b; files := files b; root := root b; alive := false |}.

(** What a call returns or raises: a value, None or the database, an exception. async_database.py
    500-582, 739-751, 818-837. *)
Inductive reply := Found (v : V) | Nothing | Fine | Raised (e : exn).
(** Where a task is.  [aset_tag]: before the call, in [afilename].  [aquery_tag]: before, in
    [afilename], before the file is read, behind that, while it is decrypted.  [asave_tag]: before, in
    [afilename], while the value is encrypted, before the file is written, behind that.
    [adelete_database]: before; in front of the next round of the loop 747-748, with the place of
    the iterator and the number of names when it was made; while a file is deleted; while the
    manifest is deleted; in the three sleeps of [_anullify] (AsyncDatabase, DatabaseProperties,
    object).  At the end.  async_database.py 500-582, 714-751, 781-837. *)
Inductive task :=
| Set0 (n : nat) (v : V) | Set1 (n : nat) (v : V)
| Query0 (n : nat) (silent keep : bool) | Query1 (n : nat) (silent keep : bool) | Query2 (n : nat) (silent keep : bool) | Query3 (n : nat) (keep : bool) (v : V) | Query4 (n : nat) (keep : bool) (v : V)
| Save0 (n : nat) (drop : bool) | Save1 (n : nat) (drop : bool) | Save2 (n : nat) (drop : bool) (v : V) | Save3 (n : nat) (drop : bool) (v : V) | Save4 (n : nat) (drop : bool)
| Wipe0 | Next (i size : nat) | Removing (i size n : nat) | RemovingRoot | Null1 | Null2 | Null3
| Done (r : reply).

(** async_database.py 833-836: [finally] of [asave_tag]; with [e] the exception of the [try]. *)
Definition save_end (n : nat) (drop : bool) (r : reply) (b : base) : task * base :=
  if drop then if alive b then (Done r, with_cache n None b) else (Done (Raised AttributeErr), b)
  else (Done r, b).

(** async_database.py 747-748: [next] of the iterator over the dict of the manifest, which refuses
    if the dict has another size than when it was made. *)
Definition next_step (i size : nat) (b : base) : task * base :=
  if Nat.eqb (length (manifest b)) size then
    if alive b then
      match nth_error (manifest b) i with
      | Some n => (Removing i size n, b)
      | None => (RemovingRoot, b)
      end
    else (Done (Raised AttributeErr), b)
  else (Done (Raised RuntimeErr), b).

(** One step of a task.  async_database.py 500-582, 714-751, 781-837. *)
Definition step (t : task) (b : base) : task * base :=
  match t with
  | Set0 n v => if alive b then (Set1 n v, b) else (Done (Raised AttributeErr), b)
  | Set1 n v => if alive b then (Done Fine, store n v b) else (Done (Raised AttributeErr), b)
  | Query0 n silent keep => if alive b then (Query1 n silent keep, b) else (Done (Raised AttributeErr), b)
  | Query1 n silent keep =>
    if alive b then
      match cache b n with
      | Some v => (Done (Found v), b)
      | None => (Query2 n silent keep, b)
      end
    else (Done (Raised AttributeErr), b)
  | Query2 n silent keep =>
    match files b n with
    | Some v => (Query3 n keep v, b)
    | None => (Done (if silent then Nothing else Raised LookupErr), b)
    end
  | Query3 n keep v => if alive b then (Query4 n keep v, b) else (Done (Raised AttributeErr), b)
  | Query4 n keep v =>
    if keep then if alive b then (Done (Found v), with_cache n (Some v) b) else (Done (Raised AttributeErr), b)
    else (Done (Found v), b)
  | Save0 n drop => if alive b then (Save1 n drop, b) else (Done (Raised AttributeErr), b)
  | Save1 n drop =>
    if alive b then
      match cache b n with
      | Some v => (Save2 n drop v, b)
      | None => save_end n drop (Raised LookupErr) b
      end
    else save_end n drop (Raised LookupErr) b
  | Save2 n drop v => if alive b then (Save3 n drop v, b) else save_end n drop (Raised LookupErr) b
  | Save3 n drop v => (Save4 n drop, with_file n (Some v) b)
  | Save4 n drop => save_end n drop Fine b
  | Wipe0 => if alive b then next_step 0 (length (manifest b)) b else (Done (Raised AttributeErr), b)
  | Next i size => next_step i size b
  | Removing i size n => (Next (S i) size, with_file n None b)
  | RemovingRoot => (Null1, emptied (without_root b))
  | Null1 => (Null2, b)
  | Null2 => (Null3, stripped b)
  | Null3 => (Done Nothing, b)
  | Done r => (Done r, b)
  end.

(** No counterpart: a task changes. *)
Definition replace {A} (i : nat) (x : A) (l : list A) : list A :=
  firstn i l ++ match skipn i l with [] => [] | _ :: r => x :: r end.
(** No counterpart: the database and the tasks. *)
Record system := { data : base; tasks : list task }.
(** No counterpart: the event loop lets the [i]-th task proceed. *)
Definition proceed (y : system) (i : nat) : system :=
  match nth_error (tasks y) i with
  | None => y
  | Some t => let '(t, b) := step t (data y) in {| data := b; tasks := replace i t (tasks y) |}
  end.
(** No counterpart: the event loop. *)
Definition run (es : list nat) (y : system) : system := fold_left proceed es y.
End Wipe.
