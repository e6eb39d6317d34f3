(** * Model of tasks that make, save and delete sub-databases of one AsyncDatabase

    aiootp/databases/async_database.py 654-751, 753-779 and 839-845, and 159-344 as far as opening a
    sub-database needs it.  The names of sub-databases ("metatags") are numbers; none of them
    is an attribute of the class.  The sub-databases have no tags and no sub-databases of
    their own, so that all there is on disk of one is its manifest, whose filename follows
    from the name (644-652: the key depends on nothing else that changes).  A task runs without
    interruption between two points where it awaits something that yields; where nothing
    that tasks share is read or written between several such points they are one here. *)
From Verif Require Import Base TasksModel.

Section Meta.
(** Root salts, and what [token_bytes] returns when it is called for the n-th time. *)
Variable S : Type.
Variable draw : nat -> S.

(** 714-727 [_anullify] clears an object, and takes away its slots after that. *)
Inductive health := Live | Cleared | Stripped.
(** async_database.py 159-199: a sub-database: its name, its root salt and its health. *)
Record subdb := { name : nat; salt : S; health_ : health }.

(** [ametatag(g)]; [adelete_metatag(g)]; [asave_database()] of the attribute. async_database.py
    654-712, 839-845. *)
Inductive mop := Meta (g : nat) | Delete (g : nat) | Save (g : nat).
(** What these return or raise. async_database.py 654-712, 839-845. *)
Inductive mreply := Got (o : nat) | Fine | Raised (e : exn).

(** Where a task is.  [ametatag]: before its first step; before it looks for the manifest on
    disk (644-652, 690-697, 202-219, 267-272); while the file is read (221-238); before 697, with the salt.
    [adelete_metatag]: in the loop over the manifest (747-748); while the manifest's file is
    removed (749); behind that; in [_anullify] before and behind the removal of the slots.
    [asave_database]: while the key of the manifest is derived; while the manifest is encrypted;
    with the file open.  async_database.py 654-779. *)
Inductive mtask :=
| MStart (o : mop)
| MMaking (g : nat) | MReading (g : nat) | MSalted (g : nat) (s : S)
| DLoop (g o : nat) | DRoot (g o : nat) | DGone (g o : nat) | DNull (g o : nat) | DLast (g o : nat)
| VKeying (g o : nat) | VSealing (g o : nat) (c : option S) | VOpened (g o : nat) (c : option S) (n : nat)
| MDone (r : mreply).

(** What a manifest's file contains: nothing; an encrypted manifest, of which the salt is kept
    (None in a manifest that had been cleared); the end of a longer one behind a shorter one.
    No counterpart: files. *)
Inductive content := Empty | Sealed (c : option S) | Spoiled.
(** [attrs] are the sub-databases in the parent's [__dict__], [metatags] the list in its
    manifest, [objects] all sub-databases made so far, [roots] the files with the manifests, with
    a number that tells a file from those of that name that were deleted before; [draws] counts the
    calls of [token_bytes] and [born] the files. database_properties.py 38-48, 123-128. *)
Record family := { attrs : nat -> option nat; metatags : list nat; objects : list subdb; roots : nat -> option (nat * content); draws : nat; born : nat; tasks : list mtask }.

(** No counterpart: a new value under a name. *)
Definition put {A} (g : nat) (x : A) (f : nat -> A) : nat -> A := fun h => if Nat.eqb h g then x else f h.
(** No counterpart: a value in a list. *)
Definition mem (g : nat) (l : list nat) : bool := existsb (Nat.eqb g) l.
(** [list.remove], as used in async_database.py 711. *)
Fixpoint remove_one (g : nat) (l : list nat) : list nat :=
  match l with [] => [] | h :: l => if Nat.eqb h g then l else h :: remove_one g l end.
(** No counterpart: the health of an object. *)
Definition health_of (o : nat) (y : family) : health := match nth_error (objects y) o with Some x => health_ x | None => Stripped end.
(** No counterpart: an object changes. *)
Definition with_health (h : health) (o : nat) (l : list subdb) : list subdb :=
  match nth_error l o with Some x => replace o {| name := name x; salt := salt x; health_ := h |} l | None => l end.

(** No counterpart: the [i]-th task goes on, with a new state of what is shared. *)
Definition goes (i : nat) (t : mtask) (y : family) : family :=
  {| attrs := attrs y; metatags := metatags y; objects := objects y; roots := roots y; draws := draws y; born := born y; tasks := replace i t (tasks y) |}.
(** No counterpart: the same, with another health of an object. *)
Definition heals (h : health) (o : nat) (y : family) : family :=
  {| attrs := attrs y; metatags := metatags y; objects := with_health h o (objects y); roots := roots y; draws := draws y; born := born y; tasks := tasks y |}.
(** byte_io.py 237-243 [awrite]: opening a file empties it or makes a new one. *)
Definition opens (g : nat) (y : family) : family :=
  {| attrs := attrs y; metatags := metatags y; objects := objects y;
     roots := put g (Some (match roots y g with Some (n, _) => n | None => born y end, Empty)) (roots y); draws := draws y;
     born := match roots y g with Some _ => born y | None => Datatypes.S (born y) end; tasks := tasks y |}.
(** byte_io.py 237-243 [awrite]: what is written stands at the beginning of the file; the manifest
    of a cleared database is shorter than others, which are all equally long. *)
Definition over (c : option S) (x : content) : content :=
  match c, x with None, Sealed (Some _) => Spoiled | None, Spoiled => Spoiled | _, _ => Sealed c end.
(** No counterpart: the same, with another file. *)
Definition files (g : nat) (x : option (nat * content)) (y : family) : family :=
  {| attrs := attrs y; metatags := metatags y; objects := objects y; roots := put g x (roots y); draws := draws y; born := born y; tasks := tasks y |}.

(** async_database.py 698-700: the end of [ametatag]. *)
Definition listed (g : nat) (y : family) : family :=
  {| attrs := attrs y; metatags := if mem g (metatags y) then metatags y else metatags y ++ [g]; objects := objects y;
     roots := roots y; draws := draws y; born := born y; tasks := tasks y |}.
(** async_database.py 690-697: [setattr] of a new sub-database. *)
Definition joins (g : nat) (s : S) (y : family) : family :=
  {| attrs := put g (Some (length (objects y))) (attrs y); metatags := metatags y;
     objects := objects y ++ [{| name := g; salt := s; health_ := Live |}]; roots := roots y; draws := draws y; born := born y; tasks := tasks y |}.

(** One step of the [i]-th task, async_database.py 159-344, 654-779, 839-845. *)
Definition mstep (i : nat) (t : mtask) (y : family) : family :=
  match t with
  | MStart (Meta g) =>
    (* 685-700 *)
    match attrs y g with
    | Some o => goes i (MDone (Got o)) (listed g y)
    | None => goes i (MMaking g) y
    end
  | MMaking g =>
    (* 272-279: no file, so a salt is drawn *)
    match roots y g with
    | Some _ => goes i (MReading g) y
    | None => goes i (MSalted g (draw (draws y)))
                {| attrs := attrs y; metatags := metatags y; objects := objects y; roots := roots y; draws := Datatypes.S (draws y); born := born y; tasks := tasks y |}
    end
  | MReading g =>
    (* 221-238 *)
    match roots y g with
    | None => goes i (MDone (Raised FileNotFoundErr)) y
    | Some (_, Empty) => goes i (MDone (Raised InvalidCiphertextSize)) y
    | Some (_, Spoiled) => goes i (MDone (Raised InvalidSHMAC)) y
    | Some (_, Sealed None) => goes i (MDone (Raised AttributeErr)) y
    | Some (_, Sealed (Some s)) => goes i (MSalted g s) y
    end
  | MSalted g s => goes i (MDone (Got (length (objects y)))) (listed g (joins g s y))
  | MStart (Delete g) =>
    (* 706-709, 744-748: the object is there, so ametatag does not yield *)
    if mem g (metatags y) then
      match attrs y g with
      | None => goes i (MDone (Raised AttributeErr)) y
      | Some o =>
        match health_of o y with
        | Live => goes i (DLoop g o) y
        | _ => goes i (MDone (Raised AttributeErr)) y
        end
      end
    else goes i (MDone (Raised LookupErr)) y
  | DLoop g o =>
    (* 747: a dictionary that was cleared while it is iterated over *)
    match health_of o y with
    | Live => goes i (DRoot g o) y
    | _ => goes i (MDone (Raised RuntimeErr)) y
    end
  | DRoot g o => goes i (DGone g o) (files g None y)
  | DGone g o =>
    (* 750-751, 720-722 *)
    match health_of o y with
    | Stripped => goes i (MDone (Raised AttributeErr)) y
    | _ => goes i (DNull g o) (heals Cleared o y)
    end
  | DNull g o => goes i (DLast g o) (heals Stripped o y)
  | DLast g o =>
    (* 710-712 *)
    match attrs y g with
    | None => goes i (MDone (Raised AttributeErr)) y
    | Some _ =>
      goes i (MDone (if mem g (metatags y) then Fine else Raised ValueErr))
        {| attrs := put g None (attrs y); metatags := remove_one g (metatags y); objects := objects y; roots := roots y; draws := draws y; born := born y; tasks := tasks y |}
    end
  | MStart (Save g) =>
    (* 757 *)
    match attrs y g with
    | None => goes i (MDone (Raised AttributeErr)) y
    | Some o =>
      match health_of o y with
      | Stripped => goes i (MDone (Raised AttributeErr)) y
      | _ => goes i (VKeying g o) y
      end
    end
  | VKeying g o =>
    (* 762: the dictionary of 757 *)
    match health_of o y with
    | Live => goes i (VSealing g o (option_map salt (nth_error (objects y) o))) y
    | _ => goes i (VSealing g o None) y
    end
  | VSealing g o c =>
    (* 770 *)
    match health_of o y with
    | Stripped => goes i (MDone (Raised AttributeErr)) y
    | _ => goes i (VOpened g o c (match roots y g with Some (n, _) => n | None => born y end)) (opens g y)
    end
  | VOpened g o c n =>
    (* 770; then 813: a cleared manifest has no list of metatags *)
    let r := match health_of o y with Live => Fine | _ => Raised AttributeErr end in
    match roots y g with
    | Some (m, x) => if Nat.eqb m n then goes i (MDone r) (files g (Some (n, over c x)) y) else goes i (MDone r) y
    | None => goes i (MDone r) y
    end
  | MDone _ => y
  end.

(** No counterpart: one step of the event loop. *)
Definition mproceed (y : family) (i : nat) : family := match nth_error (tasks y) i with Some t => mstep i t y | None => y end.
(** No counterpart: the steps of the event loop. *)
Definition mrun (l : list nat) (y : family) : family := fold_left mproceed l y.
(** No counterpart: the state in which the tasks are created: a parent that has just been
    opened, with the sub-databases it lists, one object each (297-319), and what is on disk. *)
Definition parent (l : list (nat * S)) (r : nat -> option S) (os : list mop) : family :=
  {| attrs := fun g => (fix at_ (l : list (nat * S)) (o : nat) := match l with [] => None | (h, _) :: l => if Nat.eqb h g then Some o else at_ l (Datatypes.S o) end) l 0%nat;
     metatags := map fst l; objects := map (fun p => {| name := fst p; salt := snd p; health_ := Live |}) l;
     roots := fun g => option_map (fun s => (0%nat, Sealed (Some s))) (r g); draws := 0; born := 1; tasks := map MStart os |}.
End Meta.
Arguments Build_subdb {S}. Arguments name {S}. Arguments salt {S}. Arguments health_ {S}.
Arguments MStart {S}. Arguments MMaking {S}. Arguments MReading {S}. Arguments MSalted {S}. Arguments DLoop {S}. Arguments DRoot {S}.
Arguments DGone {S}. Arguments DNull {S}. Arguments DLast {S}. Arguments VKeying {S}. Arguments VSealing {S}. Arguments VOpened {S}. Arguments MDone {S}.
Arguments Empty {S}. Arguments Sealed {S}. Arguments Spoiled {S}. Arguments opens {S}. Arguments over {S}.
Arguments attrs {S}. Arguments metatags {S}. Arguments objects {S}. Arguments roots {S}. Arguments draws {S}. Arguments tasks {S}.
Arguments health_of {S}. Arguments with_health {S}. Arguments goes {S}. Arguments heals {S}. Arguments files {S}. Arguments listed {S}. Arguments born {S}. Arguments joins {S}.
Arguments mstep {S}. Arguments mproceed {S}. Arguments mrun {S}. Arguments parent {S}.
