(** * Model of saving a whole asynchronous database while tasks use it

    aiootp/databases/async_database.py 753-816, 839-845, on top of the tasks of
    TasksModel.  Sub-databases are left out: a database without metatags is modelled, so
    [_asave_metatags] has nothing to do. *)
From Verif Require Import Base TasksModel.

Section Save.
(** As in TasksModel; and [json.dumps] with [ajson_encrypt] under the key of the manifest,
    of which only the filenames are kept: the salt and the names of metatags that are in
    it too do not change here. *)
Variable V : Type.
Variable seal : V -> bytes.
Variable unseal : bytes -> option V.
Variable mseal : list nat -> bytes.
(** The tags that occur.  The order in which a Namespace gives its names is that of the
    list, not that in which they were put in; nothing depends on it. *)
Variable names : list nat.

(** Where [asave_database] is: before its first step; deriving the key of the manifest;
    encrypting what the manifest then was; with the manifest's file opened, closed; in [gather];
    at its end, without and with an exception. async_database.py 753-816, 839-845. *)
Inductive saver := SFresh | SKeying | SSealing (c : bytes) | SOpened (c : bytes) | SClosed | SWaiting | SDone (fine : bool).

(** [ops] are the tasks on single tags, [subs] those that [gather] made of the coroutines of
    [_asave_file], each with the number of its saver. [root] is the manifest's file. No
    counterpart: the object, its files and the tasks. *)
Record dbase := { slots : nat -> slot V; root : option bytes; ops : list (nat * task V); savers : list saver; subs : list (nat * (nat * task V)) }.

(** async_database.py 753-762 [_aencrypt_manifest]: the dictionary of the manifest is read by [json.dumps]
    when the key has been derived. *)
Definition listing (w : nat -> slot V) : list nat := filter (fun g => listed (w g)) names.
(** async_database.py 799-806 [_asave_tags]: a coroutine for each name in the cache; each reads the value
    when it first runs, as [asave_tag] does behind [afilename]. *)
Definition spawn (j : nat) (w : nat -> slot V) : list (nat * (nat * task V)) :=
  map (fun g => (j, (g, Saving false))) (filter (fun g => match cached (w g) with Some _ => true | None => false end) names).
(** No counterpart: a task has ended with an exception. *)
Definition failed (t : task V) : bool := match t with Done Missing => true | _ => false end.
(** No counterpart: a task has ended. *)
Definition over (t : task V) : bool := match t with Done _ => true | _ => false end.
(** [asyncio.gather] raises the first exception and leaves the other tasks running.
    async_database.py 799-806. *)
Definition waiting (mine : list (task V)) : saver :=
  if existsb failed mine then SDone false else if forallb over mine then SDone true else SWaiting.
(** No counterpart: the tasks that [gather] made for a saver. *)
Definition of_saver (j : nat) (l : list (nat * (nat * task V))) : list (task V) :=
  map (fun p => snd (snd p)) (filter (fun p => Nat.eqb (fst p) j) l).

(** async_database.py 839-845 [asave_database], 772-779 [_aclose_manifest], 764-770 [_asave_manifest],
    byte_io.py 237-243 [awrite]. *)
Definition saver_step (j : nat) (x : saver) (y : dbase) : dbase :=
  let put x r l := {| slots := slots y; root := r; ops := ops y; savers := replace j x (savers y); subs := l |} in
  match x with
  | SFresh => put SKeying (root y) (subs y)
  | SKeying => put (SSealing (mseal (listing (slots y)))) (root y) (subs y)
  | SSealing c => put (SOpened c) (Some []) (subs y)
  | SOpened c => put SClosed (Some (c ++ skipn (length c) (match root y with Some f => f | None => [] end))) (subs y)
  | SClosed => put SWaiting (root y) (subs y ++ spawn j (slots y))
  | SWaiting => put (waiting (of_saver j (subs y))) (root y) (subs y)
  | SDone _ => y
  end.

(** No counterpart: one tag changes. *)
Definition put_slot (w : nat -> slot V) (g : nat) (s : slot V) : nat -> slot V := fun h => if Nat.eqb h g then s else w h.

(** Which of the tasks proceeds. No counterpart: the event loop chooses. *)
Inductive sevent := Op (i : nat) | Saver (j : nat) | Sub (k : nat).
(** No counterpart: one step of the event loop. *)
Definition advance (y : dbase) (e : sevent) : dbase :=
  match e with
  | Op i =>
    match nth_error (ops y) i with
    | None => y
    | Some (g, t) =>
      let '(t', s') := step seal unseal t (slots y g) in
      {| slots := put_slot (slots y) g s'; root := root y; ops := replace i (g, t') (ops y); savers := savers y; subs := subs y |}
    end
  | Saver j =>
    match nth_error (savers y) j with
    | None => y
    | Some x => saver_step j x y
    end
  | Sub k =>
    match nth_error (subs y) k with
    | None => y
    | Some (j, (g, t)) =>
      let '(t', s') := step seal unseal t (slots y g) in
      {| slots := put_slot (slots y) g s'; root := root y; ops := ops y; savers := savers y; subs := replace k (j, (g, t')) (subs y) |}
    end
  end.
(** No counterpart: the steps of the event loop. *)
Definition saving_run (es : list sevent) (y : dbase) : dbase := fold_left advance es y.
(** Tasks with their operations, and [n] tasks that save the database. No counterpart: the state
    in which the tasks are created. *)
Definition opening (os : list (nat * op V)) (n : nat) (w : nat -> slot V) (r : option bytes) : dbase :=
  {| slots := w; root := r; ops := map (fun p => (fst p, Start (snd p))) os; savers := repeat SFresh n; subs := [] |}.
End Save.
Arguments slots {V}. Arguments root {V}. Arguments ops {V}. Arguments savers {V}. Arguments subs {V}.
Arguments listing {V}. Arguments spawn {V}. Arguments failed {V}. Arguments over {V}. Arguments waiting {V}. Arguments of_saver {V}.
Arguments saver_step {V}. Arguments put_slot {V}. Arguments advance {V}. Arguments saving_run {V}. Arguments opening {V}.
