(** * Model of tasks that use one AsyncDatabase at the same time

    aiootp/databases/async_database.py 489-630, 781-837.  A task runs without
    interruption between two points where it awaits something that yields: [afilename]
    (346-356, which yields in [acanonical_pack]), encryption and decryption, and the
    operations on files, which are done by other threads.  All operations of a task are
    on one tag, that is on the entry of one filename in the cache, in the manifest and in
    the directory. *)
From Verif Require Import Base.

Section Tasks.
(** Values, and [json.dumps] or the flag for bytes with [abytes_encrypt] under the key of
    the filename.  One ciphertext for each value: the salts and times of ciphertexts are
    left out. *)
Variable V : Type.
Variable seal : V -> bytes.
Variable unseal : bytes -> option V.

(** What there is under one filename: the entry in the cache, whether the manifest lists it, and
    the file with a number that tells it from files of that name that were deleted before.
    [born] counts the files made so far. No counterpart: one entry of the dictionaries in
    database_properties.py 38-48, and its file. *)
Record slot := { cached : option V; listed : bool; file : option (nat * bytes); born : nat }.
(** No counterpart: a new entry in the cache. *)
Definition with_cached (x : option V) (s : slot) : slot := {| cached := x; listed := listed s; file := file s; born := born s |}.
(** No counterpart: a new entry in the manifest. *)
Definition with_listed (b : bool) (s : slot) : slot := {| cached := cached s; listed := b; file := file s; born := born s |}.
(** No counterpart: a new file. *)
Definition with_file (f : option (nat * bytes)) (s : slot) : slot := {| cached := cached s; listed := listed s; file := f; born := born s |}.

(** [aset_tag(tag, v, cache=keep)], [aquery_tag(tag, silent=silent, cache=keep)],
    [asave_tag(tag, drop_cache=drop)], [apop_tag(tag, silent=silent)], [arollback_tag(tag,
    cache=keep)]. async_database.py 501-630, 818-837. *)
Inductive op := Set_ (v : V) (keep : bool) | Query (silent keep : bool) | Save (drop : bool) | Pop (silent : bool) | Rollback (keep : bool).
(** A value, None, the database itself, LookupError (or its subclass KeyError), another
    exception from decryption. async_database.py 501-630, 818-837: what these return or raise. *)
Inductive reply := Found (v : V) | Nothing | Fine | Missing | Refused.
(** No counterpart: a value or None. *)
Definition value_reply (v : option V) : reply := match v with Some v => Found v | None => Nothing end.

(** What is done with the result of [aquery_tag]: it is returned, [apop_tag] goes on,
    [arollback_tag] ends. async_database.py 583-630. *)
Inductive after := Give | Popping (silent : bool) | Rolling.
(** Where a task is: before its first step; [asave_tag] in [afilename], while the value is
    encrypted, with the file opened, with the file closed; [aquery_tag] in [afilename], before
    the file is read, while it is decrypted; [apop_tag] before the file is deleted; at its end.
    async_database.py 489-630, 781-837. *)
Inductive task :=
| Start (o : op)
| Saving (drop : bool) | Sealing (drop : bool) (c : bytes) | Opened (drop : bool) (c : bytes) (n : nat) | Closed (drop : bool)
| Looking (a : after) (silent keep : bool) | Reading (a : after) (silent keep : bool) | Unsealing (a : after) (keep : bool) (c : bytes)
| Unlinking (silent : bool) (v : option V) (failures : nat)
| Done (r : reply).

(** async_database.py 818-837 [asave_tag] and 781-797 [_asave_file] up to the encryption. *)
Definition save_step (drop : bool) (s : slot) : task * slot :=
  match cached s with
  | None => (Done Missing, s)
  | Some v => (Sealing drop (seal v), s)
  end.
(** Behind [aquery_tag]; async_database.py 600-603 of [apop_tag] delete the entries of the manifest and of
    the cache, and count failures. *)
Definition finish (a : after) (v : option V) (s : slot) : task * slot :=
  match a with
  | Give => (Done (value_reply v), s)
  | Popping silent =>
    let failures := ((if listed s then 0 else 1) + (match cached s with Some _ => 0 | None => 1 end))%nat in
    (Unlinking silent v failures, with_cached None (with_listed false s))
  | Rolling => (Done Fine, s)
  end.
(** async_database.py 549-550 of [aquery_tag]. *)
Definition look_step (a : after) (silent keep : bool) (s : slot) : task * slot :=
  match cached s with
  | Some v => finish a (Some v) s
  | None => (Reading a silent keep, s)
  end.

(** async_database.py 489-630, 781-837: from one sleep to the next. *)
Definition step (t : task) (s : slot) : task * slot :=
  match t with
  (* 501-517 aset_tag *)
  | Start (Set_ v keep) => ((if keep then Done Fine else Saving true), with_cached (Some v) (with_listed true s))
  | Start (Query silent keep) => look_step Give silent keep s
  | Start (Save drop) => save_step drop s
  (* 583-608 apop_tag: the query is silent and does not cache *)
  | Start (Pop silent) => (Looking (Popping silent) true false, s)
  (* 610-630 arollback_tag *)
  | Start (Rollback keep) =>
    let s := match file s with None => with_listed false s | Some _ => s end in
    let s := with_cached None s in
    ((if keep then Looking Rolling false true else Done Fine), s)
  | Saving drop => save_step drop s
  (* 489-499 _asave_ciphertext, byte_io.py 237-243 awrite: opening with wb+ makes or
     empties the file *)
  | Sealing drop c =>
    match file s with
    | Some (n, _) => (Opened drop c n, with_file (Some (n, [])) s)
    | None => (Opened drop c (born s), {| cached := cached s; listed := listed s; file := Some (born s, []); born := S (born s) |})
    end
  (* writing from the start over what others have written meanwhile; a file that was
     deleted is written to in vain *)
  | Opened drop c n =>
    (Closed drop,
     match file s with
     | Some (m, f) => if Nat.eqb m n then with_file (Some (m, c ++ skipn (length c) f)) s else s
     | None => s
     end)
  (* 834-837: finally *)
  | Closed drop => (Done Fine, if drop then with_cached None s else s)
  | Looking a silent keep => look_step a silent keep s
  (* 519-534 _aquery_ciphertext: opening and reading are one step here; 551-553 *)
  | Reading a silent keep =>
    match file s with
    | None =>
      if silent then finish a None s
      else match a with Rolling => (Done Fine, s) | _ => (Done Missing, s) end
    | Some (_, []) => finish a None s
    | Some (_, c) => (Unsealing a keep c, s)
    end
  (* 555-566 *)
  | Unsealing a keep c =>
    match unseal c with
    | None => (Done Refused, s)
    | Some v => finish a (Some v) (if keep then with_cached (Some v) s else s)
    end
  (* 604-608, 568-581 _adelete_file *)
  | Unlinking silent v failures =>
    match file s with
    | Some _ => (Done (value_reply v), with_file None s)
    | None => ((if negb silent && Nat.eqb failures 2 then Done Missing else Done (value_reply v)), s)
    end
  | Done r => (Done r, s)
  end.

(** Tasks, each on its tag, and what there is under the tags. A schedule says which task
    proceeds. No counterpart: the object and the tasks. *)
Record system := { tasks : list (nat * task); slots : nat -> slot }.
(** No counterpart: a task proceeds. *)
Definition replace {A} (i : nat) (x : A) (l : list A) : list A := firstn i l ++ match skipn i l with [] => [] | _ :: r => x :: r end.
(** No counterpart: one step of the event loop. *)
Definition proceed (i : nat) (y : system) : system :=
  match nth_error (tasks y) i with
  | None => y
  | Some (tag, t) =>
    let '(t', s') := step t (slots y tag) in
    {| tasks := replace i (tag, t') (tasks y); slots := fun g => if Nat.eqb g tag then s' else slots y g |}
  end.
(** No counterpart: the steps of the event loop. *)
Definition run (l : list nat) (y : system) : system := fold_left (fun y i => proceed i y) l y.
(** No counterpart: the state in which the tasks are created. *)
Definition started (os : list (nat * op)) (w : nat -> slot) : system :=
  {| tasks := map (fun p => (fst p, Start (snd p))) os; slots := w |}.
End Tasks.
Arguments cached {V}. Arguments listed {V}. Arguments file {V}. Arguments born {V}.
Arguments with_cached {V}. Arguments with_listed {V}. Arguments with_file {V}.
Arguments Set_ {V}. Arguments Query {V}. Arguments Save {V}. Arguments Pop {V}. Arguments Rollback {V}.
Arguments Found {V}. Arguments Nothing {V}. Arguments Fine {V}. Arguments Missing {V}. Arguments Refused {V}.
Arguments Start {V}. Arguments Saving {V}. Arguments Sealing {V}. Arguments Opened {V}. Arguments Closed {V}.
Arguments Looking {V}. Arguments Reading {V}. Arguments Unsealing {V}. Arguments Unlinking {V}. Arguments Done {V}.
Arguments value_reply {V}. Arguments finish {V}. Arguments look_step {V}. Arguments save_step {V}. Arguments step {V}.
Arguments tasks {V}. Arguments slots {V}. Arguments proceed {V}. Arguments run {V}. Arguments started {V}.
