(** * Salt files: aiootp/_paths.py

    One path.  What the operating system does to it is one atomic operation per
    call ([chmod], [open] for writing, [write], [read], [unlink], [mkdir]); threads
    and tasks can be interleaved between any two of them.  The asynchronous
    functions (lines 154-168, 187-204, 227-243, 264-274, 288-314) make the same
    calls in the same order.  Simplifications: the file belongs to the user who
    runs the program; reading and writing are not split any further; the handle of
    an open file keeps pointing at the path (it matters only if another process
    deletes the file while it is being written). *)
From Verif Require Import Base.
Local Open Scope N_scope.

(** Directories above the file exist one inside the other: [dirs] is the number of them that
    exist. The file has contents and permission bits. _paths.py 52-66. *)
Record fs := { dirs : nat; file : option (bytes * N) }.

(** No counterpart: the file changes. *)
Definition set_file (f : option (bytes * N)) (s : fs) : fs := {| dirs := dirs s; file := f |}.

(** _paths.py 168, 184, 204, 224: 0o000.  199, 214: 0o600. *)
Definition CLOSED : N := 0.
(** _paths.py 199, 214. *)
Definition OPENED : N := 384.
(** No counterpart: the owner may read. *)
Definition readable (mode : N) : bool := N.testbit mode 8.
(** No counterpart: the owner may write. *)
Definition writable (mode : N) : bool := N.testbit mode 7.

(** _paths.py 160, 177, 218, 234, 251: the least size of a salt. *)
Definition MIN_SALT : N := 32.

(** _paths.py 154-285: the system calls and guards. *)
Inductive act :=
| Enter (exclusive : bool)     (* [guards.guard] is exclusive, [guards.monitor] is not *)
| Leave
| Chmod (mode : N)
| Truncate                     (* open(path, wb) *)
| Write (data : bytes)
| Load                         (* open(path, rb) and read, and the test of the size *)
| Unlink
| Mkdir (depth : nat)
| Refuse.                      (* raise ValueError *)

(** Calls. [token] is what [secrets.token_bytes] would return. _paths.py 154-343. *)
Inductive call :=
| Make (salt token : bytes)
| Read
| Update (salt : bytes)
| Delete
| EnsureDir (depth : nat)      (* path.is_dir() or ... *)
| MakeDir (depth : nat)        (* ... path.mkdir() *)
| EnsureFile (token : bytes).  (* salt_path.is_file() or make_salt_file(salt_path) *)

(** What a call does, in order; the flag marks what is done even if an exception is pending
    ([finally], [__exit__]). _paths.py 171-285. *)
Definition code (c : call) : list (bool * act) :=
  match c with
  | Make salt token =>
    (* _paths.py 171-184 [make_salt_file] *)
    let salt := match salt with [] => token | _ => salt end in
    if blen salt <? MIN_SALT then [(false, Refuse)]
    else [(false, Enter true); (false, Truncate); (false, Write salt); (false, Chmod CLOSED); (true, Leave)]
  | Read =>
    (* 207-224 [read_salt_file] *)
    [(false, Enter false); (false, Chmod OPENED); (false, Load); (true, Chmod CLOSED); (true, Leave)]
  | Update salt =>
    (* 246-261 [update_salt_file] *)
    if blen salt <? MIN_SALT then [(false, Refuse)]
    else [(false, Enter true); (false, Chmod OPENED); (false, Truncate); (false, Write salt);
          (true, Chmod CLOSED); (true, Leave)]
  | Delete =>
    (* 276-285 [delete_salt_file] *)
    [(false, Enter true); (false, Chmod OPENED); (false, Unlink); (true, Leave)]
  | MakeDir depth => [(false, Mkdir depth)]
  | EnsureDir _ | EnsureFile _ => []     (* see [advance] *)
  end.

(** _paths.py 317-343 [SecureSaltPath], with the [read_salt_file] that follows it at
    every use (randoms/_early_salts.py 38-39, randoms/ids/guid_config.py 31-32,
    databases/profile_tokens.py 183-184, 192-193).  [depth] directories are made
    first: one, or two for administrative salts. *)
Definition open_salt (depth : nat) (token : bytes) : list call :=
  map EnsureDir (seq 0 depth) ++ [EnsureFile token; Read].

(** A thread (or task): the call it is in, what is left of it, the calls after it, what was read
    and the exception that is pending. No counterpart: as it says. *)
Record thread := {
  current : call;
  now : list (bool * act);
  later : list call;
  got : option bytes;
  failure : option exn;
}.

(** No counterpart: the disk, the threads and who is inside a guard. *)
Record world := {
  disk : fs;
  inside : list (nat * bool);     (* who is in a guarded block, and whether exclusively *)
  threads : nat -> thread;
}.

(** What can be seen: the call is over, with this result. No counterpart: as it says. *)
Inductive event := Done (i : nat) (c : call) (r : result (option bytes)).

Section Salt.
Variable privileged : bool.      (* permission bits do not bind the superuser *)
Variable created : N.            (* permission bits of new files, from the umask *)
Variable need : nat.             (* number of directories above the file *)
Variable process : nat -> nat.   (* the process each thread runs in *)

(** No counterpart: what the operating system checks. *)
Definition may_read (mode : N) : bool := privileged || readable mode.
(** No counterpart: what the operating system checks. *)
Definition may_write (mode : N) : bool := privileged || writable mode.

(** The system calls. No counterpart: what the operating system does. *)
Definition do_act (a : act) (s : fs) : result (fs * option bytes) :=
  match a with
  | Enter _ | Leave => Ok (s, None)
  | Chmod mode =>
    match file s with
    | None => Err FileNotFoundErr
    | Some (c, _) => Ok (set_file (Some (c, mode)) s, None)
    end
  | Truncate =>
    if Nat.ltb (dirs s) need then Err FileNotFoundErr
    else match file s with
    | None => Ok (set_file (Some ([], created)) s, None)
    | Some (_, mode) => if may_write mode then Ok (set_file (Some ([], mode)) s, None) else Err PermissionErr
    end
  | Write data =>
    (* from the start of the file *)
    match file s with
    | None => Ok (s, None)
    | Some (c, mode) => Ok (set_file (Some (data ++ skipn (length data) c, mode)) s, None)
    end
  | Load =>
    match file s with
    | None => Err FileNotFoundErr
    | Some (c, mode) =>
      if may_read mode then if blen c <? MIN_SALT then Err ValueErr else Ok (s, Some c)
      else Err PermissionErr
    end
  | Unlink => Ok (set_file None s, None)
  | Mkdir depth =>
    if Nat.ltb (dirs s) depth then Err FileNotFoundErr
    else if Nat.eqb (dirs s) depth then Ok ({| dirs := S depth; file := file s |}, None)
    else Err OtherErr             (* FileExistsError *)
  | Refuse => Err ValueErr
  end.

(** asynchs/guards, as C39 describes them: in one process, an exclusive block runs alone and
    other blocks run with one another. Other processes have guards of their own.
    guards/manager.py 136-345, as used in _paths.py 34. *)
Definition may_enter (exclusive : bool) (i : nat) (l : list (nat * bool)) : bool :=
  forallb (fun '(j, x) => negb (Nat.eqb (process j) (process i)) || negb (exclusive || x)) l.

(** No counterpart: a thread proceeds. *)
Definition set_thread (i : nat) (t : thread) (w : world) : world :=
  {| disk := disk w; inside := inside w; threads := fun j => if Nat.eqb j i then t else threads w j |}.
(** No counterpart: the disk changes. *)
Definition set_disk (s : fs) (w : world) : world :=
  {| disk := s; inside := inside w; threads := threads w |}.
(** No counterpart: somebody enters or leaves. *)
Definition set_inside (l : list (nat * bool)) (w : world) : world :=
  {| disk := disk w; inside := l; threads := threads w |}.

(** Go on to the next call. No counterpart: a call begins. *)
Definition begin (c : call) (rest : list call) : thread :=
  {| current := c; now := code c; later := rest; got := None; failure := None |}.

(** _paths.py 333-342: the next call of a thread, and what [SecureSaltPath] does next. *)
Definition advance (i : nat) (t : thread) (w : world) : list event * world :=
  match failure t, later t with
  | Some _, _ => ([], w)                 (* the exception leaves the thread *)
  | None, [] => ([], w)                  (* finished *)
  | None, EnsureDir depth :: rest =>
    (* _paths.py 333-334, 336-338 *)
    let rest := if Nat.ltb depth (dirs (disk w)) then rest else MakeDir depth :: rest in
    ([Done i (EnsureDir depth) (Ok None)],
     set_thread i {| current := EnsureDir depth; now := []; later := rest; got := None; failure := None |} w)
  | None, EnsureFile token :: rest =>
    (* _paths.py 342 *)
    let rest := match file (disk w) with Some _ => rest | None => Make [] token :: rest end in
    ([Done i (EnsureFile token) (Ok None)],
     set_thread i {| current := EnsureFile token; now := []; later := rest; got := None; failure := None |} w)
  | None, c :: rest => ([], set_thread i (begin c rest) w)
  end.

(** No counterpart: what the call returns or raises. *)
Definition outcome (t : thread) : result (option bytes) :=
  match failure t with Some e => Err e | None => Ok (got t) end.

(** The event of a call whose last operation was just done. No counterpart: as it says. *)
Definition over (i : nat) (t : thread) : list event :=
  match now t with
  | [] => [Done i (current t) (outcome t)]
  | _ => []
  end.

(** No counterpart: a thread proceeds. *)
Definition with_rest (rest : list (bool * act)) (t : thread) : thread :=
  {| current := current t; now := rest; later := later t; got := got t; failure := failure t |}.

(** One operation of thread [i]. A thread that may not enter its block yet stays where it is.
    _paths.py 154-343: one operation. *)
Definition step (i : nat) (w : world) : list event * world :=
  let t := threads w i in
  match now t with
  | [] => advance i t w
  | (always, a) :: rest =>
    let t1 := with_rest rest t in
    match failure t, always with
    | Some _, false => (over i t1, set_thread i t1 w)      (* skipped *)
    | _, _ =>
      match a with
      | Enter x =>
        if may_enter x i (inside w)
        then (over i t1, set_thread i t1 (set_inside ((i, x) :: inside w) w))
        else ([], w)
      | Leave =>
        (over i t1, set_thread i t1 (set_inside (filter (fun '(j, _) => negb (Nat.eqb j i)) (inside w)) w))
      | _ =>
        match do_act a (disk w) with
        | Ok (d, r) =>
          let t2 := {| current := current t; now := rest; later := later t;
                       got := match r with Some _ => r | None => got t end; failure := failure t |} in
          (over i t2, set_thread i t2 (set_disk d w))
        | Err e =>
          let t2 := {| current := current t; now := rest; later := later t; got := got t; failure := Some e |} in
          (over i t2, set_thread i t2 w)
        end
      end
    end
  end.

(** A schedule says which thread goes next. No counterpart: as it says. *)
Fixpoint run (l : list nat) (w : world) : list event * world :=
  match l with
  | [] => ([], w)
  | i :: l =>
    let '(e, w) := step i w in
    let '(es, w) := run l w in
    (e ++ es, w)
  end.

(** Every thread starts with its list of calls. No counterpart: as it says. *)
Definition idle (calls : list call) : thread :=
  {| current := Read; now := []; later := calls; got := None; failure := None |}.
(** No counterpart: the state in which the threads start. *)
Definition launch (calls : nat -> list call) (d : fs) : world :=
  {| disk := d; inside := []; threads := fun i => idle (calls i) |}.

(** One call after another, nobody else being there. No call takes more than ten steps. No
    counterpart: as it says. *)
Definition alone (c : call) (d : fs) : result (option bytes) * fs :=
  let '(es, w) := run (repeat 0%nat 10) (launch (fun _ => [c]) d) in
  (match rev es with Done _ _ r :: _ => r | [] => Err OtherErr end, disk w).

(** No counterpart: calls one after another. *)
Fixpoint calls_alone (l : list call) (d : fs) : list (result (option bytes)) * fs :=
  match l with
  | [] => ([], d)
  | c :: l =>
    let '(r, d) := alone c d in
    let '(rs, d) := calls_alone l d in
    (r :: rs, d)
  end.

(** A crash (or a kill): nothing of the threads remains, the disk does. The data of the write
    that was under way may have been written in part. No counterpart: as it says. *)
Definition torn_write (i : nat) (n : nat) (w : world) : world :=
  match now (threads w i) with
  | (_, Write data) :: _ =>
    match do_act (Write (firstn n data)) (disk w) with
    | Ok (d, _) => set_disk d w
    | Err _ => w
    end
  | _ => w
  end.

(** ** Tasks of one event loop

    _paths.py 272: [adelete_salt_file] enters its guard with the synchronous [with]:
    until it may enter, concurrency_guard.py 345-350 sleeps in the loop's thread and
    no other task runs.  [waits_hard] says that a task is at that point. *)
Definition waits_hard (t : thread) : bool :=
  match now t, current t, failure t with
  | (_, Enter _) :: _, Delete, None => true
  | _, _, _ => false
  end.

(** The loop runs the task [i] if no task holds up the loop. No counterpart: the event loop. *)
Definition loop_step (tasks : list nat) (i : nat) (w : world) : list event * world :=
  match find (fun j => waits_hard (threads w j)) tasks with
  | Some j => step j w
  | None => step i w
  end.

(** No counterpart: the event loop. *)
Fixpoint loop (tasks : list nat) (l : list nat) (w : world) : list event * world :=
  match l with
  | [] => ([], w)
  | i :: l =>
    let '(e, w) := loop_step tasks i w in
    let '(es, w) := loop tasks l w in
    (e ++ es, w)
  end.

End Salt.
