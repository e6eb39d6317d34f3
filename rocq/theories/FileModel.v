(** * Model of reading, writing and appending files

    aiootp/generics/byte_io.py 222-268.  Calls run side by side, as tasks, threads or
    processes; the operating system does one system call at a time.  The synchronous and the
    asynchronous forms make the same system calls.  Not modelled: cancellation, files that are
    unlinked or renamed, links, directories. *)
From Coq Require Import ZArith.
From Verif Require Import Base.

(** The files of the operating system: what each path holds. No counterpart: a path that is
    [None] has no file. A path is a number. *)
Definition disk := nat -> option bytes.
(** byte_io.py 222-268: the calls, each with its arguments. *)
Inductive call :=
| Read (path : nat) (size : Z)
| Write (path : nat) (data : bytes)
| Append (path : nat) (data : bytes).
(** Where a call is: in front of [open]; between two system calls, with its position in the
    file and what it has read, or what it has still to write; back. byte_io.py 222-268. *)
Inductive stage :=
| Before (c : call)
| Reading (path : nat) (rest : option nat) (got : bytes)
| Writing (path : nat) (position : nat) (rest : bytes)
| Appending (path : nat) (rest : bytes)
| Back (r : result bytes).
(** What the operating system does with a system call: it transfers as many bytes as it likes,
    at least one, or fails with an OSError. No counterpart: this is outside of the code. *)
Inductive answer := Transfer (more : nat) | Refuse.

(** The call to [open]. byte_io.py 227, 235, 243, 251, 259, 267: rb wants the file, wb+ creates
    or empties it, ab+ creates it when there is none. [read] refuses sizes below -1 when the file is
    open, and reads nothing when [size] is 0 (io.BufferedReader.read). *)
Definition opened (c : call) (d : disk) : stage * disk :=
  match c with
  | Read path size =>
      match d path with
      | None => (Back (Err FileNotFoundErr), d)
      | Some _ =>
          if (size <? -1)%Z then (Back (Err ValueErr), d)
          else if (size =? -1)%Z then (Reading path None [], d)
          else if (size =? 0)%Z then (Back (Ok []), d)
          else (Reading path (Some (Z.to_nat size)) [], d)
      end
  | Write path data =>
      let d := fun p => if Nat.eqb p path then Some [] else d p in
      (match data with [] => Back (Ok []) | _ => Writing path 0 data end, d)
  | Append path data =>
      let d := fun p => if Nat.eqb p path then Some (match d path with Some l => l | None => [] end) else d p in
      (match data with [] => Back (Ok []) | _ => Appending path data end, d)
  end.

(** A write of [piece] at [position]. No counterpart: this is the system call write; what is between the
    end of the file and [position] becomes zeros. *)
Definition placed (position : nat) (piece content : bytes) : bytes :=
  firstn position content ++ repeat x00 (position - length content) ++ piece
    ++ skipn (position + length piece) content.

(** The contents of an open file. No counterpart: a file that is open is there. *)
Definition held (d : disk) (path : nat) : bytes := match d path with Some l => l | None => [] end.
(** A new content. No counterpart: part of the system call write. *)
Definition now_holds (d : disk) (path : nat) (content : bytes) : disk :=
  fun p => if Nat.eqb p path then Some content else d p.

(** The next system call of a call. byte_io.py 228, 236: [f.read] reads until it has [size]
    bytes or the file ends. 244, 252, 260, 268: [f.write] and the [close] that follows write
    what there is, in as many pieces as the buffer and the operating system make of it. A
    failing call raises; that [close] tries once more to write what is left is a further step
    in front of the failure. *)
Definition proceed (s : stage) (a : answer) (d : disk) : stage * disk :=
  match s, a with
  | Back r, _ => (Back r, d)
  | _, Refuse => (Back (Err OtherErr), d)
  | Before c, Transfer _ => opened c d
  | Reading path rest got, Transfer more =>
      let next := skipn (length got) (held d path) in
      let piece := firstn (match rest with Some n => Nat.min (S more) n | None => S more end) next in
      let rest := match rest with Some n => Some (n - length piece)%nat | None => None end in
      (match piece, rest with
       | [], _ | _, Some O => Back (Ok (got ++ piece))
       | _, _ => Reading path rest (got ++ piece)
       end, d)
  | Writing path position rest, Transfer more =>
      let piece := firstn (S more) rest in
      let d := now_holds d path (placed position piece (held d path)) in
      (match skipn (S more) rest with
       | [] => Back (Ok [])
       | rest => Writing path (position + length piece) rest
       end, d)
  | Appending path rest, Transfer more =>
      let piece := firstn (S more) rest in
      let d := now_holds d path (held d path ++ piece) in
      (match skipn (S more) rest with
       | [] => Back (Ok [])
       | rest => Appending path rest
       end, d)
  end.

(** No counterpart: the [i]-th member of a list is replaced. *)
Fixpoint replace {A} (i : nat) (x : A) (l : list A) : list A :=
  match l, i with
  | [], _ => []
  | _ :: l, O => x :: l
  | y :: l, S i => y :: replace i x l
  end.
(** The operating system serves the [i]-th call. No counterpart: one step of a schedule. *)
Definition serve (w : list stage * disk) (e : nat * answer) : list stage * disk :=
  match nth_error (fst w) (fst e) with
  | None => w
  | Some s => let '(s, d) := proceed s (snd e) (snd w) in (replace (fst e) s (fst w), d)
  end.
(** No counterpart: a history, from its first step on. *)
Definition serve_all (w : list stage * disk) (es : list (nat * answer)) : list stage * disk := fold_left serve es w.
(** Calls that have not begun. No counterpart: the start of a history. *)
Definition calls (cs : list call) : list stage := map Before cs.
