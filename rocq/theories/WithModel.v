(** * Databases as context managers: sync_database.py 787-808, async_database.py 847-868

    DbModel.v has the database and its calls.  Here a program makes such calls
    in blocks [with db:], and exceptions end a block early.  A database without
    metatags; with [async with] nothing else happens between the steps. *)
From Verif Require Import Base DbModel.
Local Open Scope nat_scope.

(** A program that uses one database. No counterpart: the caller's code. *)
Inductive prog (json : Type) :=
| Call (o : op json)                (* a call; if it raises, so does the program *)
| Throw (e : exn)                   (* an exception of the program's own, or CancelledError *)
| Seq (p q : prog json)             (* one after the other *)
| Try (p q : prog json)             (* try: p  except BaseException: q *)
| With (p : prog json).             (* with db: p *)
Arguments Call {json}.
Arguments Throw {json}.
Arguments Seq {json}.
Arguments Try {json}.
Arguments With {json}.

Section With.
Variable json : Type.
Variable dumps : json -> result bytes.
Variable loads : bytes -> result json.
Variable key : Type.
Variable root_filename : key -> bytes.
Variable filename_of : key -> bytes -> bytes -> bytes.
Variable encrypt : nat -> key -> bytes -> bytes -> bytes -> bytes.
Variable decrypt : key -> bytes -> bytes -> bytes -> result bytes.
Variable encrypt_manifest : nat -> key -> bytes -> bytes.
Variable manifest_text : manifest -> bytes.
Variable set_order : list bytes -> list bytes.
Notation db := (db json key).
Notation reply := (reply json).

(** sync_database.py 787-792 [__enter__], async_database.py 847-852 [__aenter__]: the object itself;
    nothing is read. *)
Definition enter (d : db) : db := d.

(** sync_database.py 794-808 [__exit__], async_database.py 854-866 [__aexit__]: [exc] is what the
    block raised. *)
Definition exit (exc : option exn) (d : db) (w : world) : result bool * world :=
  let '(r, w1) := save_database json dumps key root_filename encrypt encrypt_manifest manifest_text d w in
  (_ <- r ;; Ok (match exc with None => true | Some _ => false end), w1).

(** Python's [with] statement: what it raises, from what the block raised and what [__exit__] did. No
    counterpart: the interpreter. *)
Definition with_raises (exc : option exn) (r : result bool) : option exn :=
  match r with
  | Err e => Some e
  | Ok true => None
  | Ok false => exc
  end.

(** The replies of the calls, what the program raises, and the state it leaves. No counterpart: the
    interpreter. *)
Fixpoint exec (p : prog json) (d : db) (w : world) : list reply * option exn * db * world :=
  match p with
  | Call o =>
    let '(r, d1, w1) := perform json dumps loads key root_filename filename_of encrypt decrypt encrypt_manifest manifest_text set_order o d w in
    ([r], match r with Raised _ e => Some e | _ => None end, d1, w1)
  | Throw e => ([], Some e, d, w)
  | Seq p q =>
    let '(rs, exc, d1, w1) := exec p d w in
    match exc with
    | Some e => (rs, Some e, d1, w1)
    | None => let '(rs', exc', d2, w2) := exec q d1 w1 in (rs ++ rs', exc', d2, w2)
    end
  | Try p q =>
    let '(rs, exc, d1, w1) := exec p d w in
    match exc with
    | None => (rs, None, d1, w1)
    | Some _ => let '(rs', exc', d2, w2) := exec q d1 w1 in (rs ++ rs', exc', d2, w2)
    end
  | With p =>
    let '(rs, exc, d1, w1) := exec p (enter d) w in
    let '(r, w2) := exit exc d1 w1 in
    (rs, with_raises exc r, d1, w2)
  end.
End With.
