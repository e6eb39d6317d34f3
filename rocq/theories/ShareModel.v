(** * Several objects of one database

    Objects made with the same key and path, in one process or in several.  Their calls come one after another in any
    order; a call is not interrupted by another's (for the crash and for tasks within one call see DbProps and SaveProps).
    Without metatags. *)
From Verif Require Import Base DbModel.

Section Share.
Variable json : Type.
Variable dumps : json -> result bytes.
Variable loads : bytes -> result json.
Variable key : Type.
Variable root_filename : key -> bytes.
Variable filename_of : key -> bytes -> bytes -> bytes.
Variable encrypt : nat -> key -> bytes -> bytes -> bytes -> bytes.
Variable decrypt : key -> bytes -> bytes -> bytes -> result bytes.
Variable encrypt_manifest : nat -> key -> bytes -> bytes.
Variable decrypt_manifest : key -> bytes -> result bytes.
Variable new_salt : nat -> bytes.
Variable manifest_text : manifest -> bytes.
Variable manifest_of_text : bytes -> result manifest.
Variable set_order : list bytes -> list bytes.
Notation db := (db json key).

(** sync_database.py 147-188 [__init__]: object [i] is made (again); or one of its methods is called, sync_database.py 291-785. *)
Inductive act := Open (i : nat) (silent preload : bool) | Call (i : nat) (o : op json).
(** No counterpart: the objects there are. *)
Definition objects := nat -> option db.
(** No counterpart: object [i] is replaced. *)
Definition place (s : objects) (i : nat) (d : db) : objects := fun j => if Nat.eqb j i then Some d else s j.

(** One call. sync_database.py 147-188, 291-785; calling an object that does not exist is a NameError. *)
Definition act_step (kk : key) (a : act) (s : objects) (w : world) : reply json * objects * world :=
  match a with
  | Open i silent preload =>
    let '(r, w1) := open_db json loads key root_filename filename_of decrypt decrypt_manifest new_salt manifest_of_text set_order kk silent preload w in
    (reply_of json (fun _ => Done _) r, match r with Ok d => place s i d | Err _ => s end, w1)
  | Call i o =>
    match s i with
    | None => (Raised _ OtherErr, s, w)
    | Some d =>
      let '(r, d1, w1) := perform json dumps loads key root_filename filename_of encrypt decrypt encrypt_manifest manifest_text set_order o d w in
      (r, place s i d1, w1)
    end
  end.
(** No counterpart: calls one after another. *)
Fixpoint together (kk : key) (l : list act) (s : objects) (w : world) : list (reply json) * objects * world :=
  match l with
  | [] => ([], s, w)
  | a :: l =>
    let '(r, s1, w1) := act_step kk a s w in
    let '(rs, s2, w2) := together kk l s1 w1 in
    (r :: rs, s2, w2)
  end.
End Share.
