(** * Vocabulary for the statements about identifiers. *)
From Verif Require Import Base PermModel ClockModel IdModel.
Local Open Scope Z_scope.

(** A call: the system time and the random token of that call. *)
Definition call := (Z * bytes)%type.
Definition good_token (config_id : N) (c : call) : Prop := blen (snd c) = (config_id - 10)%N.

(** The successive results of a history of calls on one instance; a call that
    raises leaves the instance as it was. *)
Fixpoint raw_run (r : raw_guid) (h : list call) : list (result bytes) :=
  match h with
  | [] => []
  | (now, token) :: h =>
    match raw_new r now token with
    | Ok (g, r') => Ok g :: raw_run r' h
    | Err e => Err e :: raw_run r h
    end
  end.
Fixpoint guid_run (g : guid) (h : list call) : list (result bytes) :=
  match h with
  | [] => []
  | (now, token) :: h =>
    match guid_new g now token with
    | Ok (b, g') => Ok b :: guid_run g' h
    | Err e => Err e :: guid_run g h
    end
  end.

(** The reading of the nanosecond clock at a call. *)
Definition reading (c : call) : Z :=
  clock_time {| ck_unit := Nanoseconds; ck_epoch := EPOCH_NS |} (fst c).
(** The clock readings of the calls never decrease. *)
Definition monotone (h : list call) : Prop :=
  forall i j a b, (i <= j)%nat -> nth_error h i = Some a -> nth_error h j = Some b ->
    reading a <= reading b.
(** At most 256 calls see the same reading. *)
Definition at_most_256_per_reading (h : list call) : Prop :=
  forall t, (length (filter (fun c => (reading c =? t)%Z) h) <= 256)%nat.

(** Lexicographic order on lists of numbers of equal length. *)
Fixpoint lex_lt (a b : list N) : Prop :=
  match a, b with
  | x :: a', y :: b' => (x < y)%N \/ (x = y /\ lex_lt a' b')
  | _, _ => False
  end.
(** A parsed identifier as numbers: when, where, which tick, token. *)
Definition fields (c : container) : list N :=
  [be_int (co_timestamp c); be_int (co_node_id c); be_int (co_ticker c); be_int (co_token c)].
