(** * Vocabulary for the statements about permutations and GUID makers shared by tasks. *)
From Coq Require Import ZArith.
From Verif Require Import Base PermModel PermSpec ClockModel IdModel IdSpec WeaveModel.
Local Open Scope Z_scope.

(** ** Permutations *)

(** A permutation before any task has called it. *)
Definition unused (s : chain) : shared := {| sh_chain := s; sh_tasks := fun _ => None |}.

(** The permutation after a schedule, the calls that ended in it, and whether a task is inside a call. *)
Definition chain_after (s : chain) (l : list action) : chain := sh_chain (fst (run (unused s) l)).
Definition ended (s : chain) (l : list action) : list event := snd (run (unused s) l).
Definition inside (s : chain) (l : list action) (t : nat) : Prop :=
  sh_tasks (fst (run (unused s) l)) t <> None.

(** Task [t], idle after [l1], awaits the method [k]; all through [l2] it is inside that call; its
    next turn ends the call with the answer [r]. *)
Definition one_call (s : chain) (l1 : list action) (t : nat) (k : job) (l2 : list action)
    (r : result answer) : Prop :=
  ~ inside s l1 t /\
  (forall l3 l4, l2 = l3 ++ l4 -> inside s (l1 ++ Make t k :: l3) t) /\
  ended s (l1 ++ Make t k :: l2 ++ [Resume t]) = ended s (l1 ++ Make t k :: l2) ++ [(t, k, r)].

(** The synchronous method, asked of a permutation nobody else uses. *)
Definition answer_of (s : chain) (k : job) : result answer :=
  match k with
  | Permute v => x <- chain_permute s v ;; Ok (Number x)
  | Invert v => x <- chain_invert s v ;; Ok (Number x)
  | UncappedPermute v => x <- chain_uncapped_permute s v ;; Ok (Number x)
  | UncappedInvert v => x <- chain_uncapped_invert s v ;; Ok (Number x)
  | Step => Ok Nothing
  | UpdateIncrement v => _ <- chain_update_increment s v ;; Ok Nothing
  end.

(** The tweaks among the calls that ended, in the order in which they ended. *)
Definition tweaks (es : list event) : list chain_op :=
  flat_map (fun e => match e with
                     | (_, Step, _) => [OpStep]
                     | (_, UpdateIncrement v, _) => [OpUpdateIncrement v]
                     | _ => []
                     end) es.

(** How often a task must be given a turn for a call to end. *)
Definition turns (k : job) : nat := match k with Step | UpdateIncrement _ => 1%nat | _ => 3%nat end.
(** How often task [t] is given a turn. *)
Definition turns_of (t : nat) (l : list action) : nat :=
  length (filter (fun a => match a with Resume u => Nat.eqb u t | _ => false end) l).

(** ** GUID makers *)

Definition idle (g : guid) : maker := {| mk_guid := g; mk_tasks := fun _ => None |}.
Definition ids_ended (g : guid) (l : list id_action) : list id_event := snd (id_run (idle g) l).
Definition id_inside (g : guid) (l : list id_action) (t : nat) : Prop :=
  mk_tasks (fst (id_run (idle g) l)) t <> None.

(** The time and the token which an action uses to make a GUID, if it does. *)
Definition drawn (m : maker) (a : id_action) : list call :=
  match a with
  | IdNow t New now token =>
    match mk_tasks m t with None => [(now, token)] | Some _ => [] end
  | IdResume t now token =>
    match mk_tasks m t with Some (New, Drawing) => [(now, token)] | _ => [] end
  | _ => []
  end.
(** The times and tokens used in a schedule, in order. *)
Fixpoint draws_from (m : maker) (l : list id_action) : list call :=
  match l with
  | [] => []
  | a :: l => drawn m a ++ draws_from (fst (id_act m a)) l
  end.
Definition draws (g : guid) (l : list id_action) : list call := draws_from (idle g) l.

(** What the calls for a new GUID gave, in the order in which they ended. *)
Definition new_ids (es : list id_event) : list (result bytes) :=
  flat_map (fun e => match e with
                     | (_, New, Ok (Identifier b)) => [Ok b]
                     | (_, New, Err e) => [Err e]
                     | _ => []
                     end) es.

(** As [one_call]. *)
Definition one_id_call (g : guid) (l1 : list id_action) (t : nat) (k : id_job) (l2 : list id_action)
    (now : Z) (token : bytes) (r : result id_answer) : Prop :=
  ~ id_inside g l1 t /\
  (forall l3 l4, l2 = l3 ++ l4 -> id_inside g (l1 ++ IdMake t k :: l3) t) /\
  ids_ended g (l1 ++ IdMake t k :: l2 ++ [IdResume t now token])
    = ids_ended g (l1 ++ IdMake t k :: l2) ++ [(t, k, r)].
