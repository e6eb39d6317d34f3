(** * What is said about displays of objects and the debug mode *)
From Verif Require Import Base StrModel ReprModel.
Local Open Scope N_scope.

(** Names that are displayed: those that do not begin with an underscore. *)
Definition visible (name : str) : Prop := exists c rest, name = c :: rest /\ c <> 95.

(** Two memories which differ only in what should not be displayed.  Objects have the same class
    and the same names in both; visible values of an object that hides its values are of the same
    class, and visible values of one that does not are the same. *)
Definition same_class (h1 h2 : memory) (v1 v2 : value) : Prop := class_of h1 v1 = class_of h2 v2.
Definition items_agree (agree : value -> value -> Prop) (l1 l2 : list (str * value)) : Prop :=
  Forall2 (fun x y => fst x = fst y /\ (visible (fst x) -> agree (snd x) (snd y))) l1 l2.
Definition slots_agree (agree : value -> value -> Prop) (l1 l2 : list (str * option value)) : Prop :=
  Forall2 (fun x y => fst x = fst y /\
    (match snd x, snd y with Some v, Some w => agree v w | None, None => True | _, _ => False end \/ hd_error (fst x) = Some 95)) l1 l2.
Definition objects_agree (debugging : bool) (h1 h2 : memory) (o1 o2 : object) : Prop :=
  match o1, o2 with
  | Mapped m1 n1 c1 l1, Mapped m2 n2 c2 l2 =>
    m1 = m2 /\ n1 = n2 /\ c1 = c2 /\
    if m1 && negb debugging then items_agree (same_class h1 h2) l1 l2 else items_agree eq l1 l2
  | Instance n1 c1 l1, Instance n2 c2 l2 => n1 = n2 /\ c1 = c2 /\ slots_agree (same_class h1 h2) l1 l2
  | _, _ => False
  end.
Definition alike (debugging : bool) (h1 h2 : memory) : Prop := Forall2 (objects_agree debugging h1 h2) h1 h2.

(** A text is a part of another. *)
Definition part (t text : str) : Prop := exists before after, text = before ++ t ++ after.

(** The mode that the calls asked for; [stopped]: those that should warn and cannot. *)
Fixpoint asked (stopped : bool) (os : list control_op) (now : bool) : bool :=
  match os with
  | [] => now
  | Enable silent :: os => asked stopped os (if negb silent && stopped then now else true)
  | Disable :: os => asked stopped os false
  end.
(** What a function in [_switches] was told last. *)
Definition told (i : nat) (c : control) : bool :=
  match find (fun x => Nat.eqb (fst x) i) (rev (calls c)) with Some (_, b) => b | None => false end.
