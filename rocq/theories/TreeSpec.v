(** * Metatags: specification

    Which objects and which files an operation on one object of the tree may
    concern. *)
From Verif Require Import Base DbModel DbSpec TreeModel.
Local Open Scope nat_scope.

Section Spec.
Variables (json key : Type).
Variable root_filename : key -> bytes.
Variable filename_of : key -> bytes -> bytes -> bytes.
Notation db := (db json key).
Notation node := (node json key).

Definition prefix (p q : list bytes) : Prop := exists r, q = p ++ r.

(** The contents of a database: everything but the list of its metatags. *)
Definition same_contents (d d' : db) : Prop :=
  k _ _ d' = k _ _ d /\ salt _ _ d' = salt _ _ d /\ m_tags (m _ _ d') = m_tags (m _ _ d) /\ cache _ _ d' = cache _ _ d.

(** The files a flat operation may write or read. *)
Definition touched (o : op json) (d : db) : list bytes :=
  match o with
  | SaveDatabase _ => root_filename (k _ _ d) :: map fst (cache _ _ d)
  | LoadTags _ _ => map (filename_of (k _ _ d) (salt _ _ d)) (tags _ _ d)
  | o => match op_tag _ o with Some t => [filename_of (k _ _ d) (salt _ _ d) t] | None => [] end
  end.
(** The files of an object and of all those below it. *)
Fixpoint saved_files (x : node) : list bytes :=
  let 'Node _ _ d ks := x in
  root_filename (k _ _ d) :: map fst (cache _ _ d) ++
    (fix f (l : list (bytes * node)) := match l with [] => [] | (_, c) :: l => saved_files c ++ f l end) ks.
Fixpoint listed_files (x : node) : list bytes :=
  let 'Node _ _ d ks := x in
  root_filename (k _ _ d) :: map fst (m_tags (m _ _ d)) ++
    (fix f (l : list (bytes * node)) := match l with [] => [] | (_, c) :: l => listed_files c ++ f l end) ks.

(** The objects whose contents an operation may change, and its files. *)
Definition concerns (p : list bytes) (o : treeop json) (q : list bytes) : Prop :=
  match o with
  | Flat _ _ => q = p
  | Clear _ => prefix p q
  | DeleteMetatag _ t => prefix (p ++ [t]) q
  | Save _ | Metatag _ _ _ _ => False
  end.
Definition concerned_files (o : treeop json) (x : node) : list bytes :=
  match o with
  | Flat _ o => touched o (self _ _ x)
  | Save _ => saved_files x
  | DeleteMetatag _ t => match get t (kids _ _ x) with Some c => LEDGERNAMES ++ listed_files c | None => [] end
  | Clear _ | Metatag _ _ _ _ => []
  end.

(** Every object of the tree has an object for exactly the metatags it lists. *)
Inductive complete : node -> Prop :=
| complete_node d ks : NoDup (map fst ks) -> (forall t, In t (metatags _ _ d) <-> In t (map fst ks)) -> NoDup (metatags _ _ d) ->
    (forall t c, In (t, c) ks -> complete c) -> complete (Node _ _ d ks).
End Spec.
