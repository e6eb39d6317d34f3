(** * Metatags: the property C46

    Any storage, any key derivation for the children, any tree of objects [x] and
    any world [w]: nothing is assumed of the states but what each theorem says. *)
From Coq Require Import Lia Permutation.
From Verif Require Import Base BaseFacts DbModel DbSpec DbProofs TreeModel TreeSpec TreeProofs DbToy.
Local Open Scope nat_scope.

Section Props.
Variable json : Type.
Variable dumps : json -> result bytes.
Variable loads : bytes -> result json.
Variable key : Type.
Variable root_filename : key -> bytes.
Variable filename_of : key -> bytes -> bytes -> bytes.
Variable encrypt : nat -> key -> bytes -> bytes -> bytes -> bytes.
Variable decrypt : key -> bytes -> bytes -> bytes -> result bytes.
Variable encrypt_manifest : nat -> key -> bytes -> bytes.
Variable decrypt_manifest : key -> bytes -> result bytes.
Variable new_salt : nat -> bytes.
Variable manifest_text : manifest -> bytes.
Variable manifest_of_text : bytes -> result manifest.
Variable set_order : list bytes -> list bytes.
Variable child_key : key -> bytes -> bytes -> key.
Variable reserved : bytes -> bool.
Hypothesis orders : forall l, NoDup l -> Permutation (set_order l) l.

Notation db := (db json key).
Notation node := (node json key).
Notation self := (self json key).
Notation kids := (kids json key).
Notation find := (find json key).
Notation metatags := (metatags json key).
Notation open_node := (open_node json loads key root_filename filename_of decrypt decrypt_manifest new_salt manifest_of_text set_order child_key reserved).
Notation perform_at := (perform_at json dumps loads key root_filename filename_of encrypt decrypt encrypt_manifest decrypt_manifest new_salt manifest_text manifest_of_text set_order child_key reserved).
Notation tree_session := (tree_session json dumps loads key root_filename filename_of encrypt decrypt encrypt_manifest decrypt_manifest new_salt manifest_text manifest_of_text set_order child_key reserved).
Notation touched := (touched json key root_filename filename_of).
Notation listed_files := (listed_files json key root_filename).
Notation concerned_files := (concerned_files json key root_filename filename_of).
Notation same_contents := (same_contents json key).
Notation complete := (complete json key).
Notation concerns := (concerns json).
Notation lists_once := (lists_once key root_filename decrypt_manifest manifest_of_text).

(** C46: an operation on the object at [p] changes the contents of no object it does
    not concern - not those of its parents or of its siblings, and for an operation
    on tags not those of its own metatags either. *)
Theorem C46_other_objects : forall fuel p o x w q z r x' w', perform_at fuel p o x w = (r, x', w') -> ~ concerns p o q -> find q x = Some z ->
  exists z', find q x' = Some z' /\ same_contents (self z) (self z').
Proof.
  intros fuel p o x w q z r x' w' P NC F.
  destruct (objects_elsewhere json dumps loads key root_filename filename_of encrypt decrypt encrypt_manifest decrypt_manifest new_salt manifest_text
    manifest_of_text set_order child_key reserved fuel p o x w q z NC F) as (z' & A & B). rewrite P in A. exists z'. auto.
Qed.

(** C46: and it changes no file but its own. *)
Theorem C46_other_files : forall fuel p o x y w n r x' w', perform_at fuel p o x w = (r, x', w') -> find p x = Some y -> ~ In n (concerned_files o y) ->
  disk w' n = disk w n.
Proof.
  intros fuel p o x y w n r x' w' P F N.
  pose proof (files_elsewhere json dumps loads key root_filename filename_of encrypt decrypt encrypt_manifest decrypt_manifest new_salt manifest_text
    manifest_of_text set_order child_key reserved fuel p o x y w n F N) as D. rewrite P in D. exact D.
Qed.

(** A session none of whose operations concerns the object at [q] or any file of
    the list [names]. *)
Fixpoint elsewhere (fuel : nat) (q : list bytes) (names : list bytes) (l : list (list bytes * treeop json)) (x : node) (w : world) : Prop :=
  match l with
  | [] => True
  | (p, o) :: l => ~ concerns p o q /\ (forall y n, find p x = Some y -> In n names -> ~ In n (concerned_files o y)) /\
    let '(_, x', w') := perform_at fuel p o x w in elsewhere fuel q names l x' w'
  end.

Lemma nowhere fuel p : forall o x w, find p x = None -> perform_at fuel p o x w = (Raised _ AttributeErr, x, w) \/
  exists r x', perform_at fuel p o x w = (r, x', w).
Proof.
  induction p as [|t p IH]; intros o x w F; cbn in F; [discriminate|]. cbn [TreeModel.perform_at]. destruct (get t (kids x)) as [c|] eqn:G; [|auto].
  destruct (IH o c w F) as [E|(r & x' & E)]; rewrite E; right; eauto.
Qed.
Theorem C46_sessions_elsewhere : forall fuel q names l x w rs x' w' z, tree_session fuel l x w = (rs, x', w') -> elsewhere fuel q names l x w -> find q x = Some z ->
  (exists z', find q x' = Some z' /\ same_contents (self z) (self z')) /\ forall n, In n names -> disk w' n = disk w n.
Proof.
  intros fuel q names l. induction l as [|[p o] l IH]; intros x w rs x' w' z S E F; cbn in S.
  - injection S as _ <- <-. split; [|auto]. exists z. split; [exact F|repeat split; reflexivity].
  - destruct E as (E1 & E2 & E3). destruct (perform_at fuel p o x w) as [[r x1] w1] eqn:P. destruct (tree_session fuel l x1 w1) as [[rs2 x2] w2] eqn:T.
    injection S as _ <- <-. destruct (C46_other_objects _ _ _ _ _ _ _ _ _ _ P E1 F) as (z1 & F1 & S1).
    destruct (IH x1 w1 rs2 x2 w2 z1 T E3 F1) as ((z2 & F2 & S2) & D). split.
    + exists z2. split; [exact F2|]. destruct S1 as (A1 & A2 & A3 & A4), S2 as (B1 & B2 & B3 & B4). repeat split; congruence.
    + intros n I. rewrite D by exact I. destruct (find p x) as [y|] eqn:Fp.
      * apply (C46_other_files _ _ _ _ _ _ _ _ _ _ P Fp). eauto.
      * destruct (nowhere fuel p o x w Fp) as [Q|(r' & x'' & Q)]; rewrite Q in P; congruence.
Qed.

(** C46: so what any operation on tags - reading, setting, removing, rolling back,
    saving one, loading all, membership, length - replies at [q] is the same after
    such a session as before it. *)
Theorem C46_replies_elsewhere : forall fuel q l x w rs x' w' z o, tree_session fuel l x w = (rs, x', w') -> find q x = Some z ->
  o <> SaveDatabase _ -> NoDup (tags _ _ (self z)) -> elsewhere fuel q (touched o (self z)) l x w ->
  fst (fst (perform_at fuel q (Flat _ o) x' w')) = fst (fst (perform_at fuel q (Flat _ o) x w)).
Proof.
  intros fuel q l x w rs x' w' z o S F NS ND E.
  destruct (C46_sessions_elsewhere _ _ _ _ _ _ _ _ _ _ S E F) as ((z' & F' & SC) & D).
  pose proof (perform_at_here json dumps loads key root_filename filename_of encrypt decrypt encrypt_manifest decrypt_manifest new_salt manifest_text
    manifest_of_text set_order child_key reserved fuel q (Flat _ o)) as H.
  destruct (H x z w F) as (-> & _). destruct (H x' z' w' F') as (-> & _). cbn -[perform].
  pose proof (perform_cong json dumps loads key root_filename filename_of encrypt decrypt encrypt_manifest manifest_text set_order
    o (self z) (self z') w w' NS SC ND orders D) as PC.
  destruct (perform _ _ _ _ _ _ _ _ _ _ _ o (self z') w') as [[r1 d1] w1], (perform _ _ _ _ _ _ _ _ _ _ _ o (self z) w) as [[r2 d2] w2]. exact PC.
Qed.

(** C46: the parent's and a metatag's tags in particular.  Operations on the tags
    of a metatag, at any depth below [p], leave the object at [p] alone, and
    operations on the tags at [p] leave every metatag below it alone. *)
Theorem C46_parent_and_child : forall fuel p t s o x w y c, find p x = Some y -> find (p ++ t :: s) x = Some c ->
  (forall r x' w', perform_at fuel (p ++ t :: s) (Flat _ o) x w = (r, x', w') ->
     (exists y', find p x' = Some y' /\ same_contents (self y) (self y') /\ metatags (self y') = metatags (self y)) /\
     forall n, ~ In n (touched o (self c)) -> disk w' n = disk w n) /\
  (forall r x' w', perform_at fuel p (Flat _ o) x w = (r, x', w') ->
     (exists c', find (p ++ t :: s) x' = Some c' /\ same_contents (self c) (self c')) /\
     forall n, ~ In n (touched o (self y)) -> disk w' n = disk w n).
Proof.
  intros fuel p t s o x w y c Fp Fc. split; intros r x' w' P.
  - split; [|intros n N; exact (C46_other_files _ _ _ _ _ _ _ _ _ _ P Fc N)].
    assert (~ concerns (p ++ t :: s) (Flat _ o) p) as NC.
    { cbn. intros E. apply (f_equal (@length _)) in E. rewrite app_length in E. cbn in E. lia. }
    destruct (C46_other_objects _ _ _ _ _ _ _ _ _ _ P NC Fp) as (y' & F' & S). exists y'. split; [exact F'|]. split; [exact S|].
    clear S NC. revert x x' y y' r Fp F' P Fc. induction p as [|u p IH]; intros x x' y y' r Fp F' P Fc.
    + cbn in Fp, F', P. injection Fp as ->. injection F' as ->. destruct (get t (kids y)) as [a|]; [|congruence].
      destruct (perform_at fuel s _ a w) as [[r1 c1] w1]. injection P as _ <- _. reflexivity.
    + cbn in Fp, F', P, Fc. destruct (get u (kids x)) as [a|] eqn:G; [|discriminate].
      destruct (perform_at fuel (p ++ t :: s) _ a w) as [[r1 c1] w1] eqn:P1. injection P as _ <- <-. cbn in F'. rewrite get_put, bytes_eqb_refl in F'. eapply IH; eauto.
  - split; [|intros n N; exact (C46_other_files _ _ _ _ _ _ _ _ _ _ P Fp N)].
    refine (C46_other_objects _ _ _ _ _ _ _ _ _ _ P _ Fc). cbn. intros E. apply (f_equal (@length _)) in E. rewrite app_length in E. cbn in E. lia.
Qed.

(** C46: in a tree where every object has one object for each metatag it lists,
    deleting a metatag succeeds: it is no longer listed, the others still are, its
    object is gone, and so is every file listed by it or below it. *)
Theorem C46_delete_removes : forall fuel p t x w y, complete x -> find p x = Some y -> In t (metatags (self y)) ->
  exists x' w' y', perform_at fuel p (DeleteMetatag _ t) x w = (Done _, x', w') /\ find p x' = Some y' /\
    (forall u, In u (metatags (self y')) <-> In u (metatags (self y)) /\ u <> t) /\
    (forall s, find (p ++ t :: s) x' = None) /\
    same_contents (self y) (self y') /\
    forall s c, find (p ++ t :: s) x = Some c -> forall n, In n (listed_files c) -> disk w' n = None.
Proof.
  intros fuel p t x w y C F I.
  pose proof (find_complete json key p x y C F) as CY. destruct y as [d ks]. cbn in I. destruct (complete_inv _ _ _ _ CY) as (C1 & C2 & C3 & C4).
  assert (exists c, get t ks = Some c) as (c & G).
  { apply C2 in I. apply in_get in I. destruct (get t ks) as [c|]; [eauto|contradiction]. }
  destruct (delete_gone json key root_filename set_order orders c (C4 _ _ (get_in _ _ _ G)) w) as (w' & D & Gone).
  destruct (perform_at_here json dumps loads key root_filename filename_of encrypt decrypt encrypt_manifest decrypt_manifest new_salt manifest_text
    manifest_of_text set_order child_key reserved fuel p (DeleteMetatag _ t) x _ w F) as (A & B & E).
  cbn in A, B, E. assert (existsb (bytes_eqb t) (metatags d) = true) as M by now apply mem_bytes. rewrite M, G, D in A, B, E. cbn in A, B, E.
  destruct (perform_at fuel p (DeleteMetatag _ t) x w) as [[r x'] w''] eqn:P. cbn in A, B, E. subst r w''.
  exists x', w', (Node _ _ (set_metatags _ _ d (remove_first t (metatags d))) (del t ks)).
  assert (forall q s (a : node), find (q ++ s) a = match find q a with Some b => find s b | None => None end) as FA.
  { induction q as [|u q IHq]; intros s a; [reflexivity|]. cbn. destruct (get u (kids a)); [apply IHq|reflexivity]. }
  split; [reflexivity|]. split; [exact B|]. split; [|split; [|split]].
  - intros u. cbn. now apply in_remove_first.
  - intros s. rewrite FA, B. cbn. rewrite (get_del t ks t C1). now rewrite bytes_eqb_refl.
  - repeat split; reflexivity.
  - intros s b Fb n In_n. apply Gone. rewrite FA, F in Fb. cbn in Fb. rewrite G in Fb. clear - Fb In_n.
    revert c Fb. induction s as [|u s IHs]; intros c Fb; cbn in Fb; [congruence|]. destruct c as [d ks]. cbn in Fb.
    destruct (get u ks) as [a|] eqn:G; [|discriminate]. cbn. right. apply in_app_iff. right. apply IHs in Fb.
    apply get_in in G. induction ks as [|[v e] ks IHk]; [destruct G|]. apply in_app_iff. destruct G as [Q|G]; [left; congruence|right; auto].
Qed.

(** C46: deleting what is not listed changes nothing. *)
Theorem C46_delete_unlisted : forall fuel p t x w y, find p x = Some y -> ~ In t (metatags (self y)) ->
  exists x', perform_at fuel p (DeleteMetatag _ t) x w = (Raised _ LookupErr, x', w) /\ forall q, find q x' = find q x.
Proof.
  induction p as [|u p IH]; intros t x w y F N.
  - cbn in F. injection F as ->. destruct y as [d ks]. cbn. destruct (existsb _ _) eqn:E; [apply mem_bytes in E; contradiction|]. eexists. split; reflexivity.
  - cbn in F |- *. destruct (get u (kids x)) as [c|] eqn:G; [|discriminate]. destruct (IH t c w y F N) as (c' & P & Q). rewrite P. eexists. split; [reflexivity|].
    assert (forall v, get v (put u c' (kids x)) = if bytes_eqb v u then Some c' else get v (kids x)) as GP by (intros v; apply get_put).
    intros [|v q]; cbn.
    + f_equal. destruct x as [d ks]. cbn in *. f_equal. pose proof (Q []) as E. cbn in E. injection E as ->.
      clear - G. induction ks as [|[v a] ks IHk]; cbn in *; [discriminate|]. destruct (bytes_eqb u v) eqn:E.
      * apply bytes_eqb_eq in E as ->. congruence.
      * f_equal. auto.
    + rewrite GP. destruct (bytes_eqb v u) eqn:E; [|reflexivity]. apply bytes_eqb_eq in E as ->. rewrite G. apply Q.
Qed.

(** C46: making a metatag lists it, keeps the rest of the listing and gives it an
    object. *)
Theorem C46_metatag_adds : forall fuel p t silent preload x w y x' w', find p x = Some y -> perform_at fuel p (Metatag _ t silent preload) x w = (Done _, x', w') ->
  exists y' c, find p x' = Some y' /\ find (p ++ [t]) x' = Some c /\
    (forall u, In u (metatags (self y')) <-> In u (metatags (self y)) \/ u = t) /\ same_contents (self y) (self y') /\ disk w' = disk w.
Proof.
  intros fuel p t silent preload x w y x' w' F P.
  destruct (perform_at_here json dumps loads key root_filename filename_of encrypt decrypt encrypt_manifest decrypt_manifest new_salt manifest_text
    manifest_of_text set_order child_key reserved fuel p (Metatag _ t silent preload) x y w F) as (A & B & E). rewrite P in A, B, E. cbn in A, B, E.
  assert (forall q s (a : node), find (q ++ s) a = match find q a with Some b => find s b | None => None end) as FA.
  { induction q as [|u q IHq]; intros s a; [reflexivity|]. cbn. destruct (get u (kids a)); [apply IHq|reflexivity]. }
  destruct y as [d ks]. cbn in A, B, E. destruct (reserved t); [discriminate|].
  set (dd := if existsb (bytes_eqb t) (metatags d) then d else set_metatags _ _ d (metatags d ++ [t])) in *.
  assert (same_contents d dd) as SD by (unfold dd; destruct (existsb _ _); repeat split; reflexivity).
  assert (forall u, In u (metatags dd) <-> In u (metatags d) \/ u = t) as MD.
  { intros u. unfold dd. destruct (existsb _ _) eqn:X; [apply mem_bytes in X|].
    - split; [auto|intros [I| ->]; auto].
    - cbn. rewrite in_app_iff. cbn. intuition congruence. }
  unfold has in *. destruct (get t ks) as [c|] eqn:G.
  - exists (Node _ _ dd ks), c. cbn in B, E. split; [exact B|]. split; [rewrite FA, B; cbn; now rewrite G|]. split; [exact MD|]. split; [exact SD|now subst w'].
  - pose proof (open_disk json loads key root_filename filename_of decrypt decrypt_manifest new_salt manifest_of_text set_order child_key reserved
      fuel (child_key (k _ _ d) (salt _ _ d) t) silent preload w) as O.
    destruct (open_node fuel _ silent preload w) as [[c|e] w1]; cbn in A, B, E, O; [|discriminate]. subst w1.
    exists (Node _ _ dd (ks ++ [(t, c)])), c. split; [exact B|]. split; [|auto]. rewrite FA, B. cbn.
    assert (get t (ks ++ [(t, c)]) = Some c) as ->; [|reflexivity].
    clear - G. induction ks as [|[v a] ks IH]; cbn in *; [now rewrite bytes_eqb_refl|]. destruct (bytes_eqb t v); [discriminate|auto].
Qed.

(** C46: the objects match the listings throughout: in a tree just opened and
    after every operation (where an opening reads manifests that list no metatag
    twice). *)
Theorem C46_listing_matches : (forall fuel kk silent preload w x w', lists_once (disk w) -> open_node fuel kk silent preload w = (Ok x, w') -> complete x) /\
  (forall fuel p o x w r x' w', complete x -> (forall t s b, o = Metatag _ t s b -> lists_once (disk w)) -> perform_at fuel p o x w = (r, x', w') -> complete x').
Proof.
  split.
  - intros fuel kk silent preload w x w' L O. eapply (open_complete json loads key root_filename filename_of decrypt decrypt_manifest); eauto.
  - intros fuel p o x w r x' w' C L P. pose proof (perform_at_complete json dumps loads key root_filename filename_of encrypt decrypt encrypt_manifest
      decrypt_manifest new_salt manifest_text manifest_of_text set_order child_key reserved orders fuel p o x w C L) as H. rewrite P in H. exact H.
Qed.
End Props.

(** ** Cases *)
Definition toy_child (k s t : bytes) : bytes := x05 :: enc s ++ enc k ++ t.
Definition toy_reserved (t : bytes) : bool := bytes_eqb t [x2a].
Definition toy_open_node := open_node bytes toy_loads bytes toy_root toy_name toy_decrypt toy_decrypt_manifest toy_salt toy_manifest_of_text toy_order toy_child toy_reserved.
Definition toy_at := perform_at bytes toy_dumps toy_loads bytes toy_root toy_name toy_encrypt toy_decrypt toy_encrypt_manifest toy_decrypt_manifest toy_salt
  toy_manifest_text toy_manifest_of_text toy_order toy_child toy_reserved.
Definition toy_tree := tree_session bytes toy_dumps toy_loads bytes toy_root toy_name toy_encrypt toy_decrypt toy_encrypt_manifest toy_decrypt_manifest toy_salt
  toy_manifest_text toy_manifest_of_text toy_order toy_child toy_reserved.
Definition empty_world : world := {| disk := fun _ => None; log := []; clock := 0 |}.
Definition T1 : bytes := [x74]. Definition T2 : bytes := [x75].
Definition toy_top : node bytes bytes := match toy_open_node 3 [x6b] true false empty_world with (Ok x, _) => x | _ => Node _ _ {| k := []; m := {| m_salt := []; m_metatags := []; m_tags := [] |}; cache := [] |} [] end.
Definition made : list (list bytes * treeop bytes) :=
  [([], Metatag _ T1 true false); ([], Metatag _ T2 true false); ([T1], Metatag _ T2 true false);
   ([], Flat _ (SetTag _ [x41] (Bytes _ [x01]) true)); ([T1], Flat _ (SetTag _ [x41] (Bytes _ [x02]) true)); ([T1; T2], Flat _ (SetTag _ [x41] (Bytes _ [x03]) true));
   ([], Save _); ([T2], Flat _ (SetTag _ [x41] (Bytes _ [x04]) false))].
Definition made_tree := let '(_, x, _) := toy_tree 3 made toy_top (tick empty_world) in x.
Definition made_world := let '(_, _, w) := toy_tree 3 made toy_top (tick empty_world) in w.

(** Four databases, the same tag in each with a different value, also after
    reopening them all. *)
Example C46_four_databases :
  fst (fst (toy_tree 3 (made ++ [([], Flat _ (QueryTag _ [x41] false false)); ([T1], Flat _ (QueryTag _ [x41] false false));
    ([T1; T2], Flat _ (QueryTag _ [x41] false false)); ([T2], Flat _ (QueryTag _ [x41] false false))]) toy_top (tick empty_world))) =
  repeat (Done _) 8 ++ [Got _ (Some (Bytes _ [x01])); Got _ (Some (Bytes _ [x02])); Got _ (Some (Bytes _ [x03])); Got _ (Some (Bytes _ [x04]))].
Proof. vm_compute. reflexivity. Qed.
Example C46_four_databases_reopened :
  match toy_open_node 4 [x6b] false true made_world with
  | (Ok x, w) => fst (fst (toy_tree 3 [([], Flat _ (QueryTag _ [x41] false false)); ([T1], Flat _ (QueryTag _ [x41] false false));
    ([T1; T2], Flat _ (QueryTag _ [x41] false false)); ([T2], Flat _ (Contains _ [x41]))] x w)) =
    [Got _ (Some (Bytes _ [x01])); Got _ (Some (Bytes _ [x02])); Got _ (Some (Bytes _ [x03])); Truth _ false]
  | _ => False
  end.
Proof. vm_compute. reflexivity. Qed.
(** The session meets [elsewhere] for the tag of another database. *)
Example C46_elsewhere_case : exists z, find _ _ [T2] made_tree = Some z /\
  elsewhere bytes toy_dumps toy_loads bytes toy_root toy_name toy_encrypt toy_decrypt toy_encrypt_manifest toy_decrypt_manifest toy_salt toy_manifest_text
    toy_manifest_of_text toy_order toy_child toy_reserved 3 [T2] (touched _ _ toy_root toy_name (QueryTag _ [x41] false false) (self _ _ z))
    [([], Flat _ (PopTag _ [x41] true)); ([T1; T2], Flat _ (PopTag _ [x41] true)); ([], DeleteMetatag _ T1)] made_tree made_world.
Proof.
  eexists. split; [vm_compute; reflexivity|].
  split; [cbn; discriminate|]. split; [intros y n F I J; vm_compute in F; injection F as <-; vm_compute in I, J; destruct I as [<-|[]]; destruct J as [J|[]]; discriminate|].
  match goal with |- context [TreeModel.perform_at ?a ?b ?c ?d ?e ?f ?g ?h ?i ?j ?k ?l ?m ?n ?o ?p ?q ?r ?s ?t ?u] =>
    set (R := TreeModel.perform_at a b c d e f g h i j k l m n o p q r s t u) end. vm_compute in R. subst R. cbv beta iota.
  split; [cbn; discriminate|]. split; [intros y n F I J; vm_compute in F; injection F as <-; vm_compute in I, J; destruct I as [<-|[]]; destruct J as [J|[]]; discriminate|].
  match goal with |- context [TreeModel.perform_at ?a ?b ?c ?d ?e ?f ?g ?h ?i ?j ?k ?l ?m ?n ?o ?p ?q ?r ?s ?t ?u] =>
    set (R := TreeModel.perform_at a b c d e f g h i j k l m n o p q r s t u) end. vm_compute in R. subst R. cbv beta iota.
  split; [cbn; intros (r & E); discriminate|]. split; [intros y n F I J; vm_compute in F; injection F as <-; vm_compute in I, J; destruct I as [<-|[]];
    repeat (destruct J as [J|J]; [discriminate|]); destruct J|].
  match goal with |- context [TreeModel.perform_at ?a ?b ?c ?d ?e ?f ?g ?h ?i ?j ?k ?l ?m ?n ?o ?p ?q ?r ?s ?t ?u] =>
    set (R := TreeModel.perform_at a b c d e f g h i j k l m n o p q r s t u) end. vm_compute in R. subst R. cbv beta iota. exact I.
Qed.
(** Deleting one of them. *)
Example C46_delete_case :
  fst (fst (toy_tree 3 [([], DeleteMetatag _ T1); ([], DeleteMetatag _ T1); ([T1], Flat _ (Length _)); ([], Flat _ (QueryTag _ [x41] false false)); ([T2], Flat _ (QueryTag _ [x41] false false))]
    made_tree made_world)) = [Done _; Raised _ LookupErr; Raised _ AttributeErr; Got _ (Some (Bytes _ [x01])); Got _ (Some (Bytes _ [x04]))].
Proof. vm_compute. reflexivity. Qed.
Example C46_made_tree_is_complete : complete _ _ made_tree /\ In T1 (metatags _ _ (self _ _ made_tree)) /\ In T2 (metatags _ _ (self _ _ made_tree)).
Proof.
  split; [|vm_compute; auto].
  assert (forall l : list bytes, NoDup l -> NoDup l) as _ by auto.
  vm_compute. 
  repeat (constructor; [repeat (constructor; [cbn; intuition discriminate|]); constructor| intros t; cbn; reflexivity | repeat (constructor; [cbn; intuition discriminate|]); constructor|
     intros t c I; cbn in I; repeat (destruct I as [I|I]; [injection I as <- <-|]); try (now destruct I)]).
Qed.

(** C46: the files of a deleted metatag's tags do not all go.  A tag written
    straight to disk ([set_tag] without caching) after the last [save_database] is
    in no manifest; when the tree is reopened and the metatag deleted, its file
    stays. *)
Definition direct_write : list (list bytes * treeop bytes) :=
  [([], Metatag _ T1 true false); ([], Save _); ([T1], Flat _ (SetTag _ [x41] (Bytes _ [x07]) false))].
Theorem C46_delete_removes_every_file_refuted : exists rs x w x1 w1 c x2 w2 n,
  toy_tree 3 direct_write toy_top (tick empty_world) = (rs, x, w) /\
  toy_open_node 3 [x6b] true false w = (Ok x1, w1) /\
  find _ _ [T1] x1 = Some c /\
  toy_at 3 [] (DeleteMetatag _ T1) x1 w1 = (Done _, x2, w2) /\
  n = toy_name (k _ _ (self _ _ c)) (salt _ _ (self _ _ c)) [x41] /\
  disk w2 n = disk w n /\ disk w n <> None.
Proof.
  destruct (toy_tree 3 direct_write toy_top (tick empty_world)) as [[rs x] w] eqn:E1.
  destruct (toy_open_node 3 [x6b] true false w) as [[x1|e] w1] eqn:E2; [|exfalso; vm_compute in E1; injection E1 as _ _ <-; vm_compute in E2; discriminate].
  destruct (find _ _ [T1] x1) as [c|] eqn:E3; [|exfalso; vm_compute in E1; injection E1 as _ _ <-; vm_compute in E2; injection E2 as <- _; vm_compute in E3; discriminate].
  destruct (toy_at 3 [] (DeleteMetatag _ T1) x1 w1) as [[r x2] w2] eqn:E4.
  exists rs, x, w, x1, w1, c, x2, w2. eexists. vm_compute in E1. injection E1 as <- <- <-. vm_compute in E2. injection E2 as <- <-. vm_compute in E3. injection E3 as <-.
  vm_compute in E4. injection E4 as <- <- <-. split; [reflexivity|]. split; [reflexivity|]. split; [reflexivity|]. split; [reflexivity|]. split; [reflexivity|].
  split; [vm_compute; reflexivity|vm_compute; discriminate].
Qed.

(** C46: and files that are not the metatag's do: deleting a database removes the
    files named "0" and "1" of the directory, whoever wrote them. *)
Theorem C46_delete_removes_files_named_0_and_1 : forall json key root_filename set_order d w,
  metatags json key d = [] -> set_order [] = [] ->
  exists w', delete_node json key root_filename set_order (Node _ _ d []) w = (Ok tt, w') /\ disk w' [x30] = None /\ disk w' [x31] = None.
Proof.
  intros json key root_filename set_order d w M O. cbn [delete_node]. rewrite M, O. eexists. split; [reflexivity|].
  split; apply unlink_all_gone; rewrite in_app_iff; left; cbn; auto.
Qed.

Print Assumptions C46_other_objects.
Print Assumptions C46_other_files.
Print Assumptions C46_sessions_elsewhere.
Print Assumptions C46_replies_elsewhere.
Print Assumptions C46_parent_and_child.
Print Assumptions C46_delete_removes.
Print Assumptions C46_delete_unlisted.
Print Assumptions C46_metatag_adds.
Print Assumptions C46_listing_matches.
Print Assumptions C46_delete_removes_every_file_refuted.
Print Assumptions C46_delete_removes_files_named_0_and_1.
