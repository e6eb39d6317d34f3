(** * Trees of databases over their lives: the property C107

    Any storage, any key derivation for the children, any tree of objects and any world: nothing is assumed of them
    but what each theorem says. *)
From Coq Require Import Lia Permutation.
From Verif Require Import Base BaseFacts DbModel DbSpec DbProofs TreeModel TreeSpec TreeProofs DbToy TreeProps ForestSpec ForestProofs.
Local Open Scope nat_scope.

Section Props.
Variable json : Type.
Variable dumps : json -> result bytes.
Variable loads : bytes -> result json.
Variable key : Type.
Variable root_filename : key -> bytes.
Variable filename_of : key -> bytes -> bytes -> bytes.
Variable encrypt : nat -> key -> bytes -> bytes -> bytes -> bytes.
Variable decrypt : key -> bytes -> bytes -> bytes -> result bytes.
Variable encrypt_manifest : nat -> key -> bytes -> bytes.
Variable decrypt_manifest : key -> bytes -> result bytes.
Variable new_salt : nat -> bytes.
Variable manifest_text : manifest -> bytes.
Variable manifest_of_text : bytes -> result manifest.
Variable set_order : list bytes -> list bytes.
Variable child_key : key -> bytes -> bytes -> key.
Variable reserved : bytes -> bool.
Hypothesis orders : forall l, NoDup l -> Permutation (set_order l) l.

Notation db := (db json key).
Notation node := (node json key).
Notation self := (self json key).
Notation kids := (kids json key).
Notation find := (find json key).
Notation metatags := (metatags json key).
Notation open_node := (open_node json loads key root_filename filename_of decrypt decrypt_manifest new_salt manifest_of_text set_order child_key reserved).
Notation perform_at := (perform_at json dumps loads key root_filename filename_of encrypt decrypt encrypt_manifest decrypt_manifest new_salt manifest_text manifest_of_text set_order child_key reserved).
Notation tree_session := (tree_session json dumps loads key root_filename filename_of encrypt decrypt encrypt_manifest decrypt_manifest new_salt manifest_text manifest_of_text set_order child_key reserved).
Notation touched := (touched json key root_filename filename_of).
Notation listed_files := (listed_files json key root_filename).
Notation concerned_files := (concerned_files json key root_filename filename_of).
Notation same_contents := (same_contents json key).
Notation complete := (complete json key).
Notation concerns := (concerns json).
Notation lists_once := (lists_once key root_filename decrypt_manifest manifest_of_text).
Notation saved_files := (saved_files json key root_filename).
Notation save_node := (save_node json dumps key root_filename encrypt encrypt_manifest manifest_text set_order).
Notation query_tag := (query_tag json loads key filename_of decrypt).
Notation keyed := (keyed json key child_key reserved).
Notation levels := (levels json key).
Notation settled := (settled json key root_filename filename_of).
Notation expected := (expected json key dumps loads filename_of decrypt).
Notation tree_laws := (tree_laws json key dumps encrypt decrypt encrypt_manifest decrypt_manifest manifest_text manifest_of_text).

(** C107: once a tree of databases is saved without an error, another process that has the key finds the whole tree
    again: the same objects at the same paths, each with its key, its salt and its listings, and for every tag the
    value that the object had for it when it was saved.  The tree is one whose files have different names.  With
    preloading, the tags listed must be ones that can be read. *)
Theorem C107_saved_tree_is_found_again : forall x w w1 w2 fuel silent preload,
  complete x -> keyed x -> levels fuel x -> tree_laws x -> NoDup (saved_files x) ->
  save_node x w = (Ok tt, w1) -> disk w2 = disk w1 ->
  (preload = true -> forall p y, find p x = Some y -> NoDup (tags _ _ (self y)) /\
    forall t, In t (tags _ _ (self y)) -> settled x (self y) t /\ exists v, expected (self y) t silent w = Ok v) ->
  exists x2, open_node fuel (k _ _ (self x)) silent preload w2 = (Ok x2, w2) /\
    forall p, match find p x, find p x2 with
      | Some y, Some y2 => k _ _ (self y2) = k _ _ (self y) /\ m _ _ (self y2) = m _ _ (self y) /\
          forall t s kp, settled x (self y) t -> fst (query_tag (self y2) t s kp w2) = expected (self y) t s w
      | None, None => True
      | _, _ => False
      end.
Proof.
  intros x w w1 w2 fuel silent preload C K L LW N S D PR.
  assert (O : on_files json dumps key root_filename encrypt encrypt_manifest manifest_text x (disk w2)).
  { rewrite D. eapply save_ok; eauto. }
  destruct (open_ok json dumps loads key root_filename filename_of encrypt decrypt encrypt_manifest decrypt_manifest new_salt manifest_text manifest_of_text set_order child_key reserved orders
    silent preload w2 x fuel C K L LW O) as (x2 & OP & MI).
  - intros P p y t F I. destruct (PR P p y F) as [ND Q]. destruct (Q t) as [SE (v & V)]; [eapply Permutation_in; [apply orders, ND|exact I]|]. exists v.
    rewrite <- V. eapply (query_after json dumps loads key root_filename); eauto.
  - exists x2. split; [exact OP|]. intros p. specialize (MI p). destruct (find p x) as [y|] eqn:F; [|exact MI]. destruct (find p x2) as [y2|]; [|exact MI]. destruct MI as (A & B & Q).
    split; [exact A|]. split; [exact B|]. intros t s kp SE. rewrite Q. eapply (query_after json dumps loads key root_filename); eauto.
Qed.
(** C107: [keyed] holds of every tree that is opened, and after any calls on it. *)
Theorem C107_trees_are_keyed : forall fuel kk silent preload w0 x0 w1, open_node fuel kk silent preload w0 = (Ok x0, w1) ->
  keyed x0 /\ forall fuel2 l w2 rs x w, tree_session fuel2 l x0 w2 = (rs, x, w) -> keyed x.
Proof.
  intros fuel kk silent preload w0 x0 w1 O. destruct (open_keyed json loads key root_filename filename_of decrypt decrypt_manifest new_salt manifest_of_text set_order child_key reserved
    fuel kk silent preload w0 x0 w1 O) as [K _]. split; [exact K|]. intros fuel2 l w2 rs x w S.
  eapply (session_keyed json dumps loads key root_filename filename_of encrypt decrypt encrypt_manifest decrypt_manifest new_salt manifest_text manifest_of_text set_order child_key reserved); eauto.
Qed.
End Props.

(** ** Cases *)
Lemma toy_tree_laws x : ForestSpec.tree_laws bytes bytes toy_dumps toy_encrypt toy_decrypt toy_encrypt_manifest toy_decrypt_manifest toy_manifest_text toy_manifest_of_text x.
Proof.
  split; [intros j text E; injection E as <-; destruct j; discriminate|]. intros p y _. split; [intros; split; [reflexivity|discriminate]|]. split; [reflexivity|]. apply toy_manifest.
Qed.
Notation toy_save_node := (save_node bytes toy_dumps bytes toy_root toy_encrypt toy_encrypt_manifest toy_manifest_text toy_order).
(** The four databases of C46, one of them changed after the last save, saved and opened again with preloading. *)
Definition grown : list (list bytes * treeop bytes) := made ++ [([T1], Flat _ (SetTag _ [x42] (Json _ [x07]) true)); ([], Flat _ (SetTag _ [x41] (Bytes _ [x09]) true))].
Definition grown_tree : node bytes bytes := Eval vm_compute in let '(_, x, _) := toy_tree 3 grown toy_top (tick empty_world) in x.
Definition grown_world := let '(_, _, w) := toy_tree 3 grown toy_top (tick empty_world) in w.
Definition grown_saved := Eval lazy beta delta [grown_world] in snd (toy_save_node grown_tree grown_world).
Fixpoint all_nodes (n : nat) (x : node bytes bytes) : list (node bytes bytes) :=
  match n with O => [] | S n => x :: flat_map (fun c => all_nodes n (snd c)) (kids _ _ x) end.
Lemma find_all n : forall x p y, ForestSpec.levels bytes bytes n x -> find _ _ p x = Some y -> In y (all_nodes n x).
Proof.
  induction n as [|n IH]; intros x p y L F; inversion L as [n' d ks H]; subst. cbn. destruct p as [|t p]; cbn in F; [left; congruence|]. destruct (get t ks) as [c|] eqn:G; [|discriminate]. right.
  apply in_flat_map. exists (t, c). apply TreeProofs.get_in in G. split; [exact G|]. exact (IH c p y (H t c G) F).
Qed.
Lemma grown_meets : complete bytes bytes grown_tree /\ ForestSpec.keyed bytes bytes toy_child toy_reserved grown_tree /\ ForestSpec.levels bytes bytes 4 grown_tree /\
  NoDup (TreeSpec.saved_files bytes bytes toy_root grown_tree).
Proof.
  assert (ND2 : forall a b : bytes, a <> b -> NoDup [a; b]) by (intros a b H; constructor; [intros [E|[]]; congruence|constructor; [intros []|constructor]]).
  assert (ND1 : forall a : bytes, NoDup [a]) by (intros a; constructor; [intros []|constructor]).
  split; [|split; [|split]].
  - unfold grown_tree. repeat match goal with
      | |- complete _ _ _ => constructor; [|cbn; tauto| |]
      | |- NoDup _ => cbn; first [apply ND2; discriminate|apply ND1|constructor]
      | |- forall t c, _ -> _ => let I := fresh in intros t c I; cbn in I; repeat (destruct I as [I|I]; [injection I as <- <-|]); try contradiction
      end.
  - unfold grown_tree. repeat match goal with
      | |- ForestSpec.keyed _ _ _ _ _ => constructor
      | |- _ /\ _ => split; [reflexivity|split; [reflexivity|]]
      | |- forall t c, _ -> _ => let I := fresh in intros t c I; cbn in I; repeat (destruct I as [I|I]; [injection I as <- <-|]); try contradiction
      end.
  - unfold grown_tree. repeat match goal with
      | |- ForestSpec.levels _ _ _ _ => constructor
      | |- forall t c, _ -> _ => let I := fresh in intros t c I; cbn in I; repeat (destruct I as [I|I]; [injection I as <- <-|]); try contradiction
      end.
  - vm_compute. repeat (constructor; [intros I; repeat (destruct I as [I|I]; [discriminate|]); destruct I|]). constructor.
Qed.
Example C107_tree_case : exists x2, toy_open_node 4 [x6b] false true grown_saved = (Ok x2, grown_saved) /\
  fst (fst (toy_tree 4 [([], Flat _ (QueryTag _ [x41] false false)); ([T1], Flat _ (QueryTag _ [x41] false false)); ([T1], Flat _ (QueryTag _ [x42] false false));
    ([T1; T2], Flat _ (QueryTag _ [x41] false false)); ([T2], Flat _ (QueryTag _ [x41] false false))] x2 grown_saved)) =
  map (fun v => Got _ (Some v)) [Bytes _ [x09]; Bytes _ [x02]; Json _ [x07]; Bytes _ [x03]; Bytes _ [x04]].
Proof.
  destruct grown_meets as (C & K & L & N).
  destruct (C107_saved_tree_is_found_again bytes toy_dumps toy_loads bytes toy_root toy_name toy_encrypt toy_decrypt toy_encrypt_manifest toy_decrypt_manifest toy_salt toy_manifest_text toy_manifest_of_text
    toy_order toy_child toy_reserved toy_orders grown_tree grown_world grown_saved grown_saved 4 false true C K L (toy_tree_laws _) N) as (x2 & O & F).
  - vm_compute. reflexivity.
  - reflexivity.
  - intros _ p y F. apply (find_all 4 _ _ _ L) in F. cbn in F.
    repeat (destruct F as [<-|F]; [split; [cbn; repeat (constructor; [intros I; repeat (destruct I as [I|I]; [discriminate|]); destruct I|]); constructor|];
      intros t I; vm_compute in I; repeat (destruct I as [<-|I]; [split; [first [left; vm_compute; tauto|right; intros J; vm_compute in J; repeat (destruct J as [J|J]; [discriminate|]); destruct J]|eexists; vm_compute; reflexivity]|]); destruct I|]). destruct F.
  - exists x2. split; [exact O|]. clear F. vm_compute in O. injection O as <-. vm_compute. reflexivity.
Qed.
(** A database below another, saved by itself when the one above never was, is not found by the next process: its key
    follows from the salt of the one above, which was never written. *)
Theorem C107_every_saved_database_is_found_refuted : exists rs x w c x2 w2 rs2 x3 w3,
  toy_tree 3 [([], Metatag _ T1 true false); ([T1], Flat _ (SetTag _ [x41] (Bytes _ [x02]) true)); ([T1], Save _)] toy_top (tick empty_world) = (rs, x, w) /\
  rs = [Done _; Done _; Done _] /\ find _ _ [T1] x = Some c /\ disk w (toy_root (k _ _ (self _ _ c))) <> None /\
  toy_open_node 3 [x6b] true false w = (Ok x2, w2) /\
  toy_tree 3 [([T1], Flat _ (QueryTag _ [x41] false false)); ([], Metatag _ T1 true false); ([T1], Flat _ (QueryTag _ [x41] false false))] x2 w2 = (rs2, x3, w3) /\
  rs2 = [Raised _ AttributeErr; Done _; Raised _ LookupErr].
Proof.
  do 9 eexists. split; [vm_compute; reflexivity|]. split; [reflexivity|]. split; [vm_compute; reflexivity|]. split; [vm_compute; discriminate|]. split; [vm_compute; reflexivity|].
  split; [vm_compute; reflexivity|]. reflexivity.
Qed.
Print Assumptions C107_saved_tree_is_found_again.
Print Assumptions C107_trees_are_keyed.
Print Assumptions C107_every_saved_database_is_found_refuted.
