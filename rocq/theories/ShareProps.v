(** * Several objects of one database: the property C109

    [dumps], [loads] and the cipher are any that meet [storage_laws]; object 0 is opened with the key [kk] on a
    directory without its files; the tags used are from any list [U] whose file names are distinct.  Any number of
    further objects are then opened with the same key, and called in any order. *)
From Coq Require Import Lia Permutation.
From Verif Require Import Base BaseFacts DbModel DbSpec DbProofs ShareModel ShareSpec ShareProofs DbToy DbProps.
Local Open Scope nat_scope.

Section Props.
Variable json : Type.
Variable dumps : json -> result bytes.
Variable loads : bytes -> result json.
Variable key : Type.
Variable root_filename : key -> bytes.
Variable filename_of : key -> bytes -> bytes -> bytes.
Variable encrypt : nat -> key -> bytes -> bytes -> bytes -> bytes.
Variable decrypt : key -> bytes -> bytes -> bytes -> result bytes.
Variable encrypt_manifest : nat -> key -> bytes -> bytes.
Variable decrypt_manifest : key -> bytes -> result bytes.
Variable new_salt : nat -> bytes.
Variable manifest_text : manifest -> bytes.
Variable manifest_of_text : bytes -> result manifest.
Variable set_order : list bytes -> list bytes.
Hypothesis orders : forall l, NoDup l -> Permutation (set_order l) l.

Notation db := (db json key).
Notation value := (value json).
Notation open_db := (open_db json loads key root_filename filename_of decrypt decrypt_manifest new_salt manifest_of_text set_order).
Notation perform := (perform json dumps loads key root_filename filename_of encrypt decrypt encrypt_manifest manifest_text set_order).
Notation act_step := (act_step json dumps loads key root_filename filename_of encrypt decrypt encrypt_manifest decrypt_manifest new_salt manifest_text manifest_of_text set_order).
Notation together := (together json dumps loads key root_filename filename_of encrypt decrypt encrypt_manifest decrypt_manifest new_salt manifest_text manifest_of_text set_order).
Notation astep := (astep json dumps loads set_order).
Notation aopen := (aopen json set_order).
Notation aact := (aact json dumps loads set_order).
Notation atogether := (atogether json dumps loads set_order).
Notation act_ok := (act_ok json dumps loads).
Notation kept := (kept json dumps loads).
Notation storable := (storable json dumps loads).
Notation opened_after_save := (opened_after_save json).
Notation place := (place json key).
Notation seen := (seen json).
Notation after := (after json).

Notation filename := (filename json key filename_of).

(** C109: an object is not changed by what is done with the others. *)
Theorem C109_objects_keep_to_themselves : forall kk acts s w rs s' w' j,
  Forall (fun x => actor json x <> j) acts -> together kk acts s w = (rs, s', w') -> s' j = s j.
Proof.
  intros kk acts s w rs s' w' j F E. pose proof (together_other json dumps loads key root_filename filename_of encrypt decrypt encrypt_manifest
    decrypt_manifest new_salt manifest_text manifest_of_text set_order kk acts s w j F) as X. rewrite E in X. exact X.
Qed.
(** C109: so an object that has a tag's value cached goes on giving that value, whatever the others do to the tag. *)
Theorem C109_cached_value_is_not_refreshed : forall kk acts s w rs s' w' j d t v silent keep,
  s j = Some d -> DbModel.get (filename d t) (cache _ _ d) = Some v ->
  Forall (fun x => actor json x <> j) acts -> together kk acts s w = (rs, s', w') ->
  fst (fst (act_step kk (Call _ j (QueryTag _ t silent keep)) s' w')) = Got _ (Some v).
Proof.
  intros kk acts s w rs s' w' j d t v silent keep J C F E. pose proof (C109_objects_keep_to_themselves kk acts s w rs s' w' j F E) as X.
  cbn. rewrite X, J. unfold query_tag. rewrite C. reflexivity.
Qed.

Variable kk : key.
Variable U : list bytes.
Hypothesis laws : storage_laws dumps loads filename_of encrypt decrypt encrypt_manifest decrypt_manifest new_salt manifest_text manifest_of_text kk U.
Variable w0 : world.
Notation s0 := (new_salt (clock w0)).
Hypothesis distinct : distinct_names root_filename filename_of kk s0 U.
Hypothesis no_old_files : no_files root_filename filename_of kk s0 U (disk w0).
Variables silent0 preload0 : bool.
Variable d0 : db.
Variable w1 : world.
Hypothesis opened : open_db kk silent0 preload0 w0 = (Ok d0, w1).
Notation only := (place (fun _ => None) 0 d0).
Notation shared := (shared json dumps loads key root_filename filename_of decrypt decrypt_manifest manifest_of_text kk U s0).
Notation first_object := (first_object json).

Lemma start_shared : shared (first_object (empty _)) only w1.
Proof.
  assert (DbProofs.rel json dumps loads key root_filename filename_of decrypt decrypt_manifest manifest_of_text kk U s0 (empty _) d0 w1) as R
    by (eapply started; eauto).
  split; [exact (rel_disk _ _ _ _ _ _ _ _ _ _ _ _ _ _ _ R)|]. intros [|i]; [exact R|exact I].
Qed.
Lemma start_ready acts : opened_after_save acts -> ready json (first_object (empty _)) acts.
Proof. intros O. right. split; [discriminate|exact O]. Qed.
Lemma run_shared acts more : Forall (act_ok U) acts -> opened_after_save (acts ++ more) ->
  exists s w, together kk acts only w1 = (fst (atogether acts (first_object (empty _))), s, w) /\
    shared (snd (atogether acts (first_object (empty _)))) s w /\ ready json (snd (atogether acts (first_object (empty _)))) more.
Proof.
  intros K O. apply (together_sim json dumps loads key root_filename filename_of encrypt decrypt encrypt_manifest
    decrypt_manifest new_salt manifest_text manifest_of_text set_order orders kk U laws s0 (ex_intro _ _ eq_refl) distinct); auto.
  - apply start_shared.
  - now apply start_ready.
Qed.

(** C109: any number of objects behave as objects that have a cache and a listing of their own, and the stored values
    and the saved listing in common; each call does what it does for a single object (C40). *)
Theorem C109_objects_are_the_abstract_objects : forall acts, Forall (act_ok U) acts -> opened_after_save acts ->
  fst (fst (together kk acts only w1)) = fst (atogether acts (first_object (empty _))).
Proof.
  intros acts K O. destruct (run_shared acts [] K) as (s & w & -> & _); [now rewrite app_nil_r|reflexivity].
Qed.

(** C109: a value that one object has saved is what every object gives that has not some other value for the tag in its
    cache: those opened before, and those opened after; until somebody sets or removes the tag. *)
Theorem C109_saved_value_is_given_by_all : forall acts1 rs1 s1 v1 i t v acts2 rs2 s2 v2 j silent keep,
  Forall (act_ok U) acts1 -> Forall (act_ok U) acts2 -> opened_after_save (acts1 ++ acts2) -> In t U -> storable v ->
  together kk acts1 only w1 = (rs1, s1, v1) -> s1 i <> None ->
  (forall m d, m <> i -> s1 m = Some d -> DbModel.get (filename d t) (cache _ _ d) = None) ->
  Forall (leaves_saved json t) acts2 ->
  together kk (Call _ i (SetTag _ t v false) :: acts2) s1 v1 = (rs2, s2, v2) -> s2 j <> None ->
  fst (fst (act_step kk (Call _ j (QueryTag _ t silent keep)) s2 v2)) = Got _ (Some (kept v)).
Proof.
  intros acts1 rs1 s1 v1 i t v acts2 rs2 s2 v2 j silent keep K1 K2 O T V E1 I1 F L E2 J2.
  destruct (run_shared acts1 acts2 K1 O) as (s & w & E & S & Y). rewrite E in E1. injection E1 as _ <- <-.
  set (a := snd (atogether acts1 (first_object (empty _)))) in *.
  assert (act_ok U (Call _ i (SetTag _ t v false))) as K3.
  { split; [intros u X; injection X as <-; exact T|]. intros u x k X. injection X as <- <- <-. exact V. }
  assert (ready json a (Call _ i (SetTag _ t v false) :: acts2 ++ [Call _ j (QueryTag _ t silent keep)])) as Y3.
  { destruct Y as [Y|[Y Z]]; [now left|right; split; [exact Y|]]. assert (forall l, opened_after_save l -> opened_after_save (l ++ [Call _ j (QueryTag _ t silent keep)])) as M.
    { induction l as [|[?|m o] l IH]; cbn; [destruct j; auto|auto|]. destruct m as [|m]; [destruct o; auto|auto]. }
    cbn. destruct i; now apply M. }
  destruct (act_sim json dumps loads key root_filename filename_of encrypt decrypt encrypt_manifest
    decrypt_manifest new_salt manifest_text manifest_of_text set_order orders kk U laws s0 (ex_intro _ _ eq_refl) distinct
    (Call _ i (SetTag _ t v false)) _ a s w S K3 Y3) as (s3 & w3 & P3 & S3 & Y4).
  assert (settled json t (kept v) (snd (aact (Call _ i (SetTag _ t v false)) a))) as Q.
  { pose proof (sh_obj _ _ _ _ _ _ _ _ _ _ _ _ _ _ _ S) as H. pose proof (H i) as Hi. cbn. destruct (own _ a i) as [c|] eqn:W.
    - cbn. split; cbn; unfold assign; [now rewrite bytes_eqb_refl|]. intros m c2. destruct (Nat.eqb m i) eqn:M.
      + intros X. injection X as <-. cbn. rewrite bytes_eqb_refl. now left.
      + apply Nat.eqb_neq in M. intros W2. specialize (H m). rewrite W2 in H. destruct (s m) as [d|] eqn:D; [|contradiction]. left.
        pose proof (F m d M D) as C. unfold DbModel.filename in C. rewrite (r_key _ _ _ _ _ _ _ _ _ _ _ _ _ _ _ H), (r_salt _ _ _ _ _ _ _ _ _ _ _ _ _ _ _ H) in C.
        pose proof (r_cache _ _ _ _ _ _ _ _ _ _ _ _ _ _ _ H t T) as C2. cbn in C2. congruence.
    - destruct (s i); [contradiction|congruence]. }
  cbn [ShareModel.together] in E2. rewrite P3 in E2. set (a3 := snd (aact (Call _ i (SetTag _ t v false)) a)) in *.
  destruct (together_sim json dumps loads key root_filename filename_of encrypt decrypt encrypt_manifest
    decrypt_manifest new_salt manifest_text manifest_of_text set_order orders kk U laws s0 (ex_intro _ _ eq_refl) distinct
    acts2 _ a3 s3 w3 S3 K2 Y4) as (s4 & w4 & P4 & S4 & Y5). rewrite P4 in E2. injection E2 as _ <- <-.
  destruct (kept_storable json dumps loads key filename_of encrypt decrypt encrypt_manifest decrypt_manifest new_salt manifest_text manifest_of_text kk U laws v V) as [_ KK].
  pose proof (settled_run json dumps loads set_order t (kept v) acts2 a3 KK L Q) as [Q1 Q2].
  set (a4 := snd (atogether acts2 a3)) in *.
  assert (act_ok U (Call _ j (QueryTag _ t silent keep))) as K5.
  { split; [intros u X; injection X as <-; exact T|]. intros u x k X. discriminate. }
  destruct (act_sim json dumps loads key root_filename filename_of encrypt decrypt encrypt_manifest
    decrypt_manifest new_salt manifest_text manifest_of_text set_order orders kk U laws s0 (ex_intro _ _ eq_refl) distinct
    (Call _ j (QueryTag _ t silent keep)) _ a4 s4 w4 S4 K5 Y5) as (s5 & w5 & P5 & _). rewrite P5. cbn [fst].
  pose proof (sh_obj _ _ _ _ _ _ _ _ _ _ _ _ _ _ _ S4 j) as H. cbn. destruct (own _ a4 j) as [c|] eqn:W; [|destruct (s4 j); [contradiction|congruence]].
  unfold current. cbn. destruct (Q2 j c W) as [->| ->]; [rewrite Q1|]; reflexivity.
Qed.

(** C109: the listing that is found by those who open the database is that of the object which saved it last: its tags,
    and no others. *)
Theorem C109_last_save_decides_the_listing : forall acts1 rs1 s1 v1 i d acts2 rs2 s2 v2 j silent t,
  Forall (act_ok U) acts1 -> Forall (act_ok U) acts2 -> opened_after_save (acts1 ++ Call _ i (SaveDatabase _) :: acts2) -> In t U ->
  together kk acts1 only w1 = (rs1, s1, v1) -> s1 i = Some d ->
  Forall (fun x => ~ saves_database json x) acts2 ->
  together kk (Call _ i (SaveDatabase _) :: acts2) s1 v1 = (rs2, s2, v2) ->
  fst (fst (together kk [Open _ j silent false; Call _ j (Contains _ t); Call _ j (Length _)] s2 v2)) =
  [Done _; Truth _ (mem t (tags _ _ d)); Size _ (length (tags _ _ d))].
Proof.
  intros acts1 rs1 s1 v1 i d acts2 rs2 s2 v2 j silent t K1 K2 O T E1 I1 F E2.
  destruct (run_shared acts1 _ K1 O) as (s & w & E & S & Y). rewrite E in E1. injection E1 as _ <- <-.
  set (a := snd (atogether acts1 (first_object (empty _)))) in *.
  pose proof (sh_obj _ _ _ _ _ _ _ _ _ _ _ _ _ _ _ S i) as H. rewrite I1 in H. destruct (own _ a i) as [c|] eqn:W; [|contradiction].
  pose proof (tags_sim _ _ _ _ _ _ _ _ _ _ _ _ _ _ _ H) as TG. cbn in TG. rewrite TG.
  set (b := {| common := stored _ (snd (astep (SaveDatabase _) (seen a c))); record := Some (snd c);
    own := fun m => if Nat.eqb m i then Some c else own _ a m |} : abstract json).
  destruct (act_sim json dumps loads key root_filename filename_of encrypt decrypt encrypt_manifest
    decrypt_manifest new_salt manifest_text manifest_of_text set_order orders kk U laws s0 (ex_intro _ _ eq_refl) distinct
    (Call _ i (SaveDatabase _)) acts2 a s w S) as (s3 & w3 & P3 & S3 & _); [split; discriminate| |].
  { exact Y. }
  assert (snd (aact (Call _ i (SaveDatabase _)) a) = b) as B. { unfold b. destruct c as [c1 c2]. cbn. now rewrite W. }
  rewrite B in S3. cbn [ShareModel.together] in E2. rewrite P3 in E2.
  set (last := [Open _ j silent false; Call _ j (Contains _ t); Call _ j (Length _)]).
  destruct (together_sim json dumps loads key root_filename filename_of encrypt decrypt encrypt_manifest
    decrypt_manifest new_salt manifest_text manifest_of_text set_order orders kk U laws s0 (ex_intro _ _ eq_refl) distinct
    acts2 last b s3 w3 S3 K2) as (s4 & w4 & P4 & S4 & Y4); [left; discriminate|].
  rewrite P4 in E2. injection E2 as _ <- <-. pose proof (record_run json dumps loads set_order acts2 b F) as R.
  set (a4 := snd (atogether acts2 b)) in *.
  destruct (together_sim json dumps loads key root_filename filename_of encrypt decrypt encrypt_manifest
    decrypt_manifest new_salt manifest_text manifest_of_text set_order orders kk U laws s0 (ex_intro _ _ eq_refl) distinct
    last [] a4 s4 w4 S4) as (s5 & w5 & P5 & _).
  { repeat constructor; cbn; try discriminate. intros u X. injection X as <-. exact T. }
  { left. rewrite R. discriminate. }
  rewrite P5. cbn. rewrite R. cbn. rewrite Nat.eqb_refl. cbn. rewrite Nat.eqb_refl. cbn. now rewrite orb_false_r.
Qed.
End Props.
Print Assumptions C109_objects_keep_to_themselves.
Print Assumptions C109_cached_value_is_not_refreshed.
Print Assumptions C109_objects_are_the_abstract_objects.
Print Assumptions C109_saved_value_is_given_by_all.
Print Assumptions C109_last_save_decides_the_listing.

(** ** Cases, and what does not hold *)
Definition toy_together := together bytes toy_dumps toy_loads bytes toy_root toy_name toy_encrypt toy_decrypt toy_encrypt_manifest toy_decrypt_manifest toy_salt
  toy_manifest_text toy_manifest_of_text toy_order.
Definition toy_only := place bytes bytes (fun _ => None) 0 toy_d0.
Definition X1 : value bytes := Bytes _ [x01].
Definition X2 : value bytes := Bytes _ [x02].
Definition replies (l : list (act bytes)) := fst (fst (toy_together [x6b] l toy_only (tick world0))).
Definition two_start : list (act bytes) := [Call _ 0 (SaveDatabase _); Open _ 1 false false].

(** One saves a value; the other, opened before, gives it.  The other then sets the tag in turn. *)
Definition share_run : list (act bytes) := two_start ++
  [Call _ 0 (SetTag _ A X1 false); Call _ 1 (QueryTag _ A false true); Call _ 0 (SetTag _ A X2 false); Call _ 1 (QueryTag _ A false false);
   Call _ 1 (Contains _ A); Call _ 2 (Length _)].
Example C109_case : replies share_run =
  [Done _; Done _; Done _; Got _ (Some X1); Done _; Got _ (Some X1); Truth _ true; Raised _ OtherErr].
Proof. vm_compute. reflexivity. Qed.
Ltac oks := unfold share_run, two_start; cbn [app]; repeat (first [apply Forall_nil|apply Forall_cons]); first [exact I|
  split; [intros ? E; first [discriminate E|injection E as <-; cbn; auto]|intros; apply toy_storable]].
Example C109_case_of_theorem : fst (fst (toy_together [x6b] share_run toy_only (tick world0))) =
  fst (atogether bytes toy_dumps toy_loads toy_order share_run (first_object bytes (empty _))).
Proof.
  refine (C109_objects_are_the_abstract_objects _ _ _ _ _ _ _ _ _ _ toy_salt _ _ _ toy_orders [x6b] [A; B] (toy_laws _ _) world0 (toy_distinct _ _ _) toy_empty true false _ _ toy_opened
    share_run _ I).
  oks.
Qed.

(** C109 refuted: a tag that one object has set and saved the database with is still listed after another has saved it.
    It is not, when the other was opened before; the value is there for those who ask for it by name. *)
Definition lost_listing : list (act bytes) := two_start ++
  [Call _ 0 (SetTag _ A X1 true); Call _ 0 (SaveDatabase _); Call _ 1 (SaveDatabase _);
   Open _ 2 false true; Call _ 2 (Contains _ A); Call _ 2 (Length _); Call _ 2 (QueryTag _ A false false)].
Theorem C109_saved_tag_stays_listed_refuted : replies lost_listing =
  [Done _; Done _; Done _; Done _; Done _; Done _; Truth _ false; Size _ 0; Got _ (Some X1)].
Proof. vm_compute. reflexivity. Qed.
Print Assumptions C109_saved_tag_stays_listed_refuted.

(** C109 refuted: a tag that one object has removed, and saved the database, stays removed.  Another that has its value
    cached brings it back with its own save. *)
Definition brought_back : list (act bytes) := [Call _ 0 (SetTag _ A X1 true)] ++ two_start ++
  [Call _ 1 (QueryTag _ A false true); Call _ 0 (DelItem _ A); Call _ 0 (SaveDatabase _); Open _ 2 false true; Call _ 2 (QueryTag _ A true false);
   Call _ 1 (SaveDatabase _); Open _ 3 false true; Call _ 3 (GetItem _ A); Call _ 3 (Contains _ A)].
Theorem C109_removed_tag_stays_removed_refuted : replies brought_back =
  [Done _; Done _; Done _; Got _ (Some X1); Done _; Done _; Done _; Got _ None; Done _; Done _; Got _ (Some X1); Truth _ true].
Proof. vm_compute. reflexivity. Qed.
Print Assumptions C109_removed_tag_stays_removed_refuted.

(** C109 refuted: a saved value can be found without [opened_after_save] too.  Two objects opened before the first
    save have different salts; when the second saves, what the first had saved can no longer be reached by anybody who
    opens the database. *)
Definition two_beginnings : list (act bytes) :=
  [Open _ 1 false false; Call _ 0 (SetTag _ A X1 true); Call _ 0 (SaveDatabase _); Call _ 1 (SetTag _ B X2 true); Call _ 1 (SaveDatabase _);
   Open _ 2 false true; Call _ 2 (QueryTag _ A true false); Call _ 2 (QueryTag _ B true false)].
Theorem C109_two_beginnings_refuted : replies two_beginnings =
  [Done _; Done _; Done _; Done _; Done _; Done _; Got _ None; Got _ (Some X2)].
Proof. vm_compute. reflexivity. Qed.
Print Assumptions C109_two_beginnings_refuted.

(** The cases of the other theorems. *)
Example C109_saved_value_case : forall rs1 s1 v1 rs2 s2 v2,
  toy_together [x6b] (two_start ++ [Call _ 1 (SetTag _ B X2 true)]) toy_only (tick world0) = (rs1, s1, v1) ->
  toy_together [x6b] (Call _ 0 (SetTag _ A X1 false) :: [Open _ 2 true false; Call _ 1 (ClearCache _); Call _ 2 (SaveDatabase _)]) s1 v1 = (rs2, s2, v2) ->
  fst (fst (toy_together [x6b] [Call _ 1 (QueryTag _ A false false)] s2 v2)) = [Got _ (Some X1)].
Proof.
  intros rs1 s1 v1 rs2 s2 v2 E1 E2.
  assert (s1 0 <> None /\ (forall m d, m <> 0 -> s1 m = Some d -> DbModel.get (filename bytes bytes toy_name d A) (cache _ _ d) = None) /\ s2 1 <> None) as (H1 & H2 & H3).
  { cbv in E1. injection E1 as <- <- <-. cbv in E2. injection E2 as <- <- <-. split; [discriminate|]. split; [|discriminate].
    intros [|[|m]] d N D; [contradiction| |discriminate]. injection D as <-. reflexivity. }
  pose proof (C109_saved_value_is_given_by_all _ _ _ _ _ _ _ _ _ _ toy_salt _ _ _ toy_orders [x6b] [A; B] (toy_laws _ _) world0 (toy_distinct _ _ _) toy_empty true false _ _ toy_opened
    (two_start ++ [Call _ 1 (SetTag _ B X2 true)]) rs1 s1 v1 0 A X1 [Open _ 2 true false; Call _ 1 (ClearCache _); Call _ 2 (SaveDatabase _)] rs2 s2 v2 1 false false) as P.
  cbn [toy_together ShareModel.together]. unfold toy_together. cbn [ShareModel.together].
  match goal with |- context [act_step ?a ?b ?c ?d ?e ?f ?g ?h ?i ?j ?k ?l ?m ?n ?o ?p ?q ?r] => set (z := act_step a b c d e f g h i j k l m n o p q r) in * end.
  assert (fst (fst z) = Got _ (Some X1)) as Q. { apply P; auto; try (now oks); try apply toy_storable; cbn; auto. }
  destruct z as [[r s3] w3]. cbn in Q |- *. now rewrite Q.
Qed.
Example C109_cached_case : forall rs1 s1 v1 rs2 s2 v2,
  toy_together [x6b] (two_start ++ [Call _ 1 (SetTag _ B X2 true)]) toy_only (tick world0) = (rs1, s1, v1) ->
  toy_together [x6b] [Call _ 0 (SetTag _ B X1 false); Call _ 0 (SaveDatabase _)] s1 v1 = (rs2, s2, v2) ->
  fst (fst (toy_together [x6b] [Call _ 1 (QueryTag _ B false false)] s2 v2)) = [Got _ (Some X2)] /\
  fst (fst (toy_together [x6b] [Call _ 0 (QueryTag _ B false false)] s2 v2)) = [Got _ (Some X1)].
Proof. intros rs1 s1 v1 rs2 s2 v2 E1 E2. cbv in E1. injection E1 as <- <- <-. cbv in E2. injection E2 as <- <- <-. split; reflexivity. Qed.
Example C109_listing_case : replies (two_start ++ [Call _ 1 (SetTag _ B X2 true); Call _ 1 (SaveDatabase _); Call _ 0 (SetTag _ A X1 false); Open _ 0 true false; Call _ 0 (Contains _ B);
    Call _ 0 (Contains _ A); Call _ 0 (Length _)]) =
  [Done _; Done _; Done _; Done _; Done _; Done _; Truth _ true; Truth _ false; Size _ 1].
Proof. vm_compute. reflexivity. Qed.
