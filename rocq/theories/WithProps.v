(** * Databases as context managers (C101): theorems

    As in DbProps.v: [dumps], [loads] and the cipher are any that meet
    [storage_laws]; the database is opened with the key [kk] on a directory
    without its files. *)
From Coq Require Import Lia Permutation.
From Verif Require Import Base BaseFacts DbModel DbSpec DbProofs DbToy DbProps WithModel WithSpec WithProofs.
Local Open Scope nat_scope.

Section Blocks.
Variable json : Type.
Variable dumps : json -> result bytes.
Variable loads : bytes -> result json.
Variable key : Type.
Variable root_filename : key -> bytes.
Variable filename_of : key -> bytes -> bytes -> bytes.
Variable encrypt : nat -> key -> bytes -> bytes -> bytes -> bytes.
Variable decrypt : key -> bytes -> bytes -> bytes -> result bytes.
Variable encrypt_manifest : nat -> key -> bytes -> bytes.
Variable decrypt_manifest : key -> bytes -> result bytes.
Variable new_salt : nat -> bytes.
Variable manifest_text : manifest -> bytes.
Variable manifest_of_text : bytes -> result manifest.
Variable set_order : list bytes -> list bytes.
Hypothesis orders : forall l, NoDup l -> Permutation (set_order l) l.

Notation db := (db json key).
Notation value := (value json).
Notation op := (op json).
Notation open_db := (open_db json loads key root_filename filename_of decrypt decrypt_manifest new_salt manifest_of_text set_order).
Notation load_database := (load_database json loads key root_filename filename_of decrypt decrypt_manifest new_salt manifest_of_text set_order).
Notation perform := (perform json dumps loads key root_filename filename_of encrypt decrypt encrypt_manifest manifest_text set_order).
Notation session := (session json dumps loads key root_filename filename_of encrypt decrypt encrypt_manifest manifest_text set_order).
Notation life := (life json dumps loads key root_filename filename_of encrypt decrypt encrypt_manifest decrypt_manifest new_salt manifest_text manifest_of_text set_order).
Notation save_database := (save_database json dumps key root_filename encrypt encrypt_manifest manifest_text).
Notation exec := (exec json dumps loads key root_filename filename_of encrypt decrypt encrypt_manifest manifest_text set_order).
Notation aexec := (aexec json dumps loads set_order).
Notation prog_ok := (prog_ok json dumps loads).
Notation astep := (astep json dumps loads set_order).
Notation arun := (arun json dumps loads set_order).
Notation alife := (alife json dumps loads set_order).
Notation op_ok := (op_ok json dumps loads).
Notation kept := (kept json dumps loads).
Notation storable := (storable json dumps loads).
Notation rel := (rel json dumps loads key root_filename filename_of decrypt decrypt_manifest manifest_of_text).

Variable kk : key.
Variable U : list bytes.
Hypothesis laws : storage_laws dumps loads filename_of encrypt decrypt encrypt_manifest decrypt_manifest new_salt manifest_text manifest_of_text kk U.
Variable w0 : world.
Notation s0 := (new_salt (clock w0)).
Hypothesis distinct : distinct_names root_filename filename_of kk s0 U.
Hypothesis no_old_files : no_files root_filename filename_of kk s0 U (disk w0).
Variables silent0 preload0 : bool.
Variable d0 : db.
Variable w1 : world.
Hypothesis opened : open_db kk silent0 preload0 w0 = (Ok d0, w1).


Lemma begun : rel kk U s0 (empty _) d0 w1.
Proof. eapply started; eauto. Qed.
Lemma executed p : prog_ok U p -> exists d w, exec p d0 w1 = (fst (aexec p (empty _)), d, w) /\ rel kk U s0 (snd (aexec p (empty _))) d w.
Proof. intros O. eapply exec_sim; eauto using begun. Qed.

(** ** C101: programs with blocks

    What the calls return and what the program raises is what it would be on the map: a block raises
    what its body raises, and is a save. *)
Theorem C101_program_is_the_map : forall p, prog_ok U p -> fst (fst (exec p d0 w1)) = fst (aexec p (empty _)).
Proof. intros p O. destruct (executed p O) as (d & w & -> & _). reflexivity. Qed.

(** ** C101: a block is transparent

    Wherever a block stands, its calls return, it raises, and it leaves in the object, just what its
    body would without the block. *)
Theorem C101_block_raises_what_its_body_raises : forall q p rs exc d w, prog_ok U q -> prog_ok U p ->
  exec q d0 w1 = (rs, exc, d, w) -> fst (exec (With p) d w) = fst (exec p d w).
Proof.
  intros q p rs exc d w Oq Op E. destruct (executed q Oq) as (d' & w' & E' & R). rewrite E in E'.
  assert (d' = d /\ w' = w) as [-> ->] by (split; congruence). clear E'.
  assert (G : exists j, s0 = new_salt j) by (eexists; reflexivity).
  destruct (exec_sim _ _ _ _ _ _ _ _ _ _ _ _ _ _ orders _ _ laws _ G distinct p _ d w Op R) as (d1 & w2 & X & R1).
  cbn [WithModel.exec]. unfold enter. rewrite X. destruct (aexec p _) as [[rs' exc'] a1]. cbn [fst snd] in R1 |- *. unfold exit.
  destruct (save_database_sim _ _ _ _ _ _ _ _ _ _ _ _ _ set_order _ _ laws _ G distinct a1 d1 w2 R1) as (w3 & -> & _).
  destruct exc'; reflexivity.
Qed.

(** ** C101: saved on the way out

    However a block ends, what every tag then is, is what another process finds when it opens the
    database, also if this one goes on without writing. *)
Theorem C101_saved_on_the_way_out : forall q p rs exc d w rs' exc' d' w', prog_ok U q -> prog_ok U p ->
  exec q d0 w1 = (rs, exc, d, w) -> exec (With p) d w = (rs', exc', d', w') ->
  forall t v, In t U -> fst (fst (perform (QueryTag _ t true false) d' w')) = Got _ v ->
  forall os silent silent' keep, Forall (op_ok U) os -> Forall (unsaved _) os ->
  exists rs'', life (map (Op _) os ++ [Reopen _ silent false; Op _ (QueryTag _ t silent' keep)]) d' w' =
    rs'' ++ [match v with
             | Some v => Got _ (Some (kept v))
             | None => if silent' then Got _ None else Raised _ LookupErr
             end].
Proof.
  intros q p rs exc d w rs' exc' d' w' Oq Op E E' t v X Q os silent silent' keep Fo Un.
  assert (G : exists j, s0 = new_salt j) by (eexists; reflexivity).
  destruct (executed q Oq) as (d1 & w2 & Y & R). rewrite E in Y. assert (d1 = d /\ w2 = w) as [-> ->] by (split; congruence). clear Y.
  set (a := snd (aexec q (empty _))) in *.
  assert (S : sound json dumps loads a) by (eapply aexec_sound; eauto; apply sound_empty).
  destruct (exec_sim _ _ _ _ _ _ _ _ _ _ _ _ _ _ orders _ _ laws _ G distinct (With p) a d w Op R) as (d1 & w2 & Y & R1).
  rewrite E' in Y. assert (d1 = d' /\ w2 = w') as [-> ->] by (split; congruence). clear Y.
  cbn [WithSpec.aexec] in R1. assert (S1 : sound json dumps loads (snd (aexec p a))) by (eapply aexec_sound; eauto).
  destruct (aexec p a) as [[rs1 exc1] a1] eqn:A. cbn [fst snd] in R1, S1.
  set (b := snd (astep (SaveDatabase _) a1)) in *.
  assert (Ot : forall x y, op_ok U (QueryTag _ t x y)) by (intros x y; split; [intros u Z; injection Z as <-; exact X|discriminate]).
  assert (V : v = current _ b t).
  { destruct (perform_sim _ _ _ _ _ _ _ _ _ _ _ _ _ _ _ _ laws _ G distinct orders (QueryTag _ t true false) b d' w' R1 (Ot true false)) as (d2 & w3 & Z & _).
    rewrite Z in Q. cbn [fst] in Q. assert (forall c : adb json, fst (astep (QueryTag _ t true false) c) = Got _ (current _ c t)) as K.
    { intros c. cbn. now destruct (current _ c t). } rewrite K in Q. congruence. }
  assert (L : ledger _ b <> None) by discriminate.
  rewrite (life_sim _ _ _ _ _ _ _ _ _ _ _ _ _ _ _ _ laws _ G distinct orders _ b d' w' R1).
  - rewrite alife_ops. destruct (unsaved_run _ dumps loads set_order os b Un) as [S2 S3]. cbn [alife]. rewrite S3.
    destruct (ledger _ b) as [l|] eqn:Lb; [|now elim L]. cbn [aopen DbSpec.astep].
    assert (forall c : adb json, current _ (reopened _ c l) t = stored _ c t) as CR by reflexivity. rewrite CR, S2.
    subst v. unfold current. unfold b. cbn [DbSpec.astep snd cached stored].
    apply ends_app, ends_cons. destruct (cached _ a1 t) as [v'|]; [apply ends_one|]. destruct (stored _ a1 t) as [v'|] eqn:St; [|apply ends_one].
    assert (kept v' = v') as -> by exact (proj2 (proj2 S1 t v' St)). apply ends_one.
  - apply Forall_app. split; [apply Forall_map; exact Fo|]. constructor; [exact I|]. constructor; [apply Ot|constructor].
  - now left.
Qed.

(** ** C101: a block that raises is not undone

    Whatever its body assigned before it raised is in the files, for every value and exception. *)
Theorem C101_raising_block_is_undone_refuted : forall t v e silent, In t U -> storable v ->
  exists d w, exec (With (Seq (Call (SetTag _ t v true)) (Throw e))) d0 w1 = ([Done _], Some e, d, w) /\
    exists rs, life [Reopen _ silent false; Op _ (QueryTag _ t false false)] d w = rs ++ [Got _ (Some (kept v))].
Proof.
  intros t v e silent X Sv.
  assert (O : prog_ok U (Seq (Call (SetTag _ t v true)) (Throw e))).
  { split; [|exact I]. split; [intros u Z; injection Z as <-; exact X|]. intros t' v' k' Z. injection Z as <- <- <-. exact Sv. }
  destruct (executed (With (Seq (Call (SetTag _ t v true)) (Throw e))) O) as (d & w & E & R). exists d, w.
  split; [exact E|].
  assert (O' : prog_ok U (Call (QueryTag _ t true false))) by (split; [intros u Z; injection Z as <-; exact X|discriminate]).
  apply (C101_saved_on_the_way_out (Try (Throw e) (Call (Length _))) (Seq (Call (SetTag _ t v true)) (Throw e)) _ None d0 w1 [Done _] (Some e) d w
    ltac:(split; [exact I|split; discriminate]) O eq_refl E t (Some v) X) with (os := []) (silent' := false); [|constructor|constructor].
  assert (G : exists j, s0 = new_salt j) by (eexists; reflexivity).
  destruct (perform_sim _ _ _ _ _ _ _ _ _ _ _ _ _ _ _ _ laws _ G distinct orders (QueryTag _ t true false) _ d w R O') as (d2 & w3 & Z & _).
  rewrite Z. cbn. unfold current, assign. cbn. now rewrite bytes_eqb_refl.
Qed.

(** ** C101: a value that cannot be stored hides the exception of the body

    For every such value, and whatever the body raised. *)
Theorem C101_exception_of_the_body_arrives_refuted : forall t j e e', dumps j = Err e ->
  exists d w, exec (With (Seq (Call (SetTag _ t (Json _ j) true)) (Throw e'))) d0 w1 = ([Done _], Some e, d, w).
Proof.
  intros t j e e' D.
  assert (C : cache _ _ d0 = []).
  { pose proof begun as R. destruct (cache _ _ d0) as [|[n v] c] eqn:C; [reflexivity|].
    destruct (r_outside _ _ _ _ _ _ _ _ _ _ _ _ _ _ _ R n) as (u & Iu & ->); [rewrite C; now left|].
    pose proof (r_cache _ _ _ _ _ _ _ _ _ _ _ _ _ _ _ R u Iu) as Z. rewrite C in Z. cbn in Z. rewrite bytes_eqb_refl in Z. discriminate. }
  cbn. unfold exit, enter, DbModel.save_database, save_tags. cbn. rewrite C. cbn. unfold save_file. cbn. rewrite bytes_eqb_refl. cbn. rewrite D. cbn. eauto.
Qed.
End Blocks.

(** ** Cases *)
Definition toy_exec := exec bytes toy_dumps toy_loads bytes toy_root toy_name toy_encrypt toy_decrypt toy_encrypt_manifest toy_manifest_text toy_order.

(** A block inside a block, and an exception that goes through both and is caught: what the inner one
    and the outer one assigned is there, and so is what was removed. *)
Definition two_blocks : prog bytes :=
  Seq (Call (SetTag _ B (Bytes _ [x07]) true))
    (Try (With (Seq (With (Seq (Call (SetTag _ A (Bytes _ [x01]) true)) (Call (QueryTag _ A false false))))
                 (Seq (Call (RollbackTag _ A true)) (Seq (Call (PopTag _ B false)) (Seq (Call (QueryTag _ B false false)) (Call (SetTag _ A (Bytes _ [x09]) true)))))))
         (Call (Length _))).
Lemma two_blocks_ok : prog_ok bytes toy_dumps toy_loads [A; B] two_blocks.
Proof. repeat split; try (intros u E; try discriminate E; injection E as <-; cbn; auto); intros; apply toy_storable. Qed.
Example C101_case :
  let '(rs, exc, d, w) := toy_exec two_blocks toy_d0 (tick world0) in
  rs = [Done _; Done _; Got _ (Some (Bytes _ [x01])); Done _; Got _ (Some (Bytes _ [x07])); Raised _ LookupErr; Size _ 1] /\ exc = None /\
  toy_life [Reopen _ true true; Op _ (QueryTag _ A false false); Op _ (QueryTag _ B true false); Op _ (Length _)] d w =
    [Done _; Got _ (Some (Bytes _ [x01])); Got _ None; Size _ 1].
Proof. vm_compute. repeat split. Qed.
Example C101_case_of_theorem :
  fst (fst (toy_exec two_blocks toy_d0 (tick world0))) = fst (aexec bytes toy_dumps toy_loads toy_order two_blocks (empty _)).
Proof.
  exact (C101_program_is_the_map _ _ _ _ _ _ _ _ _ _ toy_salt _ _ _ toy_orders [x6b] [A; B] (toy_laws _ _) world0 (toy_distinct _ _ _) toy_empty true false _ _ toy_opened
    two_blocks two_blocks_ok).
Qed.
Example C101_uncaught_case :
  fst (toy_exec (With (Seq (Call (SetTag _ A (Bytes _ [x01]) true)) (Throw KeyErr))) toy_d0 (tick world0)) =
  fst (toy_exec (Seq (Call (SetTag _ A (Bytes _ [x01]) true)) (Throw KeyErr)) toy_d0 (tick world0)).
Proof.
  refine (C101_block_raises_what_its_body_raises _ _ _ _ _ _ _ _ _ _ toy_salt _ _ _ toy_orders [x6b] [A; B] (toy_laws _ _) world0 (toy_distinct _ _ _) toy_empty true false _ _ toy_opened
    (Try (Throw KeyErr) (Try (Throw KeyErr) (Call (Length _)))) _ _ _ _ _ _ _ eq_refl).
  - repeat split; discriminate.
  - split; [|exact I]. apply toy_ok. cbn. auto.
Qed.

(** A storage in which the empty text cannot be stored. *)
Definition picky_dumps (j : bytes) : result bytes := match j with [] => Err TypeErr | _ => Ok (x22 :: j) end.
Lemma picky_laws kk U : storage_laws picky_dumps toy_loads toy_name toy_encrypt toy_decrypt toy_encrypt_manifest toy_decrypt_manifest
  toy_salt toy_manifest_text toy_manifest_of_text kk U.
Proof.
  split; try apply (toy_laws kk U).
  - intros [|c j] x E; [discriminate|]. injection E as <-. discriminate.
  - intros [|c j] x j' E L; [discriminate|]. injection E as <-. injection L as <-. eexists. split; reflexivity.
Qed.
Definition picky_exec := exec bytes picky_dumps toy_loads bytes toy_root toy_name toy_encrypt toy_decrypt toy_encrypt_manifest toy_manifest_text toy_order.
Definition picky_life := life bytes picky_dumps toy_loads bytes toy_root toy_name toy_encrypt toy_decrypt toy_encrypt_manifest toy_decrypt_manifest toy_salt
  toy_manifest_text toy_manifest_of_text toy_order.
Example C101_hidden_case :
  exists d w, picky_exec (With (Seq (Call (SetTag _ A (Json _ []) true)) (Throw KeyErr))) toy_d0 (tick world0) = ([Done _], Some TypeErr, d, w).
Proof.
  exact (C101_exception_of_the_body_arrives_refuted _ _ toy_loads _ _ _ _ toy_decrypt _ toy_decrypt_manifest toy_salt _ toy_manifest_of_text _ toy_orders [x6b] [A; B] world0 (toy_distinct _ _ _) toy_empty true false _ _ toy_opened
    A [] TypeErr KeyErr eq_refl).
Qed.

(** Then values assigned after the one that cannot be stored are lost, though their tags are listed. *)
Theorem C101_other_values_are_saved_refuted : exists d w,
  picky_exec (With (Seq (Call (SetTag _ A (Json _ []) true)) (Call (SetTag _ B (Bytes _ [x01]) true)))) toy_d0 (tick world0) = ([Done _; Done _], Some TypeErr, d, w) /\
  picky_life [Reopen _ true true; Op _ (Contains _ B); Op _ (QueryTag _ B false false)] d w = [Done _; Truth _ true; Raised _ LookupErr].
Proof. do 2 eexists. split; [vm_compute; reflexivity|]. vm_compute. reflexivity. Qed.

Print Assumptions C101_program_is_the_map.
Print Assumptions C101_block_raises_what_its_body_raises.
Print Assumptions C101_saved_on_the_way_out.
Print Assumptions C101_raising_block_is_undone_refuted.
Print Assumptions C101_exception_of_the_body_arrives_refuted.
Print Assumptions C101_other_values_are_saved_refuted.
