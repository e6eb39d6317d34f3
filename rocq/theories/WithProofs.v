(** * Databases as context managers: proofs *)
From Coq Require Import Lia Permutation.
From Verif Require Import Base BaseFacts DbModel DbSpec DbProofs DbProps WithModel WithSpec.
Local Open Scope nat_scope.

Section Blocks.
Variable json : Type.
Variable dumps : json -> result bytes.
Variable loads : bytes -> result json.
Variable key : Type.
Variable root_filename : key -> bytes.
Variable filename_of : key -> bytes -> bytes -> bytes.
Variable encrypt : nat -> key -> bytes -> bytes -> bytes -> bytes.
Variable decrypt : key -> bytes -> bytes -> bytes -> result bytes.
Variable encrypt_manifest : nat -> key -> bytes -> bytes.
Variable decrypt_manifest : key -> bytes -> result bytes.
Variable new_salt : nat -> bytes.
Variable manifest_text : manifest -> bytes.
Variable manifest_of_text : bytes -> result manifest.
Variable set_order : list bytes -> list bytes.
Hypothesis orders : forall l, NoDup l -> Permutation (set_order l) l.

Notation db := (db json key).
Notation value := (value json).
Notation op := (op json).
Notation open_db := (open_db json loads key root_filename filename_of decrypt decrypt_manifest new_salt manifest_of_text set_order).
Notation load_database := (load_database json loads key root_filename filename_of decrypt decrypt_manifest new_salt manifest_of_text set_order).
Notation perform := (perform json dumps loads key root_filename filename_of encrypt decrypt encrypt_manifest manifest_text set_order).
Notation session := (session json dumps loads key root_filename filename_of encrypt decrypt encrypt_manifest manifest_text set_order).
Notation life := (life json dumps loads key root_filename filename_of encrypt decrypt encrypt_manifest decrypt_manifest new_salt manifest_text manifest_of_text set_order).
Notation save_database := (save_database json dumps key root_filename encrypt encrypt_manifest manifest_text).
Notation exec := (exec json dumps loads key root_filename filename_of encrypt decrypt encrypt_manifest manifest_text set_order).
Notation aexec := (aexec json dumps loads set_order).
Notation prog_ok := (prog_ok json dumps loads).
Notation astep := (astep json dumps loads set_order).
Notation arun := (arun json dumps loads set_order).
Notation alife := (alife json dumps loads set_order).
Notation op_ok := (op_ok json dumps loads).
Notation kept := (kept json dumps loads).
Notation storable := (storable json dumps loads).
Notation rel := (rel json dumps loads key root_filename filename_of decrypt decrypt_manifest manifest_of_text).

Variable kk : key.
Variable U : list bytes.
Hypothesis laws : storage_laws dumps loads filename_of encrypt decrypt encrypt_manifest decrypt_manifest new_salt manifest_text manifest_of_text kk U.
Variable s : bytes.
Hypothesis generated : exists j, s = new_salt j.
Hypothesis distinct : distinct_names root_filename filename_of kk s U.

Lemma exec_sim p : forall a d w, prog_ok U p -> rel kk U s a d w ->
  exists d' w', exec p d w = (fst (aexec p a), d', w') /\ rel kk U s (snd (aexec p a)) d' w'.
Proof.
  induction p as [o|e|p IHp q IHq|p IHp q IHq|p IHp]; intros a d w O R; cbn [WithModel.exec WithSpec.aexec].
  - destruct (perform_sim _ _ _ _ _ _ _ _ _ _ _ _ _ _ _ _ laws _ generated distinct orders o a d w R O) as (d' & w' & -> & R').
    destruct (astep o a) as [r a1]. do 2 eexists. split; [reflexivity|exact R'].
  - do 2 eexists. split; [reflexivity|exact R].
  - destruct O as [Op Oq]. destruct (IHp a d w Op R) as (d1 & w1 & -> & R1). destruct (aexec p a) as [[rs exc] a1]. cbn [fst snd] in R1 |- *.
    destruct exc; [do 2 eexists; split; [reflexivity|exact R1]|].
    destruct (IHq a1 d1 w1 Oq R1) as (d2 & w2 & -> & R2). destruct (aexec q a1) as [[rs' exc'] a2]. do 2 eexists. split; [reflexivity|exact R2].
  - destruct O as [Op Oq]. destruct (IHp a d w Op R) as (d1 & w1 & -> & R1). destruct (aexec p a) as [[rs exc] a1]. cbn [fst snd] in R1 |- *.
    destruct exc; [|do 2 eexists; split; [reflexivity|exact R1]].
    destruct (IHq a1 d1 w1 Oq R1) as (d2 & w2 & -> & R2). destruct (aexec q a1) as [[rs' exc'] a2]. do 2 eexists. split; [reflexivity|exact R2].
  - destruct (IHp a (enter _ _ d) w O R) as (d1 & w1 & -> & R1). destruct (aexec p a) as [[rs exc] a1]. cbn [fst snd] in R1 |- *. unfold exit.
    destruct (save_database_sim _ _ _ _ _ _ _ _ _ _ _ _ _ set_order _ _ laws _ generated distinct a1 d1 w1 R1) as (w2 & -> & R2).
    exists d1, w2. split; [|exact R2]. destruct exc; reflexivity.
Qed.

Lemma aexec_sound p : forall a, prog_ok U p -> sound json dumps loads a -> sound json dumps loads (snd (aexec p a)).
Proof.
  assert (St : forall o a, op_ok U o -> sound json dumps loads a -> sound json dumps loads (snd (astep o a))).
  { intros o a O S. eapply sound_step; eauto. }
  induction p as [o|e|p IHp q IHq|p IHp q IHq|p IHp]; intros a O S; cbn [WithSpec.aexec].
  - specialize (St o a O S). destruct (astep o a). exact St.
  - exact S.
  - destruct O as [Op Oq]. specialize (IHp a Op S). destruct (aexec p a) as [[rs [e|]] a1]; [exact IHp|]. cbn [snd] in IHp.
    specialize (IHq a1 Oq IHp). destruct (aexec q a1) as [[rs' exc'] a2]. exact IHq.
  - destruct O as [Op Oq]. specialize (IHp a Op S). destruct (aexec p a) as [[rs [e|]] a1]; [|exact IHp]. cbn [snd] in IHp.
    specialize (IHq a1 Oq IHp). destruct (aexec q a1) as [[rs' exc'] a2]. exact IHq.
  - specialize (IHp a O S). destruct (aexec p a) as [[rs exc] a1]. cbn [snd] in IHp |- *. apply St; [|exact IHp]. split; discriminate.
Qed.
End Blocks.
