From Coq Require Import Lia.
From Verif Require Import Base BaseFacts DbModel DbSpec DbProofs SealSpec.
Local Open Scope nat_scope.

Section S.
Variable key : Type.
Variable root_filename : key -> bytes.
Variable filename_of : key -> bytes -> bytes -> bytes.
Variable encrypt : nat -> key -> bytes -> bytes -> bytes -> bytes.
Variable encrypt_manifest : nat -> key -> bytes -> bytes.
Lemma sealed_weaken kk s lo lo' l hi : lo' <= lo ->
  sealed key root_filename filename_of encrypt encrypt_manifest kk s lo l hi ->
  sealed key root_filename filename_of encrypt encrypt_manifest kk s lo' l hi.
Proof. intros L H. revert lo' L. induction H as [| |]; intros lo' L.
  - constructor. lia.
  - apply sealed_write with c; auto. lia.
  - apply sealed_unlink; auto.
Qed.
Lemma sealed_app kk s lo l1 mid l2 hi :
  sealed key root_filename filename_of encrypt encrypt_manifest kk s lo l1 mid ->
  sealed key root_filename filename_of encrypt encrypt_manifest kk s mid l2 hi ->
  sealed key root_filename filename_of encrypt encrypt_manifest kk s lo (l1 ++ l2) hi.
Proof.
  intros H1 H2. induction H1; cbn [app].
  - eapply sealed_weaken; [eassumption|exact H2].
  - apply sealed_write with c; auto.
  - apply sealed_unlink; auto.
Qed.
Lemma sealed_le kk s lo l hi :
  sealed key root_filename filename_of encrypt encrypt_manifest kk s lo l hi -> lo <= hi.
Proof. induction 1; lia. Qed.

End S.

Section D.
Variable json : Type.
Variable dumps : json -> result bytes.
Variable loads : bytes -> result json.
Variable key : Type.
Variable root_filename : key -> bytes.
Variable filename_of : key -> bytes -> bytes -> bytes.
Variable encrypt : nat -> key -> bytes -> bytes -> bytes -> bytes.
Variable decrypt : key -> bytes -> bytes -> bytes -> result bytes.
Variable encrypt_manifest : nat -> key -> bytes -> bytes.
Variable decrypt_manifest : key -> bytes -> result bytes.
Variable new_salt : nat -> bytes.
Variable manifest_text : manifest -> bytes.
Variable manifest_of_text : bytes -> result manifest.
Variable set_order : list bytes -> list bytes.
Notation db := (db json key).
Notation perform := (perform json dumps loads key root_filename filename_of encrypt decrypt encrypt_manifest manifest_text set_order).
Notation session := (session json dumps loads key root_filename filename_of encrypt decrypt encrypt_manifest manifest_text set_order).
Notation save_file := (save_file json dumps key encrypt).
Notation save_files := (save_files json dumps key encrypt).
Notation save_tag := (save_tag json dumps key filename_of encrypt).
Notation query_tag := (query_tag json loads key filename_of decrypt).
Notation query_all := (query_all json loads key filename_of decrypt).
Notation filename := (filename json key filename_of).
Notation sealed d := (sealed key root_filename filename_of encrypt encrypt_manifest (k json key d) (salt json key d)).
Notation own_name d := (own_name key root_filename filename_of (k json key d) (salt json key d)).
Notation k := (k json key).
Notation salt := (salt json key).
Notation cache := (cache json key).

Definition tagged (d : db) : Prop := forall n, In n (map fst (cache d)) -> exists tag, n = filename_of (k d) (salt d) tag.

(** [d] and [w] become [d'] and [w']. *)
Definition moves (d : db) (w : world) (d' : db) (w' : world) : Prop :=
  k d' = k d /\ salt d' = salt d /\ tagged d' /\
  exists l, log w' = log w ++ l /\ disk w' = replay l (disk w) /\ sealed d (clock w) l (clock w').

Lemma moves_refl d w d' : k d' = k d -> salt d' = salt d -> tagged d' -> moves d w d' w.
Proof.
  intros E1 E2 T. split; [exact E1|]. split; [exact E2|]. split; [exact T|]. exists []. split; [now rewrite app_nil_r|].
  split; [reflexivity|]. now constructor.
Qed.
Lemma moves_trans d w d1 w1 d2 w2 : moves d w d1 w1 -> moves d1 w1 d2 w2 -> moves d w d2 w2.
Proof.
  intros (K1 & S1 & T1 & l1 & L1 & D1 & X1) (K2 & S2 & T2 & l2 & L2 & D2 & X2).
  split; [congruence|]. split; [congruence|]. split; [exact T2|]. exists (l1 ++ l2).
  split; [now rewrite L2, L1, app_assoc|]. split; [unfold replay in *; now rewrite fold_left_app, <- D1|].
  rewrite K1, S1 in X2. eapply sealed_app; [exact X1|exact X2].
Qed.

Lemma save_file_moves d n w r w' : tagged d -> save_file d n w = (r, w') -> moves d w d w'.
Proof.
  intros T E. unfold DbModel.save_file in E. destruct (get n (cache d)) as [v|] eqn:G.
  - destruct (to_text json dumps v) as [x|e].
    + injection E as <- <-. split; [reflexivity|]. split; [reflexivity|]. split; [exact T|].
      eexists. split; [cbn; reflexivity|]. split; [reflexivity|]. cbn.
      destruct (T n) as [t Ht]; [apply in_get; congruence|].
      econstructor; [apply le_n| |constructor; apply le_n]. left. exists t, x. split; [exact Ht|reflexivity].
    + injection E as <- <-. now apply moves_refl.
  - injection E as <- <-. now apply moves_refl.
Qed.
Lemma save_files_moves l : forall d w r w', tagged d -> save_files d l w = (r, w') -> moves d w d w'.
Proof.
  induction l as [|n l IH]; intros d w r w' T E; cbn [DbModel.save_files] in E.
  - injection E as <- <-. now apply moves_refl.
  - destruct (save_file d n w) as [r1 w1] eqn:F. pose proof (save_file_moves _ _ _ _ _ T F) as M.
    destruct r1 as [u|e]; [|now injection E as <- <-].
    apply moves_trans with d w1; [exact M|]. now apply IH with r.
Qed.
Lemma tagged_del d n : tagged d -> forall c, c = del n (cache d) -> forall x, In x (map fst c) -> exists tag, x = filename_of (k d) (salt d) tag.
Proof.
  intros T c -> x I. apply T. revert I. generalize (cache d). induction d0 as [|[y b] l IH]; cbn; [tauto|].
  destruct (bytes_eqb n y); cbn; intuition.
Qed.
Lemma tagged_put d n v : tagged d -> (exists tag, n = filename_of (k d) (salt d) tag) ->
  forall x, In x (map fst (put n v (cache d))) -> exists tag, x = filename_of (k d) (salt d) tag.
Proof. intros T N x I. apply in_put in I as [->|I]; [exact N|now apply T]. Qed.

Lemma save_tag_moves d t drop w r d' w' : tagged d -> save_tag d t drop w = (r, d', w') -> moves d w d' w'.
Proof.
  intros T E. unfold DbModel.save_tag in E. destruct (save_file d (filename d t) w) as [r1 w1] eqn:F.
  pose proof (save_file_moves _ _ _ _ _ T F) as M. injection E as <- <- <-.
  apply moves_trans with d w1; [exact M|]. destruct drop; apply moves_refl; try reflexivity; [|exact T].
  intros x I. cbn in I. now apply (tagged_del d (filename d t) T _ eq_refl).
Qed.
Lemma query_tag_state d t silent keep w r d' : tagged d -> query_tag d t silent keep w = (r, d') ->
  k d' = k d /\ salt d' = salt d /\ tagged d'.
Proof.
  intros T E. unfold DbModel.query_tag in E.
  destruct (get (filename d t) (cache d)); [injection E as <- <-; auto|].
  destruct (disk w (filename d t)) as [[|b c]|]; try (injection E as <- <-; auto).
  destruct (decrypt _ _ _ _); [|injection E as <- <-; auto].
  destruct (of_text json loads _) as [v|]; [|injection E as <- <-; auto].
  injection E as <- <-. destruct keep; [|auto]. split; [reflexivity|]. split; [reflexivity|].
  intros x I. cbn in I. refine (tagged_put d _ v T _ x I). now exists t.
Qed.
Lemma query_all_state l : forall d silent w r d', tagged d -> query_all d l silent w = (r, d') ->
  k d' = k d /\ salt d' = salt d /\ tagged d'.
Proof.
  induction l as [|t l IH]; intros d silent w r d' T E; cbn [DbModel.query_all] in E.
  - injection E as <- <-. auto.
  - destruct (query_tag d t silent true w) as [r1 d1] eqn:F.
    destruct (query_tag_state _ _ _ _ _ _ _ T F) as (K1 & S1 & T1).
    destruct r1; [|injection E as <- <-; auto].
    destruct (IH _ _ _ _ _ T1 E) as (K2 & S2 & T2). split; [congruence|]. split; [congruence|exact T2].
Qed.
Lemma unlink_moves d n w d' : own_name d n -> k d' = k d -> salt d' = salt d -> tagged d' -> moves d w d' (unlink n w).
Proof.
  intros O K S0 T. unfold unlink. destruct (disk w n) eqn:E; [|now apply moves_refl].
  split; [exact K|]. split; [exact S0|]. split; [exact T|]. eexists. split; [reflexivity|]. split; [reflexivity|].
  constructor; [exact O|]. constructor. apply le_n.
Qed.
Lemma set_tags_state d t : k (set_tags json key d t) = k d /\ salt (set_tags json key d t) = salt d.
Proof. split; reflexivity. Qed.

Lemma perform_moves o d w r d' w' : tagged d -> perform o d w = (r, d', w') -> moves d w d' w'.
Proof.
  intros T E. destruct o as [t v keep|t silent keep|t|t silent|t|t keep| |t drop| |silent|t|]; cbn [DbModel.perform] in E.
  - unfold set_tag in E. set (d1 := set_tags _ _ _ _) in E.
    assert (T1 : tagged d1).
    { intros x I. cbn in I. refine (tagged_put d _ v T _ x I). now exists t. }
    assert (M : moves d w d1 w) by now apply moves_refl.
    destruct keep.
    + injection E as <- <- <-. exact M.
    + destruct (save_tag d1 t true w) as [[r1 d2] w2] eqn:F. injection E as <- <- <-.
      apply moves_trans with d1 w; [exact M|]. now apply save_tag_moves with t true r1.
  - destruct (query_tag d t silent keep w) as [r1 d1] eqn:F. injection E as <- <- <-.
    destruct (query_tag_state _ _ _ _ _ _ _ T F) as (? & ? & ?). now apply moves_refl.
  - injection E as <- <- <-. now apply moves_refl.
  - unfold pop_tag in E. destruct (fst (query_tag d t true false w)) as [v|e].
    + injection E as <- <- <-. apply unlink_moves; [right; now exists t|reflexivity|reflexivity|].
      intros x I. cbn in I. now apply (tagged_del d (filename d t) T _ eq_refl).
    + injection E as <- <- <-. now apply moves_refl.
  - unfold del_item in E. injection E as <- <- <-. apply unlink_moves; [right; now exists t|reflexivity|reflexivity|].
    intros x I. cbn in I. now apply (tagged_del d (filename d t) T _ eq_refl).
  - unfold rollback_tag in E. set (d2 := set_cache _ _ _ _) in E.
    assert (K2 : k d2 = k d /\ salt d2 = salt d /\ cache d2 = del (filename d t) (cache d)).
    { unfold d2. destruct (exists_file _ _); cbn; auto. }
    destruct K2 as (K2 & S2 & C2).
    assert (T2 : tagged d2).
    { intros x I. rewrite C2 in I. rewrite K2, S2. now apply (tagged_del d (filename d t) T _ eq_refl). }
    assert (M : moves d w d2 w) by now apply moves_refl.
    destruct keep.
    + destruct (query_tag d2 t false true w) as [r1 d3] eqn:F. injection E as <- <- <-.
      destruct (query_tag_state _ _ _ _ _ _ _ T2 F) as (? & ? & ?). apply moves_refl; congruence || assumption.
    + injection E as <- <- <-. exact M.
  - injection E as <- <- <-. apply moves_refl; try reflexivity. intros x [].
  - destruct (save_tag d t drop w) as [[r1 d1] w1] eqn:F. injection E as <- <- <-. now apply save_tag_moves with t drop r1.
  - unfold save_database, save_tags in E.
    destruct (save_files d (map fst (cache d)) (close_manifest json key root_filename encrypt_manifest manifest_text d w)) as [r1 w1] eqn:F.
    injection E as <- <- <-.
    apply moves_trans with d (close_manifest json key root_filename encrypt_manifest manifest_text d w).
    + split; [reflexivity|]. split; [reflexivity|]. split; [exact T|]. eexists. split; [cbn; reflexivity|]. split; [reflexivity|].
      cbn. econstructor; [apply le_n| |constructor; apply le_n]. right. split; [reflexivity|]. eexists. reflexivity.
    + now apply save_files_moves with (map fst (cache d)) r1.
  - unfold load_tags in E. destruct (query_all d (set_order (tags json key d)) silent w) as [r1 d1] eqn:F. injection E as <- <- <-.
    destruct (query_all_state _ _ _ _ _ _ T F) as (? & ? & ?). now apply moves_refl.
  - injection E as <- <- <-. now apply moves_refl.
  - injection E as <- <- <-. now apply moves_refl.
Qed.

Lemma session_moves os : forall d w rs d' w', tagged d -> session os d w = (rs, d', w') -> moves d w d' w'.
Proof.
  induction os as [|o os IH]; intros d w rs d' w' T E; cbn [DbModel.session] in E.
  - injection E as <- <- <-. now apply moves_refl.
  - destruct (perform o d w) as [[r d1] w1] eqn:F. destruct (session os d1 w1) as [[rs2 d2] w2] eqn:G.
    injection E as <- <- <-. pose proof (perform_moves _ _ _ _ _ _ T F) as M.
    apply moves_trans with d1 w1; [exact M|]. apply IH with rs2; [|exact G]. apply M.
Qed.

Notation open_db := (open_db json loads key root_filename filename_of decrypt decrypt_manifest new_salt manifest_of_text set_order).
Lemma open_moves kk silent preload w r w' : open_db kk silent preload w = (r, w') ->
  log w' = log w /\ disk w' = disk w /\ clock w <= clock w' /\
  (forall d, r = Ok d -> k d = kk /\ tagged d).
Proof.
  intros E. unfold DbModel.open_db in E.
  destruct (load_manifest json key root_filename decrypt_manifest new_salt manifest_of_text kk [] w) as [r1 w1] eqn:F.
  assert (W : log w1 = log w /\ disk w1 = disk w /\ clock w <= clock w1).
  { unfold load_manifest in F. destruct (disk w (root_filename kk)).
    - apply pair_equal_spec in F as [_ <-]. auto.
    - injection F as <- <-. cbn. auto. }
  assert (D : forall d, r1 = Ok d -> k d = kk /\ tagged d).
  { intros d ->. unfold load_manifest in F. destruct (disk w (root_filename kk)) as [c|].
    - apply pair_equal_spec in F as [F _]. apply bind_ok in F as (x & _ & F). apply bind_ok in F as (mm & _ & F).
      apply Ok_inj in F. subst d. split; [reflexivity|]. intros n [].
    - injection F as <- _. split; [reflexivity|]. intros n []. }
  destruct r1 as [d|e].
  - destruct (D d eq_refl) as [K0 T0]. destruct preload.
    + unfold load_tags in E. destruct (query_all d (set_order (tags json key d)) silent w1) as [r2 d2] eqn:G.
      apply pair_equal_spec in E as [<- <-]. destruct (query_all_state _ _ _ _ _ _ T0 G) as (K1 & _ & T1).
      split; [apply W|]. split; [apply W|]. split; [apply W|]. intros d' Q. destruct r2; [|discriminate].
      apply Ok_inj in Q. subst d'. split; [congruence|exact T1].
    + apply pair_equal_spec in E as [<- <-]. split; [apply W|]. split; [apply W|]. split; [apply W|].
      intros d' Q. apply Ok_inj in Q. subst d'. auto.
  - apply pair_equal_spec in E as [<- <-]. split; [apply W|]. split; [apply W|]. split; [apply W|]. discriminate.
Qed.
End D.
