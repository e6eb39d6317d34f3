(** * Metatags: proofs *)
From Coq Require Import Lia Permutation.
From Verif Require Import Base BaseFacts DbModel DbSpec DbProofs TreeModel TreeSpec.
Local Open Scope nat_scope.

Lemma get_in {A} t (l : list (bytes * A)) a : get t l = Some a -> In (t, a) l.
Proof.
  induction l as [|[u b] l IH]; cbn; [discriminate|]. destruct (bytes_eqb t u) eqn:E; [|auto].
  apply bytes_eqb_eq in E as ->. intros Q. injection Q as ->. now left.
Qed.

Lemma NoDup_app_intro_one {A} (l : list A) t : NoDup l -> ~ In t l -> NoDup (l ++ [t]).
Proof.
  intros N I. apply Permutation_NoDup with (t :: l); [|now constructor]. apply Permutation_cons_append.
Qed.

Lemma in_remove_first t u l : NoDup l -> (In u (remove_first t l) <-> In u l /\ u <> t).
Proof.
  induction l as [|v l IH]; cbn; intros N; [tauto|]. apply NoDup_cons_iff in N as [N1 N2]. destruct (bytes_eqb t v) eqn:E.
  - apply bytes_eqb_eq in E as ->. split; [intros I; split; [auto|congruence]|]. intros [[->|I] X]; [contradiction|auto].
  - apply bytes_eqb_neq in E. cbn. rewrite (IH N2). split; [intros [->|[A B]]; auto|]. intros [[->|A] B]; auto.
Qed.
Lemma remove_first_nodup t l : NoDup l -> NoDup (remove_first t l).
Proof.
  induction l as [|v l IH]; cbn; intros N; [constructor|]. pose proof N as N0. apply NoDup_cons_iff in N as [N1 N2]. destruct (bytes_eqb t v); [exact N2|].
  constructor; [|auto]. intros I. apply in_remove_first in I; [tauto|exact N2].
Qed.
Lemma mem_bytes t l : existsb (bytes_eqb t) l = true <-> In t l.
Proof.
  rewrite existsb_exists. split; [intros (u & I & E); apply bytes_eqb_eq in E as ->; exact I|]. intros I. exists t. split; [exact I|apply bytes_eqb_refl].
Qed.
Lemma in_del {A} t u (c : A) l : NoDup (map fst l) -> In (u, c) (del t l) -> In (u, c) l /\ u <> t.
Proof.
  induction l as [|[v a] l IH]; cbn; intros N; [intros []|]. apply NoDup_cons_iff in N as [N1 N2]. destruct (bytes_eqb t v) eqn:E.
  - apply bytes_eqb_eq in E as ->. intros I. split; [auto|]. intros ->. apply N1. change v with (fst (v, c)). now apply in_map.
  - apply bytes_eqb_neq in E. intros [Q|I]; [|destruct (IH N2 I); auto]. split; [auto|congruence].
Qed.
Lemma del_keys {A} t u (l : list (bytes * A)) : NoDup (map fst l) -> (In u (map fst (del t l)) <-> In u (map fst l) /\ u <> t).
Proof.
  induction l as [|[v a] l IH]; cbn; intros N; [tauto|]. apply NoDup_cons_iff in N as [N1 N2]. destruct (bytes_eqb t v) eqn:E.
  - apply bytes_eqb_eq in E as ->. split; [intros I; split; [auto|congruence]|]. intros [[->|I] X]; [contradiction|auto].
  - apply bytes_eqb_neq in E. cbn. rewrite (IH N2). split; [intros [->|[A1 B]]; auto|]. intros [[->|A1] B]; auto.
Qed.
Lemma put_keys {A} t (c : A) l : In t (map fst l) -> map fst (put t c l) = map fst l.
Proof.
  induction l as [|[v a] l IH]; cbn; [intros []|]. destruct (bytes_eqb t v) eqn:E; cbn; [apply bytes_eqb_eq in E as ->; reflexivity|].
  apply bytes_eqb_neq in E. intros [X|I]; [congruence|]. now rewrite IH.
Qed.
Lemma in_put_pair {A} t u (c c' : A) l : In (u, c') (put t c l) -> c' = c \/ In (u, c') l.
Proof.
  induction l as [|[v a] l IH]; cbn; [intros [Q|[]]; left; congruence|]. destruct (bytes_eqb t v); cbn; intros [Q|I]; auto; [left; congruence|]. destruct (IH I); auto.
Qed.

Section T.
Variable json : Type.
Variable dumps : json -> result bytes.
Variable loads : bytes -> result json.
Variable key : Type.
Variable root_filename : key -> bytes.
Variable filename_of : key -> bytes -> bytes -> bytes.
Variable encrypt : nat -> key -> bytes -> bytes -> bytes -> bytes.
Variable decrypt : key -> bytes -> bytes -> bytes -> result bytes.
Variable encrypt_manifest : nat -> key -> bytes -> bytes.
Variable decrypt_manifest : key -> bytes -> result bytes.
Variable new_salt : nat -> bytes.
Variable manifest_text : manifest -> bytes.
Variable manifest_of_text : bytes -> result manifest.
Variable set_order : list bytes -> list bytes.
Variable child_key : key -> bytes -> bytes -> key.
Variable reserved : bytes -> bool.

Notation db := (db json key).
Notation op := (op json).
Notation node := (node json key).
Notation Node := (Node json key).
Notation self := (self json key).
Notation kids := (kids json key).
Notation find := (find json key).
Notation metatags := (metatags json key).
Notation perform := (perform json dumps loads key root_filename filename_of encrypt decrypt encrypt_manifest manifest_text set_order).
Notation query_tag := (query_tag json loads key filename_of decrypt).
Notation query_all := (query_all json loads key filename_of decrypt).
Notation load_tags := (load_tags json loads key filename_of decrypt set_order).
Notation open_db := (open_db json loads key root_filename filename_of decrypt decrypt_manifest new_salt manifest_of_text set_order).
Notation open_node := (open_node json loads key root_filename filename_of decrypt decrypt_manifest new_salt manifest_of_text set_order child_key reserved).
Notation save_node := (save_node json dumps key root_filename encrypt encrypt_manifest manifest_text set_order).
Notation delete_node := (delete_node json key root_filename set_order).
Notation perform_node := (perform_node json dumps loads key root_filename filename_of encrypt decrypt encrypt_manifest decrypt_manifest new_salt manifest_text manifest_of_text set_order child_key reserved).
Notation perform_at := (perform_at json dumps loads key root_filename filename_of encrypt decrypt encrypt_manifest decrypt_manifest new_salt manifest_text manifest_of_text set_order child_key reserved).
Notation touched := (touched json key root_filename filename_of).
Notation saved_files := (saved_files json key root_filename).
Notation listed_files := (listed_files json key root_filename).
Notation concerned_files := (concerned_files json key root_filename filename_of).
Notation same_contents := (same_contents json key).
Notation complete := (complete json key).

Lemma node_induction (P : node -> Prop) : (forall d ks, (forall t c, In (t, c) ks -> P c) -> P (Node d ks)) -> forall x, P x.
Proof.
  intros H. fix IH 1. intros [d ks]. apply H. induction ks as [|[u c'] ks IHks]; intros t c I; [destruct I|].
  destruct I as [E|I]; [|exact (IHks t c I)]. assert (c' = c) as <- by congruence. apply IH.
Qed.
(** ** Flat operations *)
Lemma query_tag_same d t s kp w : let d' := snd (query_tag d t s kp w) in
  k _ _ d' = k _ _ d /\ m _ _ d' = m _ _ d.
Proof.
  cbn. unfold DbModel.query_tag. destruct (get _ (cache _ _ d)); [auto|]. destruct (disk w _) as [[|b ct]|]; auto.
  destruct (decrypt _ _ _ _); [|auto]. destruct (of_text _ _ _); [|auto]. destruct kp; auto.
Qed.
Lemma query_all_same l : forall d s w, let d' := snd (query_all d l s w) in k _ _ d' = k _ _ d /\ m _ _ d' = m _ _ d.
Proof.
  induction l as [|t l IH]; intros d s w; cbn -[DbModel.query_tag]; [auto|].
  pose proof (query_tag_same d t s true w) as Q. destruct (query_tag d t s true w) as [[x|e] d1]; cbn in Q |- *; [|auto].
  destruct (IH d1 s w) as [A B]. destruct Q. split; congruence.
Qed.
Lemma perform_keeps o d w : let d' := snd (fst (perform o d w)) in
  k _ _ d' = k _ _ d /\ salt _ _ d' = salt _ _ d /\ metatags d' = metatags d.
Proof.
  destruct o as [t v keep|t silent keep|t|t silent|t|t keep| |t drop| |silent|t|]; cbn; auto.
  - unfold set_tag. destruct keep; [cbn; auto|]. unfold save_tag. destruct (save_file _ _ _ _ _ _ _) as [r w1]. cbn. auto.
  - pose proof (query_tag_same d t silent keep w) as [A B]. destruct (query_tag d t silent keep w) as [r d1]. cbn in *. unfold salt, TreeModel.metatags.
    rewrite A, B. auto.
  - unfold pop_tag. destruct (fst (query_tag d t true false w)); cbn; auto.
  - unfold rollback_tag. set (d2 := set_cache _ _ _ _). assert (k _ _ d2 = k _ _ d /\ salt _ _ d2 = salt _ _ d /\ metatags d2 = metatags d) as D.
    { unfold d2. destruct (exists_file _ w); cbn; auto. }
    destruct keep; [|exact D]. pose proof (query_tag_same d2 t false true w) as [A B]. destruct (query_tag d2 t false true w) as [r d3].
    cbn in *. unfold salt, TreeModel.metatags in *. rewrite A, B. exact D.
  - unfold save_tag. destruct (save_file _ _ _ _ _ _ _) as [r w1]. cbn. destruct drop; auto.
  - destruct (save_database _ _ _ _ _ _ _ d w) as [r w1]. auto.
  - unfold DbModel.load_tags. pose proof (query_all_same (set_order (tags _ _ d)) d silent w) as [A B].
    destruct (query_all d _ silent w) as [r d1]. cbn in *. unfold salt, TreeModel.metatags. rewrite A, B. auto.
Qed.

Lemma write_other n n' data w : n' <> n -> disk (file_op (Write n' data) w) n = disk w n.
Proof.
  intros N. cbn. destruct (bytes_eqb n n') eqn:B; [|reflexivity]. apply bytes_eqb_eq in B. congruence.
Qed.
Lemma save_file_touch d n' w n : n' <> n -> disk (snd (save_file json dumps key encrypt d n' w)) n = disk w n.
Proof.
  intros N. unfold save_file. destruct (get n' _); [|reflexivity]. destruct (to_text _ _ _); [|reflexivity]. cbn [snd]. now rewrite write_other.
Qed.
Lemma save_files_touch l : forall d w n, ~ In n l -> disk (snd (save_files json dumps key encrypt d l w)) n = disk w n.
Proof.
  induction l as [|x l IH]; intros d w n N; cbn -[save_file]; [reflexivity|]. pose proof (save_file_touch d x w n) as S.
  destruct (save_file _ _ _ _ d x w) as [[u|e] w1]; cbn in S |- *; [|apply S; firstorder]. rewrite IH by firstorder. apply S. firstorder.
Qed.
Lemma unlink_touch n' w n : n' <> n -> disk (unlink n' w) n = disk w n.
Proof.
  intros N. unfold unlink. destruct (disk w n'); [|reflexivity]. cbn. destruct (bytes_eqb n n') eqn:B; [|reflexivity]. apply bytes_eqb_eq in B. congruence.
Qed.
Lemma perform_touch o d w n : ~ In n (touched o d) -> disk (snd (perform o d w)) n = disk w n.
Proof.
  destruct o as [t v keep|t silent keep|t|t silent|t|t keep| |t drop| |silent|t|]; cbn -[save_database]; intros N; auto.
  - unfold set_tag. destruct keep; [reflexivity|]. unfold save_tag.
    set (d1 := set_tags _ _ _ _). change (filename _ _ filename_of d1 t) with (filename_of (k _ _ d) (salt _ _ d) t).
    pose proof (save_file_touch d1 (filename_of (k _ _ d) (salt _ _ d) t) w n (fun E => N (or_introl E))) as S.
    destruct (save_file _ _ _ _ d1 _ w) as [r w1]. exact S.
  - destruct (query_tag d t silent keep w). reflexivity.
  - unfold pop_tag. destruct (fst (query_tag d t true false w)); cbn; [|reflexivity]. apply unlink_touch. unfold filename. tauto.
  - apply unlink_touch. unfold filename. tauto.
  - destruct (rollback_tag _ _ _ _ _ d t keep w). reflexivity.
  - unfold save_tag. pose proof (save_file_touch d (filename _ _ filename_of d t) w n (fun E => N (or_introl E))) as S.
    destruct (save_file _ _ _ _ d _ w) as [r w1]. exact S.
  - unfold save_database, save_tags. pose proof (save_files_touch (map fst (cache _ _ d)) d (close_manifest json key root_filename encrypt_manifest manifest_text d w) n) as S.
    destruct (save_files _ _ _ _ d _ _) as [r w1]. cbn [snd] in S |- *. rewrite S by tauto. unfold close_manifest. rewrite write_other by tauto. reflexivity.
  - destruct (load_tags d silent w). reflexivity.
Qed.

(** What an operation replies, and the object it leaves, depend only on the
    contents of the object and on the files it touches. *)
Lemma query_tag_cong d d' t s kp w w' : same_contents d d' ->
  disk w' (filename_of (k _ _ d) (salt _ _ d) t) = disk w (filename_of (k _ _ d) (salt _ _ d) t) ->
  fst (query_tag d' t s kp w') = fst (query_tag d t s kp w) /\ same_contents (snd (query_tag d t s kp w)) (snd (query_tag d' t s kp w')).
Proof.
  intros (A & B & C & D) E. unfold DbModel.query_tag, filename. rewrite A, B, D, E.
  destruct (get _ (cache _ _ d)); [repeat split; auto|]. destruct (disk w _) as [[|b ct]|]; [repeat split; auto| |repeat split; auto].
  destruct (decrypt _ _ _ _); [|repeat split; auto]. destruct (of_text _ _ _); [|repeat split; auto]. destruct kp; repeat split; auto.
Qed.
Lemma query_all_cong l : forall d d' s w w', same_contents d d' ->
  (forall t, In t l -> disk w' (filename_of (k _ _ d) (salt _ _ d) t) = disk w (filename_of (k _ _ d) (salt _ _ d) t)) ->
  fst (query_all d' l s w') = fst (query_all d l s w).
Proof.
  induction l as [|t l IH]; intros d d' s w w' S E; cbn -[DbModel.query_tag]; [reflexivity|].
  pose proof (query_tag_cong d d' t s true w w' S (E t (or_introl eq_refl))) as [Q1 Q2].
  pose proof (query_tag_same d t s true w) as [K1 K2].
  destruct (query_tag d' t s true w') as [r' d1'], (query_tag d t s true w) as [r d1]. cbn in Q1, Q2, K1, K2. subst r'.
  destruct r; [|reflexivity]. apply IH; [exact Q2|]. intros u I. unfold salt. rewrite K1, K2. apply E. now right.
Qed.

Lemma set_tag_reply t v keep d w : fst (fst (let '(r, d1, w1) := set_tag json dumps key filename_of encrypt d t v keep w in (reply_of json (fun _ => Done json) r, d1, w1))) =
  if keep then Done _ else match to_text json dumps v with Ok _ => Done _ | Err AttributeErr => Raised _ LookupErr | Err e => Raised _ e end.
Proof.
  unfold set_tag. destruct keep; [reflexivity|]. unfold save_tag, save_file.
  set (d1 := set_tags _ _ _ _). change (filename json key filename_of d1 t) with (filename json key filename_of d t).
  change (cache json key d1) with (put (filename json key filename_of d t) v (cache json key d)). rewrite get_put, bytes_eqb_refl.
  destruct (to_text _ _ v) as [u|[]]; reflexivity.
Qed.
Lemma perform_cong o d d' w w' : o <> SaveDatabase _ -> same_contents d d' -> NoDup (tags _ _ d) -> (forall l, NoDup l -> Permutation (set_order l) l) ->
  (forall n, In n (touched o d) -> disk w' n = disk w n) ->
  fst (fst (perform o d' w')) = fst (fst (perform o d w)).
Proof.
  intros NS S ND OR E. pose proof S as (A & B & C & D).
  assert (forall t, filename _ _ filename_of d' t = filename_of (k _ _ d) (salt _ _ d) t) as FN by (intros t; unfold filename; now rewrite A, B).
  assert (tags _ _ d' = tags _ _ d) as TG by (unfold tags; now rewrite C).
  destruct o as [t v keep|t silent keep|t|t silent|t|t keep| |t drop| |silent|t|]; cbn -[save_database]; cbn in E.
  - rewrite !set_tag_reply. reflexivity.
  - pose proof (query_tag_cong d d' t silent keep w w' S (E _ (or_introl eq_refl))) as [Q _].
    destruct (query_tag d' t silent keep w'), (query_tag d t silent keep w). cbn in *. now rewrite Q.
  - unfold get_item. rewrite FN, D. reflexivity.
  - unfold pop_tag. pose proof (query_tag_cong d d' t true false w w' S (E _ (or_introl eq_refl))) as [Q _]. rewrite Q, FN, C, D.
    unfold filename. destruct (fst (query_tag d t true false w)); [|reflexivity]. cbn. unfold exists_file. rewrite (E _ (or_introl eq_refl)). reflexivity.
  - reflexivity.
  - unfold rollback_tag. rewrite FN, D, C. unfold filename, exists_file. rewrite (E _ (or_introl eq_refl)).
    set (b := match disk w _ with Some _ => true | None => false end).
    set (e := set_cache _ _ (if b then d else _) _). set (e' := set_cache _ _ (if b then d' else _) _).
    assert (same_contents e e') as S2. { unfold e, e'. destruct b; repeat split; auto. }
    destruct keep; [|reflexivity].
    assert (k _ _ e = k _ _ d /\ salt _ _ e = salt _ _ d) as [K1 K2] by (unfold e; destruct b; auto).
    pose proof (query_tag_cong e e' t false true w w' S2) as [Q _]. { rewrite K1, K2. apply (E _ (or_introl eq_refl)). }
    destruct (query_tag e' t false true w'), (query_tag e t false true w). cbn in *. now rewrite Q.
  - reflexivity.
  - unfold save_tag, save_file. rewrite FN, D. unfold filename. destruct (get _ (cache _ _ d)); [|reflexivity]. destruct (to_text _ _ _); reflexivity.
  - contradiction.
  - unfold DbModel.load_tags. rewrite TG. pose proof (query_all_cong (set_order (tags _ _ d)) d d' silent w w' S) as Q.
    destruct (query_all d' _ silent w'), (query_all d _ silent w). cbn in *. rewrite Q; [reflexivity|]. intros t I. apply E. apply in_map.
    eapply Permutation_in; [apply OR; exact ND|exact I].
  - unfold contains. now rewrite FN, C, D.
  - unfold db_len. now rewrite C.
Qed.

(** ** The tree *)
Lemma save_touch x : forall w n, ~ In n (saved_files x) -> disk (snd (save_node x w)) n = disk w n.
Proof.
  induction x as [d ks IH] using node_induction. intros w n N.
  cbn [TreeModel.save_node]. cbn [TreeSpec.saved_files] in N.
  set (savers := (fix f (l : list (bytes * node)) := match l with [] => [] | (t, c) :: l => (t, save_node c) :: f l end) ks).
  set (below := (fix f (l : list (bytes * node)) := match l with [] => [] | (_, c) :: l => saved_files c ++ f l end) ks) in N.
  assert (forall t s, get t savers = Some s -> forall w, disk (snd (s w)) n = disk w n) as G.
  { assert (~ In n below) as NB. { intros X. apply N. cbn. right. apply in_app_iff. now right. } clear N.
    unfold savers, below in *. clear savers below. induction ks as [|[u c] ks IHks]; intros t s; cbn; [discriminate|].
    cbn in NB. destruct (bytes_eqb t u); [|apply IHks].
    - intros E w'. injection E as <-. apply (IH u c); [now left|]. intros X. apply NB. apply in_app_iff. now left.
    - intros t' c' I. apply (IH t' c'). now right.
    - intros X. apply NB. apply in_app_iff. now right. }
  clearbody savers below. clear IH.
  assert (disk (close_manifest json key root_filename encrypt_manifest manifest_text d w) n = disk w n) as CM.
  { unfold close_manifest. rewrite write_other; [reflexivity|]. intros E. apply N. now left. }
  revert CM. generalize (close_manifest json key root_filename encrypt_manifest manifest_text d w) as w1. generalize (set_order (metatags d)) as l.
  induction l as [|t l IHl]; intros w1 CM.
  - unfold save_tags. pose proof (save_files_touch (map fst (cache _ _ d)) d w1 n) as S. destruct (save_files _ _ _ _ d _ w1) as [r w2]. cbn in S |- *.
    rewrite S; [exact CM|]. intros X. apply N. cbn. right. apply in_app_iff. now left.
  - destruct (get t savers) as [s|] eqn:Es; [|exact CM]. pose proof (G t s Es w1) as H. destruct (s w1) as [[u|e] w2]; cbn in H.
    + apply IHl. congruence.
    + cbn. congruence.
Qed.
Lemma unlink_all_touch l : forall w n, ~ In n l -> disk (unlink_all l w) n = disk w n.
Proof.
  induction l as [|x l IH]; intros w n N; [reflexivity|]. cbn. unfold unlink_all in IH. rewrite IH by firstorder. apply unlink_touch. firstorder.
Qed.
Lemma unlink_gone n w : disk (unlink n w) n = None.
Proof. unfold unlink. destruct (disk w n) eqn:E; [cbn; now rewrite bytes_eqb_refl|exact E]. Qed.
Lemma unlink_stays n' w n : disk w n = None -> disk (unlink n' w) n = None.
Proof.
  intros E. unfold unlink. destruct (disk w n'); [|exact E]. cbn. destruct (bytes_eqb n n'); [reflexivity|exact E].
Qed.
Lemma unlink_all_stays l : forall w n, disk w n = None -> disk (unlink_all l w) n = None.
Proof. induction l as [|x l IH]; intros w n E; [exact E|]. cbn. apply IH. now apply unlink_stays. Qed.
Lemma unlink_all_gone l : forall w n, In n l -> disk (unlink_all l w) n = None.
Proof.
  induction l as [|x l IH]; intros w n I; [destruct I|]. cbn. destruct I as [->|I]; [|now apply IH].
  apply unlink_all_stays. apply unlink_gone.
Qed.

Lemma delete_touch x : forall w n, ~ In n (LEDGERNAMES ++ listed_files x) -> disk (snd (delete_node x w)) n = disk w n.
Proof.
  induction x as [d ks IH] using node_induction. intros w n N.
  assert (~ In n LEDGERNAMES) as NL by (intros X; apply N; apply in_app_iff; now left).
  assert (~ In n (listed_files (Node d ks))) as N2 by (intros X; apply N; apply in_app_iff; now right). clear N. rename N2 into N.
  cbn [TreeModel.delete_node]. cbn [TreeSpec.listed_files] in N.
  set (deleters := (fix f (l : list (bytes * node)) := match l with [] => [] | (t, c) :: l => (t, delete_node c) :: f l end) ks).
  set (below := (fix f (l : list (bytes * node)) := match l with [] => [] | (_, c) :: l => listed_files c ++ f l end) ks) in N.
  assert (forall t s, get t deleters = Some s -> forall w, disk (snd (s w)) n = disk w n) as G.
  { assert (~ In n below) as NB. { intros X. apply N. cbn. right. apply in_app_iff. now right. } clear N.
    unfold deleters, below in *. clear deleters below. induction ks as [|[u c] ks IHks]; intros t s; cbn; [discriminate|].
    cbn in NB. destruct (bytes_eqb t u); [|apply IHks].
    - intros E w'. injection E as <-. apply (IH u c); [now left|]. rewrite in_app_iff. intros [X|X]; [contradiction|]. apply NB. apply in_app_iff. now left.
    - intros t' c' I. apply (IH t' c'). now right.
    - intros X. apply NB. apply in_app_iff. now right. }
  clearbody deleters below. clear IH. assert (disk w n = disk w n) as CM by reflexivity. revert CM. generalize w at 1 3 as w1. generalize (set_order (metatags d)) as l.
  induction l as [|t l IHl]; intros w1 CM.
  - cbn [snd]. rewrite unlink_all_touch; [exact CM|]. rewrite !in_app_iff. intros [X|[X|[X|[]]]]; [contradiction| |].
    + apply N. cbn. right. apply in_app_iff. now left.
    + apply N. now left.
  - destruct (get t deleters) as [s|] eqn:Es; [|exact CM]. pose proof (G t s Es w1) as H. destruct (s w1) as [[u|e] w2]; cbn in H.
    + apply IHl. congruence.
    + cbn. congruence.
Qed.

Lemma complete_inv d ks : complete (Node d ks) -> NoDup (map fst ks) /\ (forall t, In t (metatags d) <-> In t (map fst ks)) /\ NoDup (metatags d) /\
  (forall t c, In (t, c) ks -> complete c).
Proof. intros C. inversion C. subst. repeat split; auto; apply H2. Qed.

(** Deleting removes every listed file. *)
Lemma delete_stays x : forall w n, disk w n = None -> disk (snd (delete_node x w)) n = None.
Proof.
  induction x as [d ks IH] using node_induction. intros w n E. cbn [TreeModel.delete_node].
  set (deleters := (fix f (l : list (bytes * node)) := match l with [] => [] | (t, c) :: l => (t, delete_node c) :: f l end) ks).
  assert (forall t s, get t deleters = Some s -> forall w, disk w n = None -> disk (snd (s w)) n = None) as G.
  { unfold deleters. clear deleters E. induction ks as [|[u c] ks IHks]; intros t s; cbn; [discriminate|]. destruct (bytes_eqb t u); [|apply IHks].
    - intros E w' E'. injection E as <-. apply (IH u c); [now left|exact E'].
    - intros t' c' I. apply (IH t' c'). now right. }
  clearbody deleters. clear IH. revert w E. generalize (set_order (metatags d)) as l.
  induction l as [|t l IHl]; intros w1 CM.
  - cbn [snd]. now apply unlink_all_stays.
  - destruct (get t deleters) as [s|] eqn:Es; [|exact CM]. pose proof (G t s Es w1 CM) as H. destruct (s w1) as [[u|e] w2]; cbn in H.
    + now apply IHl.
    + exact H.
Qed.
Hypothesis orders : forall l, NoDup l -> Permutation (set_order l) l.
Lemma delete_gone x : complete x -> forall w, exists w', delete_node x w = (Ok tt, w') /\ forall n, In n (listed_files x) -> disk w' n = None.
Proof.
  induction x as [d ks IH] using node_induction. intros C w. destruct (complete_inv _ _ C) as (C1 & C2 & C3 & C4). cbn [TreeModel.delete_node TreeSpec.listed_files].
  set (deleters := (fix f (l : list (bytes * node)) := match l with [] => [] | (t, c) :: l => (t, delete_node c) :: f l end) ks).
  set (below := (fix f (l : list (bytes * node)) := match l with [] => [] | (_, c) :: l => listed_files c ++ f l end) ks).
  assert (forall t c, get t ks = Some c -> get t deleters = Some (delete_node c)) as GD.
  { unfold deleters. clear. induction ks as [|[u c] ks IHks]; intros t c'; cbn; [discriminate|]. destruct (bytes_eqb t u); [congruence|apply IHks]. }
  assert (forall n, In n below -> exists t c, In (t, c) ks /\ In n (listed_files c)) as GB.
  { unfold below. clear. induction ks as [|[u c] ks IHks]; cbn; [intros n []|]. intros n. rewrite in_app_iff. intros [X|X]; [exists u, c; auto|].
    destruct (IHks n X) as (t & c' & I & Y). exists t, c'. auto. }
  assert (forall l w, (forall t, In t l -> In t (map fst ks)) -> exists w', (fix delete (l : list bytes) (w : world) : result unit * world :=
      match l with
      | [] => (Ok tt, w)
      | t :: l =>
        match get t deleters with
        | None => (Err AttributeErr, w)
        | Some s => let '(r, w1) := s w in match r with Err e => (Err e, w1) | Ok _ => delete l w1 end
        end
      end) l w = (Ok tt, w') /\ (forall n, disk w n = None -> disk w' n = None) /\
      forall t c n, In t l -> In (t, c) ks -> In n (listed_files c) -> disk w' n = None) as LOOP.
  { induction l as [|t l IHl]; intros w0 S; [exists w0; split; [reflexivity|]; split; [auto|intros ? ? ? []]|].
    assert (In t (map fst ks)) as It by (apply S; now left). apply in_get in It. destruct (get t ks) as [c|] eqn:Ec; [|contradiction].
    rewrite (GD t c Ec). pose proof (get_in _ _ _ Ec) as Ic. destruct (IH t c Ic (C4 t c Ic) w0) as (w2 & D & Gone). rewrite D.
    destruct (IHl w2) as (w' & L & St & H); [intros u I; apply S; now right|]. exists w'. split; [exact L|]. 
    assert (forall n, disk w0 n = None -> disk w2 n = None) as St2. { intros n E. pose proof (delete_stays c w0 n E) as X. rewrite D in X. exact X. }
    split; [auto|]. intros u c' n [<-|I] I' X; [|eauto]. assert (c' = c) as ->; [|auto].
    clear - I' Ic C1. induction ks as [|[u a] ks IHks]; [destruct Ic|]. cbn in C1. apply NoDup_cons_iff in C1 as [N1 N2].
    destruct Ic as [E|Ic], I' as [E'|I']; try congruence; [| |auto].
    - exfalso. apply N1. assert (u = t) as -> by congruence. change t with (fst (t, c')). now apply in_map.
    - exfalso. apply N1. assert (u = t) as -> by congruence. change t with (fst (t, c)). now apply in_map. }
  assert (forall t, In t (set_order (metatags d)) <-> In t (map fst ks)) as SO.
  { intros t. rewrite <- C2. split; apply Permutation_in; [|apply Permutation_sym]; now apply orders. }
  destruct (LOOP (set_order (metatags d)) w) as (w1 & L & St & H). { intros t. apply SO. }
  rewrite L. eexists. split; [reflexivity|]. intros n [<-|I].
  - apply unlink_all_gone. rewrite !in_app_iff. right. right. now left.
  - apply in_app_iff in I as [I|I].
    + apply unlink_all_gone. rewrite !in_app_iff. auto.
    + apply unlink_all_stays. destruct (GB n I) as (t & c & Ic & X). apply (H t c n); auto. apply SO. change t with (fst (t, c)). now apply in_map.
Qed.

(** Opening reads only. *)
Lemma open_db_disk kk silent preload w : disk (snd (open_db kk silent preload w)) = disk w.
Proof.
  unfold DbModel.open_db, load_manifest. destruct (disk w (root_filename kk)) as [ct|].
  - destruct (decrypt_manifest kk ct); cbn; [|reflexivity]. destruct (manifest_of_text _); cbn; [|reflexivity].
    destruct preload; [|reflexivity]. destruct (load_tags _ silent w). reflexivity.
  - destruct preload; [|reflexivity]. destruct (load_tags _ silent _). reflexivity.
Qed.
Lemma open_disk fuel : forall kk silent preload w, disk (snd (open_node fuel kk silent preload w)) = disk w.
Proof.
  induction fuel as [|fuel IH]; intros kk silent preload w; [reflexivity|]. cbn [TreeModel.open_node].
  pose proof (open_db_disk kk silent preload w) as O. destruct (open_db kk silent preload w) as [[d|e] w1]; cbn in O; [|exact O].
  rewrite <- O. generalize (set_order (metatags d)) as l. generalize ([] : list (bytes * node)) at 2 as ks. clear O. intros ks l. revert ks w1.
  induction l as [|t l IHl]; intros ks w1; [reflexivity|]. destruct (reserved t); [reflexivity|].
  pose proof (IH (child_key (k _ _ d) (salt _ _ d) t) silent preload w1) as O. destruct (open_node fuel _ silent preload w1) as [[c|e] w2]; cbn in O; [|exact O].
  etransitivity; [apply IHl|exact O].
Qed.

Lemma perform_node_files fuel o x w n : ~ In n (concerned_files o x) -> disk (snd (perform_node fuel o x w)) n = disk w n.
Proof.
  destruct o as [o| | |t silent preload|t]; cbn -[TreeModel.save_node DbModel.perform]; intros N.
  - pose proof (perform_touch o (self x) w n N) as P. destruct (perform o (self x) w) as [[r d] w1]. exact P.
  - pose proof (save_touch x w n N) as P. destruct (save_node x w) as [r w1]. exact P.
  - reflexivity.
  - unfold metatag. destruct x as [d ks]. destruct (reserved t); [reflexivity|]. destruct (has t ks); [reflexivity|].
    pose proof (open_disk fuel (child_key (k _ _ d) (salt _ _ d) t) silent preload w) as O.
    destruct (open_node fuel _ silent preload w) as [[c|e] w1]; cbn in O |- *; now rewrite O.
  - unfold delete_metatag. destruct x as [d ks]. cbn in N. destruct (existsb _ _); [|reflexivity]. destruct (get t ks) as [c|]; [|reflexivity].
    pose proof (delete_touch c w n N) as P. destruct (delete_node c w) as [[u|e] w1]; exact P.
Qed.
Theorem files_elsewhere fuel p : forall o x y w n, find p x = Some y -> ~ In n (concerned_files o y) ->
  disk (snd (perform_at fuel p o x w)) n = disk w n.
Proof.
  induction p as [|t p IH]; intros o x y w n F N; cbn in F.
  - injection F as ->. now apply perform_node_files.
  - cbn [TreeModel.perform_at]. destruct (get t (kids x)) as [c|]; [|discriminate]. pose proof (IH o c y w n F N) as P.
    destruct (perform_at fuel p o c w) as [[r c1] w1]. exact P.
Qed.

Definition keeps (x y : node) : Prop := same_contents (self x) (self y).
Lemma same_refl d : same_contents d d.
Proof. repeat split; reflexivity. Qed.

Lemma clear_self_find q : forall x y, find q (clear_node json key x) = Some y -> exists z, find q x = Some z.
Proof.
  induction q as [|t q IH]; intros x y; cbn; [eauto|]. destruct x as [d ks]. cbn.
  set (f := (fix f (l : list (bytes * node)) := match l with [] => [] | (t, c) :: l => (t, if existsb (bytes_eqb t) (metatags d) then clear_node json key c else c) :: f l end)).
  assert (forall l, get t (f l) = match get t l with Some c => Some (if existsb (bytes_eqb t) (metatags d) then clear_node json key c else c) | None => None end) as G.
  { induction l as [|[u c] l IHl]; [reflexivity|]. cbn. destruct (bytes_eqb t u) eqn:E; [|exact IHl]. apply bytes_eqb_eq in E as ->. reflexivity. }
  rewrite G. destruct (get t ks) as [c|]; [|discriminate]. destruct (existsb _ _); [apply IH|eauto].
Qed.

Lemma perform_node_objects fuel o x w q z : ~ concerns json [] o q -> find q x = Some z ->
  exists z', find q (snd (fst (perform_node fuel o x w))) = Some z' /\ keeps z z'.
Proof.
  intros NC F. destruct o as [o| | |t silent preload|t]; cbn -[TreeModel.save_node DbModel.perform] in *.
  - destruct (perform o (self x) w) as [[r d] w1]. cbn. destruct q as [|t q]; [contradiction|]. cbn in F |- *.
    destruct (get t (kids x)); [|discriminate]. exists z. split; [exact F|apply same_refl].
  - destruct (save_node x w). exists z. split; [exact F|apply same_refl].
  - destruct NC. now exists q.
  - unfold metatag. destruct x as [d ks]. destruct (reserved t); [exists z; split; [exact F|apply same_refl]|].
    set (dd := if existsb (bytes_eqb t) (metatags d) then d else set_metatags _ _ d (metatags d ++ [t])).
    assert (same_contents d dd) as SD by (unfold dd; destruct (existsb _ _); repeat split; reflexivity).
    destruct (has t ks) eqn:H.
    + cbn. destruct q as [|u q]; cbn in F |- *; [injection F as <-; eexists; split; [reflexivity|exact SD]|].
      exists z. split; [exact F|apply same_refl].
    + destruct (open_node fuel _ silent preload w) as [[c|e] w1]; cbn; [|exists z; split; [exact F|apply same_refl]].
      destruct q as [|u q]; cbn in F |- *; [injection F as <-; eexists; split; [reflexivity|exact SD]|].
      destruct (get u ks) as [c'|] eqn:G; [|discriminate].
      assert (get u (ks ++ [(t, c)]) = Some c') as ->.
      { clear - G. induction ks as [|[v a] ks IH]; cbn in *; [discriminate|]. destruct (bytes_eqb u v); [exact G|now apply IH]. }
      exists z. split; [exact F|apply same_refl].
  - unfold delete_metatag. destruct x as [d ks]. destruct (existsb _ _); [|exists z; split; [exact F|apply same_refl]].
    destruct (get t ks) as [c|]; [|exists z; split; [exact F|apply same_refl]].
    destruct (delete_node c w) as [[u|e] w1]; cbn; [|exists z; split; [exact F|apply same_refl]].
    destruct q as [|u' q]; cbn in F |- *; [injection F as <-; eexists; split; [reflexivity|repeat split; reflexivity]|].
    assert (u' <> t) as NE. { intros ->. apply NC. now exists q. }
    assert (get u' (del t ks) = get u' ks) as ->.
    { clear - NE. induction ks as [|[v a] ks IH]; [reflexivity|]. cbn. destruct (bytes_eqb t v) eqn:E.
      - apply bytes_eqb_eq in E as ->. assert (bytes_eqb u' v = false) as -> by now apply bytes_eqb_neq. reflexivity.
      - cbn. now rewrite IH. }
    exists z. split; [exact F|apply same_refl].
Qed.
Theorem objects_elsewhere fuel p : forall o x w q z, ~ concerns json p o q -> find q x = Some z ->
  exists z', find q (snd (fst (perform_at fuel p o x w))) = Some z' /\ keeps z z'.
Proof.
  induction p as [|t p IH]; intros o x w q z NC F; cbn [TreeModel.perform_at].
  - now apply perform_node_objects.
  - destruct (get t (kids x)) as [c|] eqn:G; [|exists z; split; [exact F|apply same_refl]].
    destruct q as [|u q].
    + cbn in F. injection F as <-. destruct (perform_at fuel p o c w) as [[r c1] w1]. cbn. eexists. split; [reflexivity|]. destruct x. apply same_refl.
    + cbn in F. destruct (get u (kids x)) as [b|] eqn:Gu; [|discriminate]. destruct (bytes_eqb u t) eqn:E.
      * apply bytes_eqb_eq in E as ->. assert (b = c) as -> by congruence.
        destruct (IH o c w q z) as (z' & F' & K); [|exact F|].
        { intros X. apply NC. destruct o; cbn in *; try (now subst); auto.
          - destruct X as (r & ->). now exists r.
          - destruct X as (r & ->). now exists r. }
        destruct (perform_at fuel p o c w) as [[r c1] w1]. cbn in F' |- *. rewrite get_put, bytes_eqb_refl. eauto.
      * destruct (perform_at fuel p o c w) as [[r c1] w1]. cbn. rewrite get_put, E, Gu. exists z. split; [exact F|apply same_refl].
Qed.

(** ** Listings and objects agree *)
Definition lists_once (f : bytes -> option bytes) : Prop := forall kk ct text mm,
  f (root_filename kk) = Some ct -> decrypt_manifest kk ct = Ok text -> manifest_of_text text = Ok mm -> NoDup (m_metatags mm).

Lemma open_db_metatags kk silent preload w d w1 : lists_once (disk w) -> open_db kk silent preload w = (Ok d, w1) -> NoDup (metatags d).
Proof.
  intros L. unfold DbModel.open_db, load_manifest. destruct (disk w (root_filename kk)) as [ct|] eqn:E.
  - destruct (decrypt_manifest kk ct) as [text|] eqn:D; cbn; [|discriminate]. destruct (manifest_of_text text) as [mm|] eqn:M; cbn; [|discriminate].
    pose proof (L kk ct text mm E D M) as N.
    destruct preload; [|intros Q; injection Q as <- _; exact N]. unfold DbModel.load_tags.
    set (d0 := {| k := kk; m := mm; cache := [] |}).
    pose proof (query_all_same (set_order (tags _ _ d0)) d0 silent w) as [A B]. destruct (query_all d0 _ silent w) as [[u|e] d1]; cbn in *; [|discriminate].
    intros Q. injection Q as <- _. unfold TreeModel.metatags. rewrite B. exact N.
  - cbn. set (d0 := {| k := kk; m := _; cache := [] |}). destruct preload; [|intros Q; injection Q as <- _; constructor]. unfold DbModel.load_tags.
    set (w2 := tick w). pose proof (query_all_same (set_order (tags _ _ d0)) d0 silent w2) as [A B]. destruct (query_all d0 _ silent w2) as [[u|e] d1]; cbn in *; [|discriminate].
    intros Q. injection Q as <- _. unfold TreeModel.metatags. rewrite B. constructor.
Qed.
Lemma open_complete fuel : forall kk silent preload w x w', lists_once (disk w) -> open_node fuel kk silent preload w = (Ok x, w') -> complete x.
Proof.
  induction fuel as [|fuel IH]; intros kk silent preload w x w' L; [discriminate|]. cbn [TreeModel.open_node].
  pose proof (open_db_disk kk silent preload w) as O. destruct (open_db kk silent preload w) as [[d|e] w1] eqn:OD; [|discriminate]. cbn in O.
  pose proof (open_db_metatags _ _ _ _ _ _ L OD) as ND. pose proof (orders _ ND) as PM.
  assert (NoDup (set_order (metatags d))) as ND2 by (eapply Permutation_NoDup; [apply Permutation_sym, PM|exact ND]).
  assert (forall t, In t (metatags d) <-> In t (map fst ([] : list (bytes * node)) ++ set_order (metatags d))) as INV.
  { intros t. cbn. split; apply Permutation_in; [apply Permutation_sym|]; exact PM. }
  assert (NoDup (map fst ([] : list (bytes * node)) ++ set_order (metatags d))) as INV2 by exact ND2.
  assert (forall t c, In (t, c) ([] : list (bytes * node)) -> complete c) as INV3 by (intros ? ? []).
  rewrite <- O in L. clear O OD PM ND2. revert w1 L INV INV2 INV3. generalize (set_order (metatags d)) as l.
  set (nil1 := [] : list (bytes * node)) at 1 2 3 5. generalize nil1 as ks. clear nil1. intros ks l. revert ks. induction l as [|t l IHl]; intros ks w1 L I1 I2 I3.
  - intros Q. injection Q as <- _. rewrite app_nil_r in I2. constructor; [exact I2| |exact ND|exact I3]. intros t. rewrite I1, app_nil_r. reflexivity.
  - destruct (reserved t); [discriminate|]. pose proof (open_disk fuel (child_key (k _ _ d) (salt _ _ d) t) silent preload w1) as O.
    destruct (open_node fuel _ silent preload w1) as [[c|e] w2] eqn:OC; cbn in O; [|discriminate].
    intros Q. eapply (IHl (ks ++ [(t, c)]) w2); [rewrite O; exact L| | | |exact Q].
    + intros u. rewrite I1, map_app, <- app_assoc. reflexivity.
    + rewrite map_app, <- app_assoc. exact I2.
    + intros u c' I. apply in_app_iff in I as [I|[E|[]]]; [eauto|]. assert (c = c') as <- by congruence. eapply IH; [exact L|exact OC].
Qed.

Lemma clear_complete x : complete x -> complete (clear_node json key x).
Proof.
  induction x as [d ks IH] using node_induction. intros C. destruct (complete_inv _ _ C) as (C1 & C2 & C3 & C4). cbn.
  set (f := (fix f (l : list (bytes * node)) := match l with [] => [] | (t, c) :: l => (t, if existsb (bytes_eqb t) (metatags d) then clear_node json key c else c) :: f l end)).
  assert (forall l, map fst (f l) = map fst l) as M by (induction l as [|[u c] l IHl]; cbn; [reflexivity|now rewrite IHl]).
  assert (forall l t c, In (t, c) (f l) -> exists c', In (t, c') l /\ (c = c' \/ c = clear_node json key c')) as I.
  { induction l as [|[u c] l IHl]; intros t c'; cbn; [intros []|]. intros [E|I]; [|destruct (IHl t c' I) as (c1 & X & Y); eauto].
    exists c. assert (u = t) as -> by congruence. split; [now left|]. destruct (existsb _ _); [right|left]; congruence. }
  constructor; [rewrite M; exact C1| rewrite M; exact C2 | exact C3 |].
  intros t c X. destruct (I _ _ _ X) as (c' & Y & [->| ->]); [eauto|]. apply (IH t c' Y). eauto.
Qed.

Lemma perform_node_complete fuel o x w : complete x -> (forall t s p, o = Metatag _ t s p -> lists_once (disk w)) -> complete (snd (fst (perform_node fuel o x w))).
Proof.
  destruct x as [d ks]. intros C L. pose proof (complete_inv _ _ C) as (C1 & C2 & C3 & C4). destruct o as [o| | |t silent preload|t]; cbn -[TreeModel.save_node DbModel.perform TreeModel.clear_node].
  - pose proof (perform_keeps o d w) as (_ & _ & M). destruct (perform o d w) as [[r d1] w1]. cbn in M |- *. constructor; auto; rewrite M; auto.
  - destruct (save_node _ w). exact C.
  - now apply clear_complete.
  - destruct (reserved t); [exact C|].
    set (dd := if existsb (bytes_eqb t) (metatags d) then d else set_metatags _ _ d (metatags d ++ [t])).
    assert (forall u, In u (metatags dd) <-> In u (metatags d) \/ u = t) as MD.
    { intros u. unfold dd. destruct (existsb _ _) eqn:E; [apply mem_bytes in E|].
      - split; [auto|intros [I| ->]; auto].
      - cbn. rewrite in_app_iff. cbn. intuition congruence. }
    assert (NoDup (metatags dd)) as ND.
    { unfold dd. destruct (existsb _ _) eqn:E; [exact C3|]. cbn. apply NoDup_app_intro_one. { exact C3. } intros I. apply mem_bytes in I. congruence. }
    unfold has. destruct (get t ks) as [c0|] eqn:G.
    + cbn. constructor; auto. intros u. rewrite MD, C2. split; [intros [I| ->]; [exact I|]|auto]. apply in_get. now rewrite G.
    + destruct (open_node fuel _ silent preload w) as [[c|e] w1] eqn:OC; cbn; [|exact C].
      pose proof (open_complete _ _ _ _ _ _ _ (L t silent preload eq_refl) OC) as CC.
      assert (~ In t (map fst ks)) as NI. { intros I. apply in_get in I. now rewrite G in I. }
      constructor; auto.
      * rewrite map_app. now apply NoDup_app_intro_one.
      * intros u. rewrite MD, C2, map_app, in_app_iff. cbn. intuition congruence.
      * intros u c' I. apply in_app_iff in I as [I|[E|[]]]; [eauto|congruence].
  - destruct (existsb _ _); [|exact C]. destruct (get t ks) as [c|] eqn:G; [|exact C]. destruct (delete_node c w) as [[u|e] w1]; [|exact C]. cbn.
    constructor; cbn.
    + now apply del_nodup.
    + intros u'. rewrite in_remove_first, del_keys by auto. now rewrite C2.
    + now apply remove_first_nodup.
    + intros u' c' I. apply in_del in I as [I _]; eauto.
Qed.
Theorem perform_at_complete fuel p : forall o x w, complete x -> (forall t s p, o = Metatag _ t s p -> lists_once (disk w)) -> complete (snd (fst (perform_at fuel p o x w))).
Proof.
  induction p as [|t p IH]; intros o x w C L; cbn [TreeModel.perform_at]; [now apply perform_node_complete|].
  destruct (get t (kids x)) as [c|] eqn:G; [|exact C]. destruct x as [d ks]. cbn in G. pose proof (complete_inv _ _ C) as (C1 & C2 & C3 & C4).
  pose proof (IH o c w (C4 t c (get_in _ _ _ G)) L) as CC. destruct (perform_at fuel p o c w) as [[r c1] w1]. cbn in *.
  assert (In t (map fst ks)) as It by (apply in_get; now rewrite G).
  constructor; rewrite ?put_keys by exact It; auto. intros u c' I. apply in_put_pair in I as [->|I]; eauto.
Qed.
Lemma find_complete p : forall x y, complete x -> find p x = Some y -> complete y.
Proof.
  induction p as [|t p IH]; intros x y C F; cbn in F; [congruence|]. destruct x as [d ks]. cbn in F. destruct (get t ks) as [c|] eqn:G; [|discriminate].
  apply (IH c y); [|exact F]. eapply (complete_inv _ _ C), get_in, G.
Qed.

(** ** An operation at a path acts on the object there *)
Lemma perform_at_here fuel p : forall o x y w, find p x = Some y ->
  fst (fst (perform_at fuel p o x w)) = fst (fst (perform_node fuel o y w)) /\
  find p (snd (fst (perform_at fuel p o x w))) = Some (snd (fst (perform_node fuel o y w))) /\
  snd (perform_at fuel p o x w) = snd (perform_node fuel o y w).
Proof.
  induction p as [|t p IH]; intros o x y w F; cbn [TreeModel.perform_at]; cbn in F.
  - injection F as ->. auto.
  - destruct (get t (kids x)) as [c|] eqn:G; [|discriminate]. destruct (IH o c y w F) as (A & B & D).
    destruct (perform_at fuel p o c w) as [[r c1] w1]. cbn in *. rewrite get_put, bytes_eqb_refl. auto.
Qed.
End T.
