(** * Several objects of one database: proofs *)
From Coq Require Import Lia Permutation.
From Verif Require Import Base BaseFacts DbModel DbSpec DbProofs ShareModel ShareSpec.
Local Open Scope nat_scope.

Section Proofs.
Variable json : Type.
Variable dumps : json -> result bytes.
Variable loads : bytes -> result json.
Variable key : Type.
Variable root_filename : key -> bytes.
Variable filename_of : key -> bytes -> bytes -> bytes.
Variable encrypt : nat -> key -> bytes -> bytes -> bytes -> bytes.
Variable decrypt : key -> bytes -> bytes -> bytes -> result bytes.
Variable encrypt_manifest : nat -> key -> bytes -> bytes.
Variable decrypt_manifest : key -> bytes -> result bytes.
Variable new_salt : nat -> bytes.
Variable manifest_text : manifest -> bytes.
Variable manifest_of_text : bytes -> result manifest.
Variable set_order : list bytes -> list bytes.
Hypothesis orders : forall l, NoDup l -> Permutation (set_order l) l.
Notation db := (db json key).
Notation value := (value json).
Notation open_db := (open_db json loads key root_filename filename_of decrypt decrypt_manifest new_salt manifest_of_text set_order).
Notation perform := (perform json dumps loads key root_filename filename_of encrypt decrypt encrypt_manifest manifest_text set_order).
Notation act_step := (act_step json dumps loads key root_filename filename_of encrypt decrypt encrypt_manifest decrypt_manifest new_salt manifest_text manifest_of_text set_order).
Notation together := (together json dumps loads key root_filename filename_of encrypt decrypt encrypt_manifest decrypt_manifest new_salt manifest_text manifest_of_text set_order).
Notation astep := (astep json dumps loads set_order).
Notation aopen := (aopen json set_order).
Notation aact := (aact json dumps loads set_order).
Notation atogether := (atogether json dumps loads set_order).
Notation act_ok := (act_ok json dumps loads).
Notation kept := (kept json dumps loads).
Notation storable := (storable json dumps loads).
Notation opened_after_save := (opened_after_save json).
Notation place := (place json key).
Notation seen := (seen json).
Notation after := (after json).

(** Without any law: an object is its own. *)
Lemma step_other kk x s w j : actor json x <> j -> snd (fst (act_step kk x s w)) j = s j.
Proof.
  intros N. assert (Nat.eqb j (actor json x) = false) as E by (apply Nat.eqb_neq; auto).
  destruct x as [i silent preload|i o]; cbn -[DbModel.perform DbModel.open_db] in *.
  - destruct (open_db kk _ _ w) as [[d|e] w1]; cbn; [|reflexivity]. unfold ShareModel.place. now rewrite ?E.
  - destruct (s i) as [d|]; [|reflexivity]. destruct (perform o d w) as [[r d1] w1]. cbn. unfold ShareModel.place. now rewrite ?E.
Qed.
Lemma together_other kk l : forall s w j, Forall (fun x => actor json x <> j) l -> snd (fst (together kk l s w)) j = s j.
Proof.
  induction l as [|x l IH]; intros s w j F; [reflexivity|]. inversion_clear F as [|? ? N F']. cbn [ShareModel.together].
  pose proof (step_other kk x s w j N) as E. destruct (act_step kk x s w) as [[r s1] w1]. cbn in E.
  pose proof (IH s1 w1 j F') as E2. destruct (together kk l s1 w1) as [[rs s2] w2]. cbn in *. congruence.
Qed.

Variable kk : key.
Variable U : list bytes.
Hypothesis laws : storage_laws dumps loads filename_of encrypt decrypt encrypt_manifest decrypt_manifest new_salt manifest_text manifest_of_text kk U.
Variable sa : bytes.
Hypothesis generated : exists j, sa = new_salt j.
Hypothesis distinct : distinct_names root_filename filename_of kk sa U.
Notation rel := (rel json dumps loads key root_filename filename_of decrypt decrypt_manifest manifest_of_text kk U sa).
Notation on_disk := (on_disk json dumps loads key root_filename filename_of decrypt decrypt_manifest manifest_of_text kk U sa).

Lemma rel_swap a d w st l w' : rel a d w -> on_disk st l (disk w') ->
  rel {| cached := cached _ a; stored := st; listed := listed _ a; ledger := l |} d w'.
Proof. intros [] []. constructor; cbn; auto. Qed.

Record shared (a : abstract json) (s : objects json key) (w : world) : Prop := {
  sh_disk : on_disk (common _ a) (record _ a) (disk w);
  sh_obj : forall i, match own _ a i, s i with
    | None, None => True
    | Some c, Some d => rel (seen a c) d w
    | _, _ => False
    end;
}.
Definition ready (a : abstract json) (l : list (act json)) : Prop := record _ a <> None \/ (own _ a 0 <> None /\ opened_after_save l).

Lemma after_shared a s w i b d w' : shared a s w -> rel b d w' -> shared (after a i b) (place s i d) w'.
Proof.
  intros [D O] R. pose proof (rel_disk _ _ _ _ _ _ _ _ _ _ _ _ _ _ _ R) as D'. split; [exact D'|].
  intros m. cbn. unfold ShareModel.place. destruct (Nat.eqb m i).
  - destruct b. exact R.
  - specialize (O m). destruct (own _ a m) as [c|], (s m) as [d2|]; auto. exact (rel_swap _ _ _ _ _ _ O D').
Qed.
Lemma load_ledger l : forall silent b, ledger _ (snd (load_all json l silent b)) = ledger _ b.
Proof.
  induction l as [|u l IH]; intros silent b; cbn; [reflexivity|]. destruct (current _ b u); [now rewrite IH|].
  destruct silent; [apply IH|reflexivity].
Qed.
Lemma load_stored l : forall silent b, stored _ (snd (load_all json l silent b)) = stored _ b.
Proof.
  induction l as [|u l IH]; intros silent b; cbn; [reflexivity|]. destruct (current _ b u); [now rewrite IH|].
  destruct silent; [apply IH|reflexivity].
Qed.
Lemma open_ledger silent preload a l : ledger _ (snd (aopen silent preload a l)) = Some l.
Proof. unfold DbSpec.aopen. destruct preload; [now rewrite load_ledger|reflexivity]. Qed.
Lemma open_stored silent preload a l : stored _ (snd (aopen silent preload a l)) = stored _ a.
Proof. unfold DbSpec.aopen. destruct preload; [now rewrite load_stored|reflexivity]. Qed.

Lemma act_sim x l a s w : shared a s w -> act_ok U x -> ready a (x :: l) ->
  exists s' w', act_step kk x s w = (fst (aact x a), s', w') /\ shared (snd (aact x a)) s' w' /\ ready (snd (aact x a)) l.
Proof.
  intros S K Y. pose proof S as [D O]. destruct x as [i silent preload|i o]; cbn -[DbModel.perform DbModel.open_db DbSpec.astep DbSpec.aopen] in *.
  - destruct Y as [Y|[_ []]]. destruct (record _ a) as [le|] eqn:L; [|contradiction].
    destruct (open_sim _ dumps loads _ root_filename filename_of decrypt decrypt_manifest new_salt manifest_of_text set_order kk U sa distinct orders
      _ le silent preload w (seen a (fun _ => None, [])) D eq_refl) as (r & w' & E & -> & Q & R). rewrite E.
    pose proof (open_ledger silent preload (seen a (fun _ => None, [])) le) as OL.
    destruct (aopen silent preload (seen a (fun _ => None, [])) le) as [r2 b]. cbn in Q, R, OL. destruct r as [d|e]; cbn in Q; subst r2.
    + exists (place s i d), w. split; [reflexivity|]. split; [apply after_shared with (w := w); auto|]. left. cbn. rewrite OL. discriminate.
    + exists s, w. split; [reflexivity|]. split; [exact S|]. left. cbn. rewrite L. discriminate.
  - pose proof (O i) as Oi. destruct (own _ a i) as [c|] eqn:W, (s i) as [d|]; try contradiction.
    + destruct (perform_sim _ dumps loads _ root_filename filename_of encrypt decrypt encrypt_manifest decrypt_manifest new_salt manifest_text
        manifest_of_text set_order kk U laws sa generated distinct orders o (seen a c) d w Oi K) as (d' & w' & E & R). rewrite E.
      pose proof (ledger_step _ dumps loads set_order o (seen a c)) as L. destruct (astep o (seen a c)) as [r b]. cbn in R, L |- *.
      exists (place s i d'), w'. split; [reflexivity|]. split; [apply after_shared with (w := w); auto|].
      unfold ready. cbn. rewrite L. destruct Y as [Y|[Y Z]].
      * left. destruct o; auto; discriminate.
      * cbn in Z. destruct i as [|i]; [destruct o; try (left; discriminate)|]; (right; split; [first [discriminate|exact Y]|exact Z]).
    + exists s, w. cbn. split; [reflexivity|]. split; [exact S|]. destruct Y as [Y|[Y Z]]; [now left|right; split; [exact Y|]].
      destruct i; [congruence|exact Z].
Qed.
Lemma together_sim l : forall l' a s w, shared a s w -> Forall (act_ok U) l -> ready a (l ++ l') ->
  exists s' w', together kk l s w = (fst (atogether l a), s', w') /\ shared (snd (atogether l a)) s' w' /\ ready (snd (atogether l a)) l'.
Proof.
  induction l as [|x l IH]; intros l' a s w S K Y.
  - exists s, w. auto.
  - inversion_clear K as [|? ? K1 K2]. cbn [ShareModel.together ShareSpec.atogether].
    destruct (act_sim x (l ++ l') a s w S K1 Y) as (s1 & w1 & -> & S1 & Y1). destruct (aact x a) as [r a1]. cbn in S1, Y1 |- *.
    destruct (IH l' a1 s1 w1 S1 K2 Y1) as (s2 & w2 & -> & S2 & Y2). destruct (atogether l a1) as [rs a2]. cbn in *.
    exists s2, w2. auto.
Qed.

(** A saved value, as long as nobody sets or removes the tag. *)
Definition settled (t : bytes) (v : value) (a : abstract json) : Prop :=
  common _ a t = Some v /\ forall i c, own _ a i = Some c -> fst c t = None \/ fst c t = Some v.
Definition calm (t : bytes) (v : value) (b : adb json) : Prop := stored _ b t = Some v /\ (cached _ b t = None \/ cached _ b t = Some v).
Lemma calm_current t v b : calm t v b -> current _ b t = Some v.
Proof. intros [C [D|D]]; unfold current; now rewrite D. Qed.
Lemma calm_assign t u v x b : calm t v b -> current _ b u = Some x -> calm t v {| cached := assign _ u (Some x) (cached _ b); stored := stored _ b; listed := listed _ b; ledger := ledger _ b |}.
Proof.
  intros C D. pose proof (calm_current _ _ _ C) as E. destruct C as [C1 C2]. split; [exact C1|]. cbn. unfold assign.
  destruct (bytes_eqb t u) eqn:Q; [|exact C2]. apply bytes_eqb_eq in Q as <-. right. congruence.
Qed.
Lemma calm_load t v l : forall silent b, calm t v b -> calm t v (snd (load_all _ l silent b)).
Proof.
  induction l as [|u l IH]; intros silent b C; cbn; [exact C|]. destruct (current _ b u) as [x|] eqn:E.
  - apply IH. now apply calm_assign.
  - destruct silent; auto.
Qed.
Lemma calm_step t v i o b : kept v = v -> leaves_saved json t (Call _ i o) -> calm t v b -> calm t v (snd (astep o b)).
Proof.
  intros K V C. pose proof C as [C1 C2].
  destruct o as [u x keep|u silent keep|u|u silent|u|u keep| |u drop| |silent|u|]; cbn in V |- *; try exact C.
  - assert (bytes_eqb t u = false) as N by (apply bytes_eqb_neq; congruence). destruct keep; split; cbn; unfold assign; rewrite ?N; auto.
  - destruct (current _ b u) as [x|] eqn:E; [|exact C]. destruct keep; [now apply calm_assign|exact C].
  - assert (bytes_eqb t u = false) as N by (apply bytes_eqb_neq; congruence). split; cbn; unfold assign; rewrite ?N; auto.
  - assert (bytes_eqb t u = false) as N by (apply bytes_eqb_neq; congruence). split; cbn; unfold assign; rewrite ?N; auto.
  - split; [exact C1|]. cbn. unfold assign. destruct (bytes_eqb t u) eqn:Q; [|exact C2]. apply bytes_eqb_eq in Q as <-. destruct keep; auto.
  - split; [exact C1|now left].
  - destruct (cached _ b u) as [x|] eqn:E; [|exact C]. split; cbn; unfold assign.
    + destruct (bytes_eqb t u) eqn:Q; [|exact C1]. apply bytes_eqb_eq in Q as <-. destruct C2; congruence.
    + destruct drop; [|exact C2]. unfold assign. destruct (bytes_eqb t u); auto.
  - split; [|exact C2]. cbn. destruct C2 as [->| ->]; [exact C1|now rewrite K].
  - now apply calm_load.
Qed.
Lemma settled_after t v a i b : settled t v a -> calm t v b -> settled t v (after a i b).
Proof.
  intros [S1 S2] [C1 C2]. split; [exact C1|]. intros m c. cbn. destruct (Nat.eqb m i); [intros E; injection E as <-; exact C2|apply S2].
Qed.
Lemma settled_step t v x a : kept v = v -> leaves_saved json t x -> settled t v a -> settled t v (snd (aact x a)).
Proof.
  intros K V S. pose proof S as [S1 S2]. destruct x as [i silent preload|i o]; cbn -[DbSpec.astep DbSpec.aopen].
  - destruct (record _ a) as [l|]; [|exact S].
    assert (calm t v (snd (aopen silent preload (seen a (fun _ => None, [])) l))) as C.
    { unfold DbSpec.aopen. assert (calm t v (reopened _ (seen a (fun _ => None, [])) l)) by (split; [exact S1|now left]).
      destruct preload; [now apply calm_load|assumption]. }
    destruct (aopen silent preload (seen a (fun _ => None, [])) l) as [r b]. destruct r; try exact S. now apply settled_after.
  - destruct (own _ a i) as [c|] eqn:W; [|exact S]. assert (calm t v (seen a c)) as C by (split; [exact S1|exact (S2 i c W)]).
    pose proof (calm_step t v i o _ K V C) as C'. destruct (astep o (seen a c)) as [r b]. now apply settled_after.
Qed.
Lemma settled_run t v l : forall a, kept v = v -> Forall (leaves_saved json t) l -> settled t v a -> settled t v (snd (atogether l a)).
Proof.
  induction l as [|x l IH]; intros a K F S; [exact S|]. inversion_clear F as [|? ? V F']. cbn [ShareSpec.atogether].
  pose proof (settled_step t v x a K V S) as S1. destruct (aact x a) as [r a1]. cbn in S1. pose proof (IH a1 K F' S1) as S2.
  destruct (atogether l a1). exact S2.
Qed.

(** The listing on the disk changes only with a save. *)
Lemma record_step x a : ~ saves_database json x -> record _ (snd (aact x a)) = record _ a.
Proof.
  intros N. destruct x as [i silent preload|i o]; cbn -[DbSpec.astep DbSpec.aopen].
  - destruct (record _ a) as [l|] eqn:L; [|exact L]. pose proof (open_ledger silent preload (seen a (fun _ => None, [])) l) as OL.
    destruct (aopen silent preload (seen a (fun _ => None, [])) l) as [r b]. destruct r; cbn in *; congruence.
  - destruct (own _ a i) as [c|]; [|reflexivity]. pose proof (ledger_step _ dumps loads set_order o (seen a c)) as L.
    destruct (astep o (seen a c)) as [r b]. cbn in L |- *. rewrite L. destruct o; auto. cbn in N. contradiction.
Qed.
Lemma record_run l : forall a, Forall (fun x => ~ saves_database json x) l -> record _ (snd (atogether l a)) = record _ a.
Proof.
  induction l as [|x l IH]; intros a F; [reflexivity|]. inversion_clear F as [|? ? N F']. cbn [ShareSpec.atogether].
  pose proof (record_step x a N) as R. destruct (aact x a) as [r a1]. cbn in R. pose proof (IH a1 F') as R2.
  destruct (atogether l a1). cbn in *. congruence.
Qed.
End Proofs.
