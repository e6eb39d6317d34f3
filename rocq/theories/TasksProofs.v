(** * Proofs about tasks that use one database *)
From Coq Require Import Lia ZifyBool ZifyNat.
From Verif Require Import Base BaseFacts TasksModel TasksSpec.

Section Proofs.
Context {V : Type}.
Variable seal : V -> bytes.
Variable unseal : bytes -> option V.
Notation step := (step seal unseal).
Notation steps := (steps seal unseal).
Notation proceed := (proceed seal unseal).
Notation run := (run seal unseal).

(** ** Operations end *)
Definition left_ (t : task V) : nat :=
  match t with
  | Start (Set_ _ true) => 1 | Start (Set_ _ false) => 5
  | Start (Query _ _) => 4 | Start (Save _) => 4 | Start (Pop _) => 5 | Start (Rollback _) => 5
  | Saving _ => 4 | Sealing _ _ => 3 | Opened _ _ _ => 2 | Closed _ => 1
  | Looking _ _ _ => 4 | Reading _ _ _ => 3 | Unsealing _ _ _ => 2 | Unlinking _ _ _ => 1
  | Done _ => 0
  end.
Lemma left_step t s : (left_ (fst (step t s)) <= left_ t - 1)%nat.
Proof.
  assert (F : forall a v s, (left_ (fst (finish a v s)) <= 1)%nat) by (intros [| b |] v s'; cbn; lia).
  assert (L : forall a b c s, (left_ (fst (look_step a b c s)) <= 3)%nat).
  { intros a b c s'. unfold look_step. destruct (cached s'); [pose proof (F a (Some v) s'); lia | cbn; lia]. }
  assert (W : forall d s, (left_ (fst (save_step seal d s)) <= 3)%nat) by (intros d s'; unfold save_step; destruct (cached s'); cbn; lia).
  destruct t as [[v k | a k | d | b | k] | d | d c | d c n | d | a b k | a b k | a k c | b v f | r]; cbn [TasksModel.step].
  - destruct k; cbn; lia.
  - cbn [left_]. pose proof (L Give a k s). lia.
  - cbn [left_]. pose proof (W d s). lia.
  - cbn. lia.
  - destruct k; cbn; lia.
  - cbn [left_]. pose proof (W d s). lia.
  - destruct (file s) as [[n f] |]; cbn; lia.
  - cbn. lia.
  - cbn. lia.
  - cbn [left_]. pose proof (L a b k s). lia.
  - cbn [left_]. destruct (file s) as [[n [| x f]] |].
    + pose proof (F a None s). lia.
    + cbn. lia.
    + destruct b; [pose proof (F a None s); lia |]. destruct a; cbn; lia.
  - cbn [left_]. destruct (unseal c) as [v |]; [| cbn; lia]. pose proof (F a (Some v) (if k then with_cached (Some v) s else s)). lia.
  - destruct (file s); cbn; [lia |]. destruct (_ && _); cbn; lia.
  - cbn. lia.
Qed.
Lemma left_done t : left_ t = 0%nat -> exists r, t = Done r.
Proof. destruct t as [[v [|] | | | |] | | | | | | | | |]; cbn; intros H; try lia. eexists; reflexivity. Qed.
Lemma steps_left n : forall t s, (left_ (fst (steps n t s)) <= left_ t - n)%nat.
Proof.
  induction n as [| n IH]; intros t s; [cbn; lia |]. cbn [TasksSpec.steps].
  pose proof (left_step t s). destruct (step t s) as [t' s']. pose proof (IH t' s'). cbn [fst] in *. lia.
Qed.
Lemma steps_done n r s : steps n (Done r) s = (Done r, s).
Proof. induction n as [| n IH]; [reflexivity | exact IH]. Qed.
Lemma steps_app n m : forall t s, steps (n + m) t s = steps m (fst (steps n t s)) (snd (steps n t s)).
Proof.
  induction n as [| n IH]; intros t s; [reflexivity |]. cbn [TasksSpec.steps plus].
  destruct (step t s) as [t' s']. apply IH.
Qed.
Lemma steps_snoc n t s : steps (S n) t s = step (fst (steps n t s)) (snd (steps n t s)).
Proof.
  replace (S n) with (n + 1)%nat by lia. rewrite steps_app. cbn [TasksSpec.steps].
  destruct (step _ _). reflexivity.
Qed.
Lemma alone_done o s : exists r, fst (alone seal unseal o s) = Done r.
Proof.
  apply left_done. unfold alone. pose proof (steps_left 8 (Start o) s) as H.
  assert (left_ (Start o) <= 5)%nat by (destruct o as [v [|] | | | |]; cbn; lia). lia.
Qed.
Lemma done_alone n o s r : fst (steps n (Start o) s) = Done r -> steps n (Start o) s = alone seal unseal o s.
Proof.
  intros H. destruct (alone_done o s) as [r' H']. unfold alone in *.
  assert (A : forall k m, (k <= m)%nat -> forall r, fst (steps k (Start o) s) = Done r -> steps m (Start o) s = steps k (Start o) s).
  { intros k m Hk x Hx. replace m with (k + (m - k))%nat by lia. rewrite steps_app, Hx, steps_done.
    rewrite <- Hx. now destruct (steps k (Start o) s). }
  destruct (Nat.le_ge_cases n 8) as [L | L].
  - symmetry. apply (A n 8%nat L r H).
  - apply (A 8%nat n L r' H').
Qed.

(** ** Lists *)
Lemma nth_replace {A} i j (x : A) l : nth_error (replace i x l) j = if Nat.eqb i j then match nth_error l j with Some _ => Some x | None => None end else nth_error l j.
Proof.
  unfold replace. revert i j. induction l as [| y l IH]; intros i j.
  - rewrite firstn_nil, skipn_nil. destruct (Nat.eqb i j); destruct j; reflexivity.
  - destruct i as [| i]; destruct j as [| j]; cbn; try reflexivity. apply IH.
Qed.
Lemma run_snoc l i y : run (l ++ [i]) y = proceed i (run l y).
Proof. unfold TasksModel.run. now rewrite fold_left_app. Qed.
Lemma run_app l l' y : run (l ++ l') y = run l' (run l y).
Proof. unfold TasksModel.run. now rewrite fold_left_app. Qed.

Lemma proceed_task i y tag t : nth_error (tasks y) i = Some (tag, t) ->
  proceed i y = {| tasks := replace i (tag, fst (step t (slots y tag))) (tasks y);
                   slots := fun g => if Nat.eqb g tag then snd (step t (slots y tag)) else slots y g |}.
Proof. intros H. unfold TasksModel.proceed. rewrite H. now destruct (step t (slots y tag)). Qed.

(** ** Different tags *)
Definition times (i : nat) (l : list nat) : nat := count_occ Nat.eq_dec l i.

Lemma nodup_nth {A} (l : list A) i j x : NoDup l -> nth_error l i = Some x -> nth_error l j = Some x -> i = j.
Proof.
  intros H Hi Hj. apply (proj1 (NoDup_nth_error l) H); [apply nth_error_Some; congruence | congruence].
Qed.

Lemma separate os w l :
  NoDup (map fst os) ->
  let y := run l (started os w) in
  length (tasks y) = length os /\
  (forall i tag o, nth_error os i = Some (tag, o) ->
     nth_error (tasks y) i = Some (tag, fst (steps (times i l) (Start o) (w tag))) /\
     slots y tag = snd (steps (times i l) (Start o) (w tag))) /\
  (forall tag, ~ In tag (map fst os) -> slots y tag = w tag).
Proof.
  intros N. cbv zeta. induction l as [| i l IH] using rev_ind.
  - cbn. split; [apply map_length |]. split; [| reflexivity]. intros i tag o H.
    rewrite nth_error_map, H. split; reflexivity.
  - rewrite run_snoc. destruct IH as [L [A B]]. set (y := run l (started os w)) in *.
    assert (T : forall j, times j (l ++ [i]) = (times j l + if Nat.eq_dec i j then 1 else 0)%nat).
    { intros j. unfold times. rewrite count_occ_app. cbn. destruct (Nat.eq_dec i j); lia. }
    destruct (nth_error os i) as [[ti oi] |] eqn:Ei.
    + destruct (A i ti oi Ei) as [Ti Si]. rewrite (proceed_task i y _ _ Ti). cbn [tasks slots].
      assert (Hi : (i < length os)%nat) by (apply nth_error_Some; congruence).
      split; [| split].
      * rewrite <- L. unfold replace. rewrite app_length, firstn_length.
        destruct (skipn i (tasks y)) as [| z r] eqn:Es.
        -- pose proof (skipn_length i (tasks y)) as X. rewrite Es in X. cbn in X. lia.
        -- pose proof (skipn_length i (tasks y)) as X. rewrite Es in X. cbn in X |- *. lia.
      * intros j tag o Hj. rewrite nth_replace, T. destruct (A j tag o Hj) as [Tj Sj].
        destruct (Nat.eqb_spec i j) as [<- | Hne].
        -- rewrite Hj in Ei. injection Ei as <- <-. rewrite Nat.eqb_refl, Tj.
           destruct (Nat.eq_dec i i) as [_ | X]; [| contradiction].
           rewrite Nat.add_1_r, steps_snoc, Si. split; reflexivity.
        -- destruct (Nat.eq_dec i j) as [X | _]; [contradiction |]. rewrite Nat.add_0_r.
           split; [exact Tj |].
           destruct (Nat.eqb_spec tag ti) as [-> | _]; [| exact Sj].
           exfalso. apply Hne.
           apply (nodup_nth (map fst os) i j ti N); rewrite nth_error_map; [rewrite Ei | rewrite Hj]; reflexivity.
      * intros tag Ht. destruct (Nat.eqb_spec tag ti) as [-> | _]; [| apply B, Ht].
        exfalso. apply Ht. change ti with (fst (ti, oi)). apply in_map. apply nth_error_In in Ei. exact Ei.
    + assert (Ny : nth_error (tasks y) i = None) by (apply nth_error_None; apply nth_error_None in Ei; lia).
      unfold TasksModel.proceed. rewrite Ny. split; [exact L |]. split; [| exact B].
      intros j tag o Hj. rewrite T. destruct (Nat.eq_dec i j) as [-> | _]; [congruence |].
      rewrite Nat.add_0_r. apply A, Hj.
Qed.

(** ** One tag *)
Definition on_one (os : list (op V)) (s : slot V) (l : list nat) : system V := run l (started (map (pair 0%nat) os) (fun _ => s)).
Definition task_of (i : nat) (y : system V) : option (task V) := option_map snd (nth_error (tasks y) i).

Lemma one_tags os s l p : In p (tasks (on_one os s l)) -> fst p = 0%nat.
Proof.
  unfold on_one. revert p. induction l as [| i l IH] using rev_ind; intros p H.
  - cbn in H. rewrite map_map in H. apply in_map_iff in H. destruct H as [o [<- _]]. reflexivity.
  - rewrite run_snoc in H. set (y := run l _) in *.
    destruct (nth_error (tasks y) i) as [[tag t] |] eqn:E.
    + rewrite (proceed_task i y _ _ E) in H. cbn in H. apply In_nth_error in H. destruct H as [j H].
      rewrite nth_replace in H. destruct (Nat.eqb i j).
      * destruct (nth_error (tasks y) j); [| discriminate]. injection H as <-. cbn.
        apply nth_error_In in E. apply (IH _ E).
      * apply nth_error_In in H. apply IH, H.
    + unfold TasksModel.proceed in H. rewrite E in H. apply IH, H.
Qed.
(** One step of the system on one tag. *)
Lemma one_step os s l i :
  let y := on_one os s l in
  let y' := on_one os s (l ++ [i]) in
  match task_of i y with
  | None => y' = y
  | Some t => task_of i y' = Some (fst (step t (slots y 0%nat))) /\ slots y' 0%nat = snd (step t (slots y 0%nat)) /\
              forall j, j <> i -> task_of j y' = task_of j y
  end.
Proof.
  cbv zeta. assert (on_one os s (l ++ [i]) = proceed i (on_one os s l)) as -> by (unfold on_one; apply run_snoc).
  unfold task_of at 1. destruct (nth_error (tasks (on_one os s l)) i) as [[tag t] |] eqn:E; cbn [option_map].
  - assert (tag = 0%nat) as ->. { change tag with (fst (tag, t)). apply (one_tags os s l). apply nth_error_In in E. exact E. }
    rewrite (proceed_task _ _ _ _ E). unfold task_of. cbn [tasks slots snd]. rewrite Nat.eqb_refl.
    split; [rewrite nth_replace, Nat.eqb_refl, E; reflexivity |]. split; [reflexivity |].
    intros j Hj. rewrite nth_replace. destruct (Nat.eqb_spec i j); [congruence | reflexivity].
  - unfold TasksModel.proceed. rewrite E. reflexivity.
Qed.
Lemma one_nil os s i : task_of i (on_one os s []) = option_map Start (nth_error os i).
Proof. unfold task_of, on_one. cbn. rewrite map_map, nth_error_map. now destruct (nth_error os i). Qed.

(** *** Steady operations *)
Lemma values_set_snoc os l i : forall begun, values_set (V := V) os (l ++ [i]) begun =
  values_set os l begun ++
  if existsb (Nat.eqb i) (l ++ begun) then [] else match nth_error os i with Some (Set_ v _) => [v] | _ => [] end.
Proof.
  induction l as [| j l IH]; intros begun; cbn [app values_set].
  - destruct (existsb (Nat.eqb i) begun); [reflexivity |]. destruct (nth_error os i) as [[] |]; reflexivity.
  - cbn [existsb]. destruct (existsb (Nat.eqb j) begun) eqn:Ej.
    + rewrite IH. f_equal. destruct (Nat.eqb_spec i j) as [-> | _]; [| reflexivity].
      replace (existsb (Nat.eqb j) (l ++ begun)) with true; [reflexivity |].
      symmetry. rewrite existsb_app, Ej. apply Bool.orb_true_r.
    + assert (X : existsb (Nat.eqb i) (l ++ j :: begun) = Nat.eqb i j || existsb (Nat.eqb i) (l ++ begun)).
      { rewrite !existsb_app. cbn [existsb]. destruct (Nat.eqb i j), (existsb (Nat.eqb i) l), (existsb (Nat.eqb i) begun); reflexivity. }
      destruct (nth_error os j) as [[] |]; rewrite IH, X; reflexivity.
Qed.

Definition quiet (t : task V) : Prop :=
  match t with
  | Start o => steady o
  | Sealing d _ | Opened d _ _ | Closed d => d = false
  | Reading a _ k | Unsealing a k _ => a = Give /\ k = false
  | Done _ => True
  | _ => False
  end.
Lemma quiet_step t s : quiet t ->
  quiet (fst (step t s)) /\ (forall o, fst (step t s) <> Start o) /\
  cached (snd (step t s)) = match t with Start (Set_ v _) => Some v | _ => cached s end.
Proof.
  destruct t as [[v k | a k | d | b | k] | d | d c | d c n | d | a b k | a b k | a k c | b v f | r]; cbn [quiet steady TasksModel.step]; try contradiction.
  - intros ->. cbn. repeat split; discriminate.
  - intros ->. unfold look_step. destruct (cached s) eqn:E; cbn; rewrite ?E; repeat split; discriminate.
  - intros ->. unfold save_step. destruct (cached s) eqn:E; cbn; rewrite ?E; repeat split; discriminate.
  - intros ->. destruct (file s) as [[n f] |]; cbn; repeat split; discriminate.
  - intros ->. destruct (file s) as [[m f] |]; cbn; [destruct (Nat.eqb m n); cbn |]; repeat split; discriminate.
  - intros ->. cbn. repeat split; discriminate.
  - intros [-> ->]. destruct (file s) as [[n [| x f]] |]; [| | destruct b]; cbn; repeat split; discriminate.
  - intros [-> ->]. destruct (unseal c); cbn; repeat split; discriminate.
  - intros _. cbn. repeat split; discriminate.
Qed.

Lemma last_snoc {A} (l : list A) x d : last (l ++ [x]) d = x.
Proof. induction l as [| y l IH]; [reflexivity |]. cbn. destruct l; [reflexivity | exact IH]. Qed.

Lemma steady_run os s l : Forall steady os ->
  cached (slots (on_one os s l) 0%nat) = last (map Some (values_set os l [])) (cached s) /\
  (forall i t, task_of i (on_one os s l) = Some t -> quiet t /\ (forall o, t = Start o <-> (~ In i l /\ nth_error os i = Some o))) /\
  (forall i, task_of i (on_one os s l) = None <-> nth_error os i = None).
Proof.
  intros F. induction l as [| i l IH] using rev_ind.
  - split; [reflexivity |]. split.
    + intros i t H. rewrite one_nil in H. destruct (nth_error os i) as [o |] eqn:E; [| discriminate]. injection H as <-.
      split; [cbn; rewrite Forall_forall in F; apply F; apply nth_error_In in E; exact E |].
      intros o'. cbn. split; [intros X; injection X as ->; tauto | intros [_ X]; congruence].
    + intros i. rewrite one_nil. destruct (nth_error os i); cbn; split; congruence.
  - destruct IH as [C [T N]]. pose proof (one_step os s l i) as St. cbv zeta in St.
    destruct (task_of i (on_one os s l)) as [t |] eqn:E.
    + destruct St as [S1 [S2 S3]]. destruct (T i t E) as [Q B].
      destruct (quiet_step t (slots (on_one os s l) 0%nat) Q) as [Q1 [Q2 Q3]].
      split; [| split].
      * rewrite S2, Q3, C, values_set_snoc, app_nil_r.
        destruct (existsb (Nat.eqb i) l) eqn:Ex.
        -- rewrite app_nil_r. apply existsb_exists in Ex. destruct Ex as [j [Hj Ej]]. apply Nat.eqb_eq in Ej. subst j.
           destruct t as [[] | | | | | | | | |]; try reflexivity.
           exfalso. destruct (proj1 (B _) eq_refl) as [X _]. contradiction.
        -- assert (Hn : ~ In i l).
           { intros H. rewrite <- Bool.not_true_iff_false in Ex. apply Ex. apply existsb_exists. exists i. split; [exact H | apply Nat.eqb_refl]. }
           destruct (nth_error os i) as [o |] eqn:Eo; [| exfalso; apply N in Eo; congruence].
           rewrite (proj2 (B o) (conj Hn eq_refl)).
           destruct o; rewrite ?app_nil_r; try reflexivity. rewrite map_app; cbn [map]; now rewrite last_snoc.
      * intros j u Hu. destruct (Nat.eq_dec j i) as [-> | Hne].
        -- rewrite S1 in Hu. injection Hu as <-. split; [exact Q1 |]. intros o. split; [intros X; exfalso; apply (Q2 o X) |].
           intros [X _]. exfalso. apply X. apply in_or_app. right. now left.
        -- rewrite (S3 j Hne) in Hu. destruct (T j u Hu) as [A1 A2]. split; [exact A1 |]. intros o. rewrite A2, in_app_iff. cbn.
           split; [intros [X Y]; split; [intros [Z | [Z | []]]; congruence | exact Y] | intros [X Y]; tauto].
      * intros j. destruct (Nat.eq_dec j i) as [-> | Hne].
        -- rewrite S1, <- N, E. split; discriminate.
        -- rewrite (S3 j Hne). apply N.
    + rewrite St. assert (Ei : nth_error os i = None) by (apply N; exact E). split; [| split].
      * rewrite C, values_set_snoc, Ei. destruct (existsb _ _); now rewrite app_nil_r.
      * intros j u Hu. destruct (T j u Hu) as [A1 A2]. split; [exact A1 |]. intros o. rewrite A2, in_app_iff. cbn.
        split; [intros [X Y]; split; [intros [Z | [Z | []]]; congruence | exact Y] | intros [X Y]; tauto].
      * exact N.
Qed.

Lemma done_stays os s l l' i r : task_of i (on_one os s l) = Some (Done r) -> task_of i (on_one os s (l ++ l')) = Some (Done r).
Proof.
  intros H. induction l' as [| j l' IH] using rev_ind; [rewrite app_nil_r; exact H |].
  rewrite app_assoc. pose proof (one_step os s (l ++ l') j) as St. cbv zeta in St.
  destruct (task_of j (on_one os s (l ++ l'))) as [t |] eqn:E; [| rewrite St; exact IH].
  destruct St as [S1 [_ S3]]. destruct (Nat.eq_dec i j) as [<- | Hne].
  - rewrite S1. rewrite IH in E. injection E as <-. reflexivity.
  - rewrite S3 by exact Hne. exact IH.
Qed.

(** *** Ciphertexts of one length *)
Section Lengths.
Variable known : V -> Prop.
Variable n : nat.
Hypothesis opens : forall v, unseal (seal v) = Some v.
Hypothesis one_length : forall v, known v -> length (seal v) = n.
Definition text (c : bytes) : Prop := exists v, known v /\ c = seal v.
Definition maybe (v : option V) : Prop := match v with Some v => known v | None => True end.
Definition tidy_slot (s : slot V) : Prop := maybe (cached s) /\ match file s with None => True | Some (_, c) => c = [] \/ text c end.
Definition tidy (t : task V) : Prop :=
  match t with
  | Start (Set_ v _) => known v
  | Sealing _ c | Opened _ c _ | Unsealing _ _ c => text c
  | Unlinking _ v _ => maybe v
  | Done (Found v) => known v
  | Done Refused => False
  | _ => True
  end.
Lemma tidy_reply v : maybe v -> tidy (Done (value_reply v)).
Proof. destruct v; exact (fun H => H). Qed.
Lemma tidy_finish a v s : maybe v -> tidy_slot s -> tidy (fst (finish a v s)) /\ tidy_slot (snd (finish a v s)).
Proof.
  intros Hv [H1 H2]. destruct a as [| b |]; cbn [finish fst snd].
  - split; [apply tidy_reply, Hv | split; assumption].
  - split; [exact Hv |]. split; [exact I | exact H2].
  - split; [exact I | split; assumption].
Qed.
Lemma tidy_look a b k s : tidy_slot s -> tidy (fst (look_step a b k s)) /\ tidy_slot (snd (look_step a b k s)).
Proof.
  intros H. unfold look_step. destruct (cached s) as [v |] eqn:E; [| split; [exact I | exact H]].
  apply tidy_finish; [destruct H as [H _]; rewrite E in H; exact H | exact H].
Qed.
Lemma tidy_save d s : tidy_slot s -> tidy (fst (save_step seal d s)) /\ tidy_slot (snd (save_step seal d s)).
Proof.
  intros H. unfold save_step. destruct (cached s) as [v |] eqn:E; (split; [| exact H]); [| exact I].
  destruct H as [H _]. rewrite E in H. exists v. split; [exact H | reflexivity].
Qed.
Lemma tidy_step t s : tidy t -> tidy_slot s -> tidy (fst (step t s)) /\ tidy_slot (snd (step t s)).
Proof.
  intros Ht Hs. destruct t as [[v k | a k | d | b | k] | d | d c | d c m | d | a b k | a b k | a k c | b v f | r]; cbn [TasksModel.step].
  - split; [destruct k; exact I |]. split; [exact Ht | exact (proj2 Hs)].
  - now apply tidy_look.
  - now apply tidy_save.
  - split; [exact I | exact Hs].
  - split; [destruct k; exact I |]. split; [exact I |]. destruct Hs as [_ Hs]. destruct (file s) as [[m c] |] eqn:E; cbn; rewrite E; exact Hs.
  - now apply tidy_save.
  - destruct (file s) as [[m f] |] eqn:E; (split; [exact Ht |]); (split; [exact (proj1 Hs) | left; reflexivity]).
  - split; [exact I |]. destruct (file s) as [[k f] |] eqn:E; [| exact Hs]. destruct (Nat.eqb k m); [| exact Hs].
    split; [exact (proj1 Hs) |]. cbn [file with_file snd]. destruct Hs as [_ Hs]. rewrite E in Hs. right.
    destruct Ht as [v [Kv ->]]. exists v. split; [exact Kv |].
    assert (L : (length f <= length (seal v))%nat).
    { rewrite (one_length v Kv). destruct Hs as [-> | [w [Kw ->]]]; [cbn; lia | now rewrite (one_length w Kw)]. }
    rewrite skipn_all2 by exact L. apply app_nil_r.
  - split; [exact I |]. destruct d; [split; [exact I | exact (proj2 Hs)] | exact Hs].
  - now apply tidy_look.
  - destruct (file s) as [[m [| x f]] |] eqn:E.
    + apply tidy_finish; [exact I | exact Hs].
    + split; [| exact Hs]. destruct Hs as [_ Hs]. rewrite E in Hs. destruct Hs as [Hs | Hs]; [discriminate | exact Hs].
    + destruct b; [apply tidy_finish; [exact I | exact Hs] |]. destruct a; (split; [exact I | exact Hs]).
  - destruct Ht as [v [Kv ->]]. rewrite opens. apply tidy_finish; [exact Kv |].
    destruct k; [split; [exact Kv | exact (proj2 Hs)] | exact Hs].
  - destruct (file s) eqn:E.
    + split; [apply tidy_reply, Ht |]. split; [exact (proj1 Hs) | exact I].
    + split; [| exact Hs]. destruct (_ && _); [exact I | apply tidy_reply, Ht].
  - split; [exact Ht | exact Hs].
Qed.
Lemma tidy_run os s l : (forall v k, In (Set_ v k) os -> known v) -> tidy_slot s ->
  tidy_slot (slots (on_one os s l) 0%nat) /\ forall i t, task_of i (on_one os s l) = Some t -> tidy t.
Proof.
  intros K Hs. induction l as [| i l IH] using rev_ind.
  - split; [exact Hs |]. intros i t H. rewrite one_nil in H. destruct (nth_error os i) as [o |] eqn:E; [| discriminate]. injection H as <-.
    apply nth_error_In in E. destruct o; try exact I. exact (K _ _ E).
  - destruct IH as [A B]. pose proof (one_step os s l i) as St. cbv zeta in St.
    destruct (task_of i (on_one os s l)) as [t |] eqn:E; [| rewrite St; split; assumption].
    destruct St as [S1 [S2 S3]]. destruct (tidy_step t _ (B i t E) A) as [T1 T2]. rewrite S2. split; [exact T2 |].
    intros j u Hu. destruct (Nat.eq_dec j i) as [-> | Hne].
    + rewrite S1 in Hu. injection Hu as <-. exact T1.
    + rewrite (S3 j Hne) in Hu. apply (B j u Hu).
Qed.
End Lengths.
End Proofs.
