(** * Proofs about permutations and GUID makers shared by tasks. *)
From Coq Require Import ZArith Lia Permutation.
From Verif Require Import Base BaseFacts PermModel PermSpec PermProofs ClockModel IdModel IdSpec IdProofs
  WeaveModel WeaveSpec.
Local Open Scope Z_scope.

(** ** A permutation under way *)
(** Everything but the two fields which the tweaks change. *)
Definition frame (s s' : chain) : Prop :=
  ch_config s' = ch_config s /\ ch_in_mid_key s' = ch_in_mid_key s /\
  ch_out_mid_key s' = ch_out_mid_key s /\ ch_out_key s' = ch_out_key s /\
  ch_aff_in s' = ch_aff_in s /\ ch_aff_mid s' = ch_aff_mid s /\ ch_aff_out s' = ch_aff_out s.
Lemma frame_refl : forall s, frame s s.
Proof. intros; repeat split. Qed.
Lemma frame_trans : forall a b c, frame a b -> frame b c -> frame a c.
Proof. intros a b c (?&?&?&?&?&?&?) (?&?&?&?&?&?&?). repeat split; congruence. Qed.
Lemma frame_sym : forall a b, frame a b -> frame b a.
Proof. intros a b (?&?&?&?&?&?&?). repeat split; congruence. Qed.

Definition third (s : chain) (f c : bool) (v : Z) : result Z :=
  if f then z <- aff_permute (ch_aff_out s) v ;; Ok (if c then Z.lxor z (ch_out_key s) else z)
  else z <- aff_invert (ch_aff_in s) v ;; Ok (if c then Z.lxor z (ch_in_key s) else z).
Definition second (s : chain) (f c : bool) (v : Z) : result Z :=
  if f then y <- aff_permute (ch_aff_mid s) v ;; third s f c (Z.lxor y (ch_out_mid_key s))
  else y <- aff_invert (ch_aff_mid s) v ;; third s f c (Z.lxor y (ch_in_mid_key s)).
Definition first (s : chain) (f c : bool) (v : Z) : result Z :=
  if f then y <- aff_permute (ch_aff_in s) v ;; second s f c (Z.lxor y (ch_in_mid_key s))
  else y <- aff_invert (ch_aff_out s) v ;; second s f c (Z.lxor y (ch_out_mid_key s)).
Definition finish (s : chain) (p : stage) : result Z :=
  match p with InFirst f c v => first s f c v | InSecond f c v => second s f c v | InThird f c v => third s f c v end.

Lemma go_on_waits : forall s p q, go_on s p = Waits q -> finish s q = finish s p.
Proof.
  intros s [[] c v|[] c v|[] c v] q H; cbn [go_on finish first second third] in *; try discriminate H;
    match type of H with context [match ?e with _ => _ end] => destruct e eqn:E end;
    try discriminate H; injection H as <-; cbn [finish second first]; unfold first, second;
    rewrite ?E; reflexivity.
Qed.
Lemma go_on_returns : forall s p r, go_on s p = Returns r -> r = finish s p.
Proof.
  intros s [[] c v|[] c v|[] c v] r H; cbn [go_on finish first second third] in *;
    try (injection H as <-; unfold third; reflexivity);
    match type of H with context [match ?e with _ => _ end] => destruct e eqn:E end;
    try discriminate H; injection H as <-; unfold first, second; rewrite ?E; reflexivity.
Qed.
Lemma go_on_frame : forall s s' p q, frame s s' -> go_on s p = Waits q -> go_on s' p = Waits q.
Proof.
  intros s s' p q (F1&F2&F3&F4&F5&F6&F7) H.
  destruct p as [[] c v|[] c v|[] c v]; cbn [go_on] in *; try discriminate H;
    rewrite ?F1, ?F2, ?F3, ?F4, ?F5, ?F6, ?F7; exact H.
Qed.

Definition stage_left (p : stage) : nat :=
  match p with InFirst _ _ _ => 3 | InSecond _ _ _ => 2 | InThird _ _ _ => 1 end%nat.
Lemma go_on_left : forall s p q, go_on s p = Waits q -> S (stage_left q) = stage_left p.
Proof.
  intros s [[] c v|[] c v|[] c v] q H; cbn [go_on] in H; try discriminate H;
    match type of H with context [match ?e with _ => _ end] => destruct e eqn:E end;
    try discriminate H; injection H as <-; reflexivity.
Qed.

Lemma begin_permute : forall s s' v, frame s s' -> finish s' (begin_map s true true v) = chain_permute s v.
Proof.
  intros s s' v (F1&F2&F3&F4&F5&F6&F7). cbn [finish begin_map]. unfold first, second, third, chain_permute.
  rewrite F2, F3, F4, F5, F6, F7. reflexivity.
Qed.
Lemma begin_invert : forall s s' v, frame s s' -> finish s' (begin_map s false true v) = chain_invert s' v.
Proof.
  intros s s' v (F1&F2&F3&F4&F5&F6&F7). cbn [finish begin_map]. unfold first, second, third, chain_invert.
  rewrite <- F4. reflexivity.
Qed.
Lemma bind_id : forall (A : Type) (x : result A), (z <- x ;; Ok z) = x.
Proof. intros A [a|e]; reflexivity. Qed.
Lemma begin_uncapped_permute : forall s s' v,
  finish s' (begin_map s true false v) = chain_uncapped_permute s' v.
Proof.
  intros s s' v. cbn [finish begin_map]. unfold first, second, third, chain_uncapped_permute.
  destruct (aff_permute _ v); cbn [bind]; [|reflexivity].
  destruct (aff_permute (ch_aff_mid s') _); cbn [bind]; [|reflexivity]. apply bind_id.
Qed.
Lemma begin_uncapped_invert : forall s s' v,
  finish s' (begin_map s false false v) = chain_uncapped_invert s' v.
Proof.
  intros s s' v. cbn [finish begin_map]. unfold first, second, third, chain_uncapped_invert.
  destruct (aff_invert _ v); cbn [bind]; [|reflexivity].
  destruct (aff_invert (ch_aff_mid s') _); cbn [bind]; [|reflexivity]. apply bind_id.
Qed.

(** ** Schedules *)
Lemma run_cons : forall s a l, run s (a :: l) =
  (fst (run (fst (act s a)) l), snd (act s a) ++ snd (run (fst (act s a)) l)).
Proof. intros. cbn [run]. destruct (act s a) as [s1 e1]. cbn [fst snd]. destruct (run s1 l). reflexivity. Qed.
Lemma run_app : forall l1 l2 s, run s (l1 ++ l2) =
  (fst (run (fst (run s l1)) l2), snd (run s l1) ++ snd (run (fst (run s l1)) l2)).
Proof.
  induction l1 as [|a l1 IH]; intros l2 s; cbn [app].
  - cbn [run fst snd app]. destruct (run s l2); reflexivity.
  - rewrite !run_cons, IH. cbn [fst snd]. now rewrite app_assoc.
Qed.

Lemma call_now_answer : forall s k, fst (call_now s k) = answer_of s k.
Proof.
  intros s k. destruct k; cbn [call_now answer_of fst]; try reflexivity.
  destruct (chain_update_increment s v); reflexivity.
Qed.
Lemma call_now_chain : forall s k t r, snd (call_now s k) = after s (tweaks [(t, k, r)]).
Proof.
  intros s k t r. destruct k; cbn [call_now tweaks flat_map app snd]; try reflexivity.
  unfold after. cbn [fold_left chain_do]. destruct (chain_update_increment s v); reflexivity.
Qed.
Lemma after_app : forall s a b, after s (a ++ b) = after (after s a) b.
Proof. intros. unfold after. apply fold_left_app. Qed.
Lemma tweaks_app : forall a b, tweaks (a ++ b) = tweaks a ++ tweaks b.
Proof. intros. unfold tweaks. apply flat_map_app. Qed.

(** A task is inside a mapping call, not a tweak, when it is in a stage. *)
Definition is_tweak (k : job) : bool := match k with Step | UpdateIncrement _ => true | _ => false end.
Definition typed (s : shared) : Prop := forall t k p, sh_tasks s t = Some (k, p) ->
  match p with Asleep => is_tweak k = true | Mapping _ => is_tweak k = false end.

Lemma act_typed : forall s a, typed s -> typed (fst (act s a)).
Proof.
  intros s a T u k p. destruct a as [t j|t j|t|t]; cbn [act].
  - destruct (sh_tasks s t) eqn:E; [apply T|]. cbn. destruct (Nat.eqb_spec u t) as [->|N]; [|apply T].
    intro H; injection H as <- <-. destruct j; reflexivity.
  - destruct (sh_tasks s t) eqn:E; [apply T|]. destruct (call_now _ j) as [r c]. cbn. apply T.
  - destruct (sh_tasks s t) as [[j [q|]]|] eqn:E; [| |apply T].
    + destruct (go_on _ q) as [q'|r]; cbn; (destruct (Nat.eqb_spec u t) as [->|N]; [|apply T]);
        [|discriminate]. intro H; injection H as <- <-. apply (T t j (Mapping q) E).
    + destruct (call_now _ j) as [r c]. cbn. destruct (Nat.eqb_spec u t) as [->|N]; [discriminate|apply T].
  - cbn. destruct (Nat.eqb_spec u t) as [->|N]; [discriminate|apply T].
Qed.

Lemma act_chain : forall s a, typed s ->
  sh_chain (fst (act s a)) = after (sh_chain s) (tweaks (snd (act s a))).
Proof.
  intros s a T. destruct a as [t j|t j|t|t]; cbn [act].
  - destruct (sh_tasks s t); reflexivity.
  - destruct (sh_tasks s t); [reflexivity|].
    pose proof (call_now_chain (sh_chain s) j t (fst (call_now (sh_chain s) j))) as H.
    destruct (call_now _ j) as [r c]. cbn [fst snd set_chain sh_chain] in *. exact H.
  - destruct (sh_tasks s t) as [[j [q|]]|] eqn:E; [| |reflexivity].
    + specialize (T t j _ E). cbn in T.
      destruct (go_on _ q) as [q'|r]; cbn [fst snd set_task sh_chain]; [reflexivity|].
      destruct j; try discriminate T; reflexivity.
    + pose proof (call_now_chain (sh_chain s) j t (fst (call_now (sh_chain s) j))) as H.
      destruct (call_now _ j) as [r c]. cbn [fst snd set_chain sh_chain] in *. exact H.
  - reflexivity.
Qed.

Lemma run_typed : forall l s, typed s -> typed (fst (run s l)).
Proof.
  induction l as [|a l IH]; intros s T; [exact T|]. rewrite run_cons. apply IH, act_typed, T.
Qed.
Lemma run_chain : forall l s, typed s ->
  sh_chain (fst (run s l)) = after (sh_chain s) (tweaks (snd (run s l))).
Proof.
  induction l as [|a l IH]; intros s T; [reflexivity|]. rewrite run_cons. cbn [fst snd].
  rewrite IH by (apply act_typed, T). rewrite act_chain by exact T. rewrite tweaks_app, after_app. reflexivity.
Qed.
Lemma unused_typed : forall s, typed (unused s).
Proof. intros s t k p H. discriminate H. Qed.

Lemma after_frame : forall ops s, frame s (after s ops).
Proof.
  unfold after. induction ops as [|o ops IH]; intro s; [apply frame_refl|]. cbn [fold_left].
  eapply frame_trans; [|apply IH]. destruct o as [|v]; cbn [chain_do]; [repeat split|].
  unfold chain_update_increment. destruct (_ && _); repeat split.
Qed.
Lemma run_frame : forall l s, typed s -> frame (sh_chain s) (sh_chain (fst (run s l))).
Proof. intros l s T. rewrite run_chain by exact T. apply after_frame. Qed.

(** ** One call *)
Definition reads_first (k : job) : bool := match k with Permute _ => true | _ => false end.

(** What is known of a suspended call which began when the permutation was [s0]. *)
Definition on_course (s0 : chain) (k : job) (p : pending) : Prop :=
  match p with
  | Asleep => is_tweak k = true
  | Mapping q => forall s, frame s0 s ->
      (x <- finish s q ;; Ok (Number x)) = answer_of (if reads_first k then s0 else s) k
  end.

Lemma begin_on_course : forall s0 k, on_course s0 k (begin_job s0 k).
Proof.
  intros s0 k. destruct k; cbn [begin_job on_course is_tweak reads_first answer_of]; try reflexivity; intros s F.
  - rewrite begin_permute by exact F. reflexivity.
  - rewrite begin_invert by exact F. reflexivity.
  - rewrite begin_uncapped_permute. reflexivity.
  - rewrite begin_uncapped_invert. reflexivity.
Qed.

Definition followed (s0 : chain) (t : nat) (k : job) (s : shared) : Prop :=
  typed s /\ frame s0 (sh_chain s) /\ exists p, sh_tasks s t = Some (k, p) /\ on_course s0 k p.

Lemma act_followed : forall s0 t k s a, followed s0 t k s -> sh_tasks (fst (act s a)) t <> None ->
  followed s0 t k (fst (act s a)).
Proof.
  intros s0 t k s a (T & F & p & E & C) B. split; [apply act_typed, T|]. split.
  { rewrite act_chain by exact T. eapply frame_trans; [exact F|apply after_frame]. }
  assert (K : forall u q, u <> t -> sh_tasks (set_task s u q) t = sh_tasks s t).
  { intros u q N. cbn. destruct (Nat.eqb_spec t u); [congruence|reflexivity]. }
  destruct a as [u j|u j|u|u]; cbn [act] in *.
  - destruct (Nat.eq_dec u t) as [->|N].
    + rewrite E. cbn [fst]. exists p. split; assumption.
    + destruct (sh_tasks s u); cbn [fst]; [|rewrite K by exact N]; exists p; split; assumption.
  - destruct (Nat.eq_dec u t) as [->|N].
    + rewrite E. cbn [fst]. exists p. split; assumption.
    + destruct (sh_tasks s u); cbn [fst]; [exists p; split; assumption|].
      destruct (call_now _ j) as [r c]. cbn [fst set_chain sh_tasks]. exists p; split; assumption.
  - destruct (Nat.eq_dec u t) as [->|N].
    + rewrite E in *. destruct p as [q|].
      * destruct (go_on (sh_chain s) q) as [q'|r] eqn:G.
        2:{ exfalso. apply B. cbn. rewrite Nat.eqb_refl. reflexivity. }
        exists (Mapping q'). split; [cbn; rewrite Nat.eqb_refl; reflexivity|].
        intros s' F'. rewrite (go_on_waits s' q q'). { apply C, F'. }
        apply (go_on_frame (sh_chain s)); [|exact G].
        eapply frame_trans; [apply frame_sym, F|exact F'].
      * exfalso. apply B. destruct (call_now _ k) as [r c]. cbn. rewrite Nat.eqb_refl. reflexivity.
    + destruct (sh_tasks s u) as [[j [q|]]|]; cbn [fst]; [| |exists p; split; assumption].
      * destruct (go_on _ q); cbn [fst]; rewrite K by exact N; exists p; split; assumption.
      * destruct (call_now _ j) as [r c]. cbn [fst]. exists p. split; [|exact C].
        change (sh_tasks (set_task s u None) t = Some (k, p)). rewrite K by exact N. exact E.
  - destruct (Nat.eq_dec u t) as [->|N].
    + exfalso. apply B. cbn. rewrite Nat.eqb_refl. reflexivity.
    + cbn [fst]. rewrite K by exact N. exists p; split; assumption.
Qed.

Lemma run_followed : forall l s0 t k s, followed s0 t k s ->
  (forall l3 l4, l = l3 ++ l4 -> sh_tasks (fst (run s l3)) t <> None) -> followed s0 t k (fst (run s l)).
Proof.
  induction l as [|a l IH]; intros s0 t k s H B; [exact H|]. rewrite run_cons. cbn [fst]. apply IH.
  - apply act_followed; [exact H|]. specialize (B [a] l eq_refl). rewrite run_cons in B. exact B.
  - intros l3 l4 E. specialize (B (a :: l3) l4 ltac:(rewrite E; reflexivity)). rewrite run_cons in B. exact B.
Qed.

Lemma followed_ends : forall s0 t k s es r, followed s0 t k s ->
  es ++ snd (act s (Resume t)) = es ++ [(t, k, r)] ->
  r = answer_of (if reads_first k then s0 else sh_chain s) k.
Proof.
  intros s0 t k s es r (T & F & p & E & C) H. apply app_inv_head in H. cbn [act] in H. rewrite E in H.
  destruct p as [q|].
  - destruct (go_on (sh_chain s) q) as [q'|x] eqn:G; [discriminate H|]. cbn [snd] in H. injection H as <-.
    apply go_on_returns in G. subst x. apply C, F.
  - pose proof (call_now_answer (sh_chain s) k) as A. destruct (call_now _ k) as [x c].
    cbn [snd fst] in *. injection H as <-. cbn [on_course] in C. rewrite A.
    destruct k; try discriminate C; reflexivity.
Qed.

Lemma make_followed : forall s l1 t k, ~ inside s l1 t ->
  followed (chain_after s l1) t k (fst (run (unused s) (l1 ++ [Make t k]))).
Proof.
  intros s l1 t k N. rewrite run_app. cbn [fst]. rewrite run_cons. cbn [fst run].
  pose proof (run_typed l1 _ (unused_typed s)) as T. unfold chain_after.
  unfold inside in N. set (m := fst (run (unused s) l1)) in *.
  destruct (sh_tasks m t) eqn:E; [exfalso; apply N; discriminate|].
  split; [apply act_typed, T|]. cbn [act]. rewrite E. cbn [fst]. split; [apply frame_refl|].
  eexists. split; [cbn; rewrite Nat.eqb_refl; reflexivity|]. apply begin_on_course.
Qed.

Lemma one_call_followed : forall s l1 t k l2 r, one_call s l1 t k l2 r ->
  followed (chain_after s l1) t k (fst (run (unused s) (l1 ++ Make t k :: l2))) /\
  r = answer_of (chain_after s (if reads_first k then l1 else l1 ++ Make t k :: l2)) k.
Proof.
  intros s l1 t k l2 r (N & B & E).
  assert (A : forall l, l1 ++ Make t k :: l = (l1 ++ [Make t k]) ++ l).
  { intro l. rewrite <- app_assoc. reflexivity. }
  assert (H : followed (chain_after s l1) t k (fst (run (unused s) (l1 ++ Make t k :: l2)))).
  { rewrite A, run_app. cbn [fst]. apply run_followed; [apply make_followed, N|].
    intros l3 l4 E3. specialize (B l3 l4 E3). unfold inside in B. rewrite A, run_app in B. exact B. }
  split; [exact H|].
  unfold ended in E.
  assert (E' : snd (run (unused s) (l1 ++ Make t k :: l2)) ++
    snd (act (fst (run (unused s) (l1 ++ Make t k :: l2))) (Resume t)) =
    snd (run (unused s) (l1 ++ Make t k :: l2)) ++ [(t, k, r)]).
  { rewrite <- E. change (l1 ++ Make t k :: l2 ++ [Resume t]) with (l1 ++ (Make t k :: l2) ++ [Resume t]).
    rewrite (app_assoc l1), (run_app (l1 ++ Make t k :: l2)). cbn [snd]. f_equal.
    rewrite run_cons. cbn [snd run]. now rewrite app_nil_r. }
  pose proof (followed_ends _ _ _ _ _ _ H E') as R. rewrite R.
  destruct (reads_first k); reflexivity.
Qed.

(** ** Every call ends *)
Definition left_of (p : pending) : nat := match p with Mapping q => stage_left q | Asleep => 1%nat end.

Lemma ends_within : forall l t k s p, sh_tasks s t = Some (k, p) -> (left_of p <= turns_of t l)%nat ->
  ~ In (Cancel t) l ->
  exists l3 l4 r, l = l3 ++ Resume t :: l4 /\
    (forall a b, l3 = a ++ b -> sh_tasks (fst (run s a)) t <> None) /\
    snd (act (fst (run s l3)) (Resume t)) = [(t, k, r)].
Proof.
  induction l as [|a l IH]; intros t k s p E L N.
  { exfalso. cbn in L. destruct p as [[]|]; cbn in L; lia. }
  assert (P : forall p', sh_tasks (fst (act s a)) t = Some (k, p') -> (left_of p' <= turns_of t l)%nat ->
    exists l3 l4 r, a :: l = l3 ++ Resume t :: l4 /\
    (forall x y, l3 = x ++ y -> sh_tasks (fst (run s x)) t <> None) /\
    snd (act (fst (run s l3)) (Resume t)) = [(t, k, r)]).
  { intros p' E' L'. destruct (IH t k (fst (act s a)) p' E' L') as (l3 & l4 & r & Q1 & Q2 & Q3).
    { intro I. apply N. right. exact I. }
    exists (a :: l3), l4, r. split; [rewrite Q1; reflexivity|]. split.
    - intros [|x0 x] y Hxy; [cbn; rewrite E; discriminate|]. cbn [app] in Hxy. injection Hxy as <- Hxy.
      rewrite run_cons. apply (Q2 x y Hxy).
    - rewrite run_cons. exact Q3. }
  assert (K : forall u q, u <> t -> sh_tasks (set_task s u q) t = sh_tasks s t).
  { intros u q M. cbn. destruct (Nat.eqb_spec t u); [congruence|reflexivity]. }
  destruct a as [u j|u j|u|u].
  - apply (P p); [|exact L]. cbn [act]. destruct (Nat.eq_dec u t) as [->|M].
    + rewrite E. exact E.
    + destruct (sh_tasks s u); cbn [fst]; [|rewrite K by exact M]; exact E.
  - apply (P p); [|exact L]. cbn [act]. destruct (Nat.eq_dec u t) as [->|M].
    + rewrite E. exact E.
    + destruct (sh_tasks s u); cbn [fst]; [exact E|]. destruct (call_now _ j) as [r c]. exact E.
  - destruct (Nat.eq_dec u t) as [->|M].
    + unfold turns_of in L. cbn [filter] in L. rewrite Nat.eqb_refl in L. cbn [length] in L.
      fold (turns_of t l) in L.
      destruct p as [q|].
      * destruct (go_on (sh_chain s) q) as [q'|x] eqn:G.
        -- apply (P (Mapping q')).
           ++ cbn [act]. rewrite E, G. cbn. rewrite Nat.eqb_refl. reflexivity.
           ++ pose proof (go_on_left _ _ _ G). cbn [left_of] in *. lia.
        -- exists [], l. eexists. split; [reflexivity|]. split.
           ++ intros [|? ?] y Hy; [cbn; rewrite E; discriminate|discriminate Hy].
           ++ cbn [run fst act]. rewrite E, G. reflexivity.
      * exists [], l, (fst (call_now (sh_chain s) k)). split; [reflexivity|]. split.
        -- intros [|? ?] y Hy; [cbn; rewrite E; discriminate|discriminate Hy].
        -- cbn [run fst act]. rewrite E. destruct (call_now _ k) as [x c]. reflexivity.
    + apply (P p).
      * cbn [act]. destruct (sh_tasks s u) as [[j [q|]]|]; cbn [fst]; [| |exact E].
        -- destruct (go_on _ q); cbn [fst]; rewrite K by exact M; exact E.
        -- destruct (call_now _ j) as [r c]. cbn [fst].
           change (sh_tasks (set_task s u None) t = Some (k, p)). rewrite K by exact M. exact E.
      * revert L. unfold turns_of. cbn [filter]. destruct (Nat.eqb_spec u t); [congruence|trivial].
  - apply (P p).
    + cbn [act fst]. destruct (Nat.eq_dec u t) as [->|M]; [exfalso; apply N; left; reflexivity|].
      rewrite K by exact M. exact E.
    + exact L.
Qed.

(** ** GUID makers *)
Lemma id_run_cons : forall m a l, id_run m (a :: l) =
  (fst (id_run (fst (id_act m a)) l), snd (id_act m a) ++ snd (id_run (fst (id_act m a)) l)).
Proof. intros. cbn [id_run]. destruct (id_act m a) as [m1 e1]. cbn [fst snd]. destruct (id_run m1 l). reflexivity. Qed.
Lemma id_run_app : forall l1 l2 m, id_run m (l1 ++ l2) =
  (fst (id_run (fst (id_run m l1)) l2), snd (id_run m l1) ++ snd (id_run (fst (id_run m l1)) l2)).
Proof.
  induction l1 as [|a l1 IH]; intros l2 m; cbn [app].
  - cbn [id_run fst snd app]. destruct (id_run m l2); reflexivity.
  - rewrite !id_run_cons, IH. cbn [fst snd]. now rewrite app_assoc.
Qed.
Lemma draws_app : forall l1 l2 m, draws_from m (l1 ++ l2) =
  draws_from m l1 ++ draws_from (fst (id_run m l1)) l2.
Proof.
  induction l1 as [|a l1 IH]; intros l2 m; cbn [app draws_from]; [reflexivity|].
  rewrite IH, id_run_cons, app_assoc. reflexivity.
Qed.

(** The GUID maker after a history. *)
Definition one_new (g : guid) (c : call) : result bytes * guid :=
  match guid_new g (fst c) (snd c) with Ok (b, g') => (Ok b, g') | Err e => (Err e, g) end.
Fixpoint guid_after (g : guid) (h : list call) : guid :=
  match h with [] => g | c :: h => guid_after (snd (one_new g c)) h end.
Lemma guid_run_cons : forall g c h, guid_run g (c :: h) = fst (one_new g c) :: guid_run (snd (one_new g c)) h.
Proof.
  intros g [now token] h. cbn [guid_run]. unfold one_new. cbn [fst snd].
  destruct (guid_new g now token) as [[b g']|e]; reflexivity.
Qed.
Lemma guid_run_app : forall h1 h2 g, guid_run g (h1 ++ h2) = guid_run g h1 ++ guid_run (guid_after g h1) h2.
Proof.
  induction h1 as [|c h1 IH]; intros h2 g; [reflexivity|]. cbn [app guid_after].
  rewrite !guid_run_cons, IH. reflexivity.
Qed.
Lemma guid_after_app : forall h1 h2 g, guid_after g (h1 ++ h2) = guid_after (guid_after g h1) h2.
Proof. induction h1 as [|c h1 IH]; intros h2 g; [reflexivity|]. cbn [app guid_after]. apply IH. Qed.
Lemma guid_run_length : forall h g, length (guid_run g h) = length h.
Proof. induction h as [|c h IH]; intro g; [reflexivity|]. rewrite guid_run_cons. cbn [length]. now rewrite IH. Qed.

Definition out_bytes (g : guid) (r : result Z) : result bytes :=
  v <- r ;; z_to_bytes (gd_size g) BigEndian v.

(** Drawing the raw GUID now and blinding it later gives what [new] gives. *)
Lemma draw_new : forall cid g now (token : bytes), wf_guid cid g -> blen token = (cid - 10)%N ->
  match raw_new (gd_raw g) now token with
  | Err e => one_new g (now, token) = (Err e, g)
  | Ok (raw, r') =>
    one_new g (now, token) =
      (out_bytes g (finish (gd_perm g) (begin_map (gd_perm g) true true (be_z raw))), set_raw g r') /\
    wf_guid cid (set_raw g r') /\
    rg_config r' = rg_config (gd_raw g)
  end.
Proof.
  intros cid g now token W T. unfold one_new. cbn [fst snd].
  destruct (raw_new (gd_raw g) now token) as [[raw r']|e] eqn:E.
  - destruct (guid_new_total _ _ _ _ _ _ W T E) as (b & g' & H & _ & _).
    destruct (guid_new_ok _ _ _ _ _ _ W T H) as (raw0 & r0 & E0 & P & L & L' & _ & W' & R & PP).
    rewrite E in E0. injection E0 as <- <-. rewrite H.
    unfold guid_new in H. rewrite E in H. cbn [bind] in H.
    apply bind_ok in H. destruct H as (v & Hv & H).
    apply bind_ok in H. destruct H as (b0 & Hb & H). injection H as -> <-.
    rewrite begin_permute by apply frame_refl. rewrite Hv. unfold out_bytes. cbn [bind]. rewrite Hb.
    split; [reflexivity|]. split; [exact W'|].
    pose proof (wg_raw _ _ W') as W1. pose proof (wg_raw _ _ W) as W2. cbn [gd_raw] in W1.
    rewrite (wr_config _ _ W1), (wr_config _ _ W2). reflexivity.
  - unfold guid_new. rewrite E. reflexivity.
Qed.

(** What the tasks are about, and where the answers still to come are to be found. *)
Definition id_typed (m : maker) : Prop := forall t k p, mk_tasks m t = Some (k, p) ->
  match k, p with
  | New, Drawing | New, Blinding _ | Read _, Unblinding _ | Read _, Parsing _ => True
  | _, _ => False
  end.
(** What never changes. *)
Definition id_frame (g g' : guid) : Prop :=
  gd_size g' = gd_size g /\ gd_perm g' = gd_perm g /\ rg_config (gd_raw g') = rg_config (gd_raw g).

Definition accounted (g : guid) (m : maker) (d : list call) (es : list id_event) : Prop :=
  id_typed m /\ mk_guid m = guid_after g d /\
  exists rest : list (nat * result bytes),
    (forall t p, mk_tasks m t = Some (New, Blinding p) -> In (t, out_bytes g (finish (gd_perm g) p)) rest) /\
    Permutation (new_ids es ++ map snd rest) (guid_run g d).

Lemma id_act_typed : forall m a, id_typed m -> id_typed (fst (id_act m a)).
Proof.
  intros m a T u j p. destruct a as [t k|t k now token|t now token|t]; cbn [id_act].
  - destruct (mk_tasks m t) eqn:E; [apply T|]. destruct k as [|b].
    + cbn. destruct (Nat.eqb_spec u t) as [->|N]; [|apply T]. intro H; injection H as <- <-. exact I.
    + destruct (negb _); [apply T|]. cbn. destruct (Nat.eqb_spec u t) as [->|N]; [|apply T].
      intro H; injection H as <- <-. exact I.
  - destruct (mk_tasks m t) eqn:E; [apply T|]. destruct (id_call_now _ k now token). apply T.
  - destruct (mk_tasks m t) as [[k q]|] eqn:E; [|apply T]. pose proof (T t k q E) as Tq.
    assert (A : forall q' m', mk_tasks m' = mk_tasks (set_id_task m t (Some (k, q'))) ->
      match k, q' with
      | New, Drawing | New, Blinding _ | Read _, Unblinding _ | Read _, Parsing _ => True
      | _, _ => False end ->
      mk_tasks m' u = Some (j, p) -> match j, p with
      | New, Drawing | New, Blinding _ | Read _, Unblinding _ | Read _, Parsing _ => True
      | _, _ => False end).
    { intros q' m' -> Q. cbn. destruct (Nat.eqb_spec u t) as [->|N]; [|apply T].
      intro H; injection H as <- <-. exact Q. }
    assert (B : mk_tasks (set_id_task m t None) u = Some (j, p) -> match j, p with
      | New, Drawing | New, Blinding _ | Read _, Unblinding _ | Read _, Parsing _ => True
      | _, _ => False end).
    { cbn. destruct (Nat.eqb_spec u t) as [->|N]; [discriminate|apply T]. }
    destruct q as [|q|q|raw]; cbn [id_resume].
    + destruct (raw_new _ now token) as [[raw r']|e]; cbn [fst]; [|exact B].
      eapply A; [reflexivity|]. destruct k; [exact I|destruct Tq].
    + destruct (go_on _ q); cbn [fst]; [|exact B].
      eapply A; [reflexivity|]. destruct k; [exact I|destruct Tq].
    + destruct (go_on _ q) as [q'|r]; cbn [fst].
      * eapply A; [reflexivity|]. destruct k; [destruct Tq|exact I].
      * destruct (v <- r ;; _); cbn [fst]; [|exact B].
        eapply A; [reflexivity|]. destruct k; [destruct Tq|exact I].
    + exact B.
  - cbn. destruct (Nat.eqb_spec u t) as [->|N]; [discriminate|apply T].
Qed.

Lemma new_ids_app : forall a b, new_ids (a ++ b) = new_ids a ++ new_ids b.
Proof. intros. unfold new_ids. apply flat_map_app. Qed.
Lemma new_ids_blinded : forall t g r, new_ids [(t, New, blinded g r)] = [out_bytes g r].
Proof.
  intros t g r. unfold blinded, out_bytes. destruct r as [v|e]; cbn [bind new_ids flat_map app]; [|reflexivity].
  destruct (z_to_bytes _ _ v); reflexivity.
Qed.

(** The GUID maker after good draws: well-formed, and changed only in its tick. *)
Lemma guid_after_wf : forall cid h g, wf_guid cid g -> Forall (good_token cid) h ->
  wf_guid cid (guid_after g h) /\ id_frame g (guid_after g h).
Proof.
  intros cid h. induction h as [|[now token] h IH]; intros g W F.
  - split; [exact W|]. repeat split.
  - inversion F as [|? ? F1 F2]; subst.
    change (guid_after g ((now, token) :: h)) with (guid_after (snd (one_new g (now, token))) h).
    pose proof (draw_new cid g now token W F1) as D.
    destruct (raw_new (gd_raw g) now token) as [[raw r']|e].
    + destruct D as (E & W' & C). rewrite E. cbn [snd].
      destruct (IH _ W' F2) as (A & (B1 & B2 & B3)). split; [exact A|].
      cbn [set_raw gd_size gd_perm gd_raw] in *. repeat split; congruence.
    + rewrite D. cbn [snd]. apply IH; assumption.
Qed.

Lemma id_act_accounted : forall cid g m d es a, wf_guid cid g -> Forall (good_token cid) (d ++ drawn m a) ->
  accounted g m d es ->
  accounted g (fst (id_act m a)) (d ++ drawn m a) (es ++ snd (id_act m a)).
Proof.
  intros cid g m d es a W F (T & G & rest & R & P). split; [apply id_act_typed, T|].
  apply Forall_app in F. destruct F as [Fd Fa].
  destruct (guid_after_wf cid d g W Fd) as (Wd & (Z1 & Z2 & Z3)). rewrite <- G in *.
  assert (SAME : mk_guid (fst (id_act m a)) = mk_guid m -> drawn m a = [] -> new_ids (snd (id_act m a)) = [] ->
    (forall t p, mk_tasks (fst (id_act m a)) t = Some (New, Blinding p) ->
       In (t, out_bytes g (finish (gd_perm g) p)) rest) ->
    mk_guid (fst (id_act m a)) = guid_after g (d ++ drawn m a) /\
    exists rest : list (nat * result bytes),
    (forall t p, mk_tasks (fst (id_act m a)) t = Some (New, Blinding p) ->
       In (t, out_bytes g (finish (gd_perm g) p)) rest) /\
    Permutation (new_ids (es ++ snd (id_act m a)) ++ map snd rest) (guid_run g (d ++ drawn m a))).
  { intros E1 E2 E3 E4. rewrite E2, app_nil_r, E1. split; [exact G|]. exists rest. split; [exact E4|].
    rewrite new_ids_app, E3, app_nil_r. exact P. }
  assert (OTHER : forall t q u p, mk_tasks (set_id_task m t q) u = Some (New, Blinding p) -> u <> t ->
    In (u, out_bytes g (finish (gd_perm g) p)) rest).
  { intros t q u p H N. apply R. revert H. cbn. destruct (Nat.eqb_spec u t); [congruence|trivial]. }
  assert (SET : forall t q, (forall p, q <> Some (New, Blinding p)) ->
    forall u p, mk_tasks (set_id_task m t q) u = Some (New, Blinding p) ->
    In (u, out_bytes g (finish (gd_perm g) p)) rest).
  { intros t q Q u p H. destruct (Nat.eq_dec u t) as [->|N]; [|apply (OTHER t q u p H N)].
    cbn in H. rewrite Nat.eqb_refl in H. exfalso. apply (Q p H). }
  destruct a as [t k|t k now token|t now token|t].
  - apply SAME; cbn [id_act drawn]; destruct (mk_tasks m t) eqn:E; try reflexivity; try exact R;
      destruct k as [|b]; try reflexivity; try (destruct (negb _); reflexivity).
    + apply (SET t). intro; discriminate.
    + destruct (negb _); [exact R|]. apply (SET t). intro; discriminate.
  - cbn [id_act drawn] in *. destruct (mk_tasks m t) eqn:E.
    { apply SAME; cbn [drawn]; rewrite ?E; try reflexivity; [destruct k; reflexivity|exact R]. }
    destruct k as [|b].
    2:{ apply SAME; cbn [drawn id_call_now fst snd]; try reflexivity; try exact R. }
    clear SAME. rewrite new_ids_app.
    assert (O : id_call_now (mk_guid m) New now token =
      ((b <- fst (one_new (mk_guid m) (now, token)) ;; Ok (Identifier b)), snd (one_new (mk_guid m) (now, token)))).
    { cbn [id_call_now]. unfold one_new. cbn [fst snd].
      destruct (guid_new (mk_guid m) now token) as [[b g']|e]; reflexivity. }
    rewrite O. cbn [fst snd set_guid mk_guid mk_tasks]. rewrite guid_after_app, guid_run_app, <- G.
    cbn [guid_after]. split; [reflexivity|]. exists rest. split; [exact R|].
    rewrite guid_run_cons. cbn [guid_run].
    assert (O' : new_ids [(t, New, b <- fst (one_new (mk_guid m) (now, token));; Ok (Identifier b))] =
      [fst (one_new (mk_guid m) (now, token))]).
    { destruct (fst (one_new (mk_guid m) (now, token))); reflexivity. }
    rewrite O', <- app_assoc. cbn [app]. rewrite <- Permutation_middle.
    rewrite P. apply Permutation_cons_append.
  - cbn [id_act] in *. destruct (mk_tasks m t) as [[k q]|] eqn:E.
    2:{ apply SAME; cbn [drawn]; rewrite ?E; try reflexivity. exact R. }
    pose proof (T t k q E) as Tq.
    destruct q as [|q|q|raw]; destruct k as [|b]; try destruct Tq; cbn [id_resume] in *.
    + (* a raw GUID is drawn *)
      cbn [drawn] in *. rewrite E in *. inversion Fa as [|? ? F1 _]; subst.
      pose proof (draw_new cid (mk_guid m) now token Wd F1) as D.
      clear SAME. rewrite guid_after_app, guid_run_app, <- G. cbn [guid_after].
      rewrite guid_run_cons. cbn [guid_run].
      destruct (raw_new (gd_raw (mk_guid m)) now token) as [[raw r']|e].
      * destruct D as (D & W' & C). rewrite D. cbn [fst snd set_guid mk_guid]. split; [reflexivity|].
        set (p0 := begin_map (gd_perm (mk_guid m)) true true (be_z raw)) in *.
        exists ((t, out_bytes g (finish (gd_perm g) p0)) :: rest). split.
        -- intros u p H. destruct (Nat.eq_dec u t) as [->|N].
           ++ left. cbn in H. rewrite Nat.eqb_refl in H. injection H as <-. reflexivity.
           ++ right. eapply OTHER; [exact H|exact N].
        -- rewrite app_nil_r. cbn [map snd]. rewrite <- Permutation_middle, P.
           rewrite Z2. unfold out_bytes. rewrite Z1. apply Permutation_cons_append.
      * rewrite D. cbn [fst snd]. split; [reflexivity|]. exists rest. split.
        -- apply (SET t). intro; discriminate.
        -- rewrite new_ids_app. cbn [new_ids flat_map app]. rewrite <- app_assoc. cbn [app].
           rewrite <- Permutation_middle, P. apply Permutation_cons_append.
    + (* blinding *)
      pose proof (R t q E) as Rq.
      destruct (go_on (gd_perm (mk_guid m)) q) as [q'|r] eqn:GO.
      * apply SAME; cbn [fst snd]; try reflexivity.
        { cbn [drawn]. rewrite E. reflexivity. }
        intros u p H. destruct (Nat.eq_dec u t) as [->|N]; [|eapply OTHER; eassumption].
        cbn in H. rewrite Nat.eqb_refl in H. injection H as <-.
        rewrite Z2 in GO. rewrite (go_on_waits _ _ _ GO). exact Rq.
      * cbn [drawn fst snd]. rewrite E, app_nil_r. split; [exact G|]. clear SAME.
        apply go_on_returns in GO. subst r.
        apply in_split in Rq. destruct Rq as (r1 & r2 & ->).
        exists (r1 ++ r2). split.
        -- intros u p H.
           assert (N : u <> t). { intros ->. cbn in H. rewrite Nat.eqb_refl in H. discriminate H. }
           pose proof (OTHER _ _ _ _ H N) as I. apply in_app_or in I. apply in_or_app.
           destruct I as [I|[I|I]]; [left; exact I| |right; exact I]. injection I as I _. congruence.
        -- rewrite new_ids_app, new_ids_blinded.
           assert (O : out_bytes (mk_guid m) (finish (gd_perm (mk_guid m)) q) = out_bytes g (finish (gd_perm g) q)).
           { unfold out_bytes. rewrite Z1, Z2. reflexivity. }
           rewrite O, <- P, !map_app, <- app_assoc. cbn [map snd app].
           rewrite <- !Permutation_middle. reflexivity.
    + (* reading *)
      apply SAME; cbn [drawn]; rewrite ?E; try reflexivity;
        (destruct (go_on _ q) as [q'|r]; cbn [fst snd];
         [|destruct (v <- r ;; _) as [x|x]; cbn [fst snd]]); try reflexivity;
        apply (SET t); intro; discriminate.
    + apply SAME; cbn [drawn fst snd]; rewrite ?E; try reflexivity.
      apply (SET t); intro; discriminate.
  - apply SAME; try reflexivity. cbn [id_act fst]. apply (SET t). intro; discriminate.
Qed.

Lemma id_run_accounted : forall cid l g m d es, wf_guid cid g -> Forall (good_token cid) (d ++ draws_from m l) ->
  accounted g m d es ->
  accounted g (fst (id_run m l)) (d ++ draws_from m l) (es ++ snd (id_run m l)).
Proof.
  intros cid. induction l as [|a l IH]; intros g m d es W F A.
  - cbn [draws_from id_run fst snd]. rewrite !app_nil_r. exact A.
  - cbn [draws_from] in *. rewrite id_run_cons. cbn [fst snd]. rewrite !app_assoc in *. apply IH; [exact W|exact F|].
    apply (id_act_accounted cid); [exact W| |exact A].
    apply Forall_app in F. exact (proj1 F).
Qed.

(** ** One call of a GUID maker *)
Lemma id_frame_refl : forall g, id_frame g g.
Proof. repeat split. Qed.
Lemma id_frame_trans : forall a b c, id_frame a b -> id_frame b c -> id_frame a c.
Proof. intros a b c (?&?&?) (?&?&?). repeat split; congruence. Qed.
Lemma raw_new_frame : forall r now token b r', raw_new r now token = Ok (b, r') -> rg_config r' = rg_config r.
Proof.
  intros r now token b r' H. unfold raw_new in H.
  apply bind_ok in H. destruct H as (ts & _ & H). apply bind_ok in H. destruct H as ([tick r1] & E & H).
  injection H as _ <-. unfold incremented_tick in E. apply bind_ok in E. destruct E as (x & _ & E).
  injection E as _ <-. reflexivity.
Qed.
Lemma id_act_frame : forall m a, id_frame (mk_guid m) (mk_guid (fst (id_act m a))).
Proof.
  intros m a. destruct a as [t k|t k now token|t now token|t]; cbn [id_act].
  - destruct (mk_tasks m t); [apply id_frame_refl|]. destruct k; [apply id_frame_refl|].
    destruct (negb _); apply id_frame_refl.
  - destruct (mk_tasks m t); [apply id_frame_refl|]. destruct k as [|b]; cbn [id_call_now]; [|apply id_frame_refl].
    destruct (guid_new (mk_guid m) now token) as [[b g']|e] eqn:E; [|apply id_frame_refl].
    cbn [fst set_guid mk_guid]. unfold guid_new in E.
    apply bind_ok in E. destruct E as ([raw r'] & R & E). apply bind_ok in E. destruct E as (v & _ & E).
    apply bind_ok in E. destruct E as (x & _ & E). injection E as _ <-.
    repeat split. cbn [gd_raw]. apply (raw_new_frame _ _ _ _ _ R).
  - destruct (mk_tasks m t) as [[k p]|]; [|apply id_frame_refl].
    destruct p as [|q|q|raw]; cbn [id_resume].
    + destruct (raw_new _ now token) as [[raw r']|e] eqn:R; [|apply id_frame_refl].
      repeat split. cbn. apply (raw_new_frame _ _ _ _ _ R).
    + destruct (go_on _ q); apply id_frame_refl.
    + destruct (go_on _ q); [apply id_frame_refl|]. destruct (v <- r ;; _); apply id_frame_refl.
    + apply id_frame_refl.
  - apply id_frame_refl.
Qed.

(** A task stays where it is while others act. *)
Definition about (a : id_action) : nat :=
  match a with IdMake t _ | IdNow t _ _ _ | IdResume t _ _ | IdCancel t => t end.
Lemma id_act_others : forall m a t, about a <> t -> mk_tasks (fst (id_act m a)) t = mk_tasks m t.
Proof.
  intros m a t N.
  assert (K : forall u q, u <> t -> mk_tasks (set_id_task m u q) t = mk_tasks m t).
  { intros u q M. cbn. destruct (Nat.eqb_spec t u); [congruence|reflexivity]. }
  destruct a as [u k|u k now token|u now token|u]; cbn [about] in N; cbn [id_act].
  - destruct (mk_tasks m u); [reflexivity|]. destruct k; [apply (K u), N|]. destruct (negb _); [reflexivity|apply (K u), N].
  - destruct (mk_tasks m u); [reflexivity|]. destruct (id_call_now _ k now token); reflexivity.
  - destruct (mk_tasks m u) as [[k p]|]; [|reflexivity]. destruct p as [|q|q|raw]; cbn [id_resume].
    + destruct (raw_new _ now token) as [[raw r']|e]; [|apply (K u), N]. cbn [fst]. apply (K u _ N).
    + destruct (go_on _ q); apply (K u), N.
    + destruct (go_on _ q); [apply (K u), N|]. destruct (v <- r ;; _); apply (K u), N.
    + apply (K u), N.
  - apply (K u), N.
Qed.
(** A task inside a call, which stays inside it: only its own turns change anything for it. *)
Lemma id_act_own : forall m a t x, mk_tasks m t = Some x -> mk_tasks (fst (id_act m a)) t <> None ->
  mk_tasks (fst (id_act m a)) t = Some x \/ exists now token, a = IdResume t now token.
Proof.
  intros m a t x E B. destruct (Nat.eq_dec (about a) t) as [A|N].
  - destruct a as [u k|u k now token|u now token|u]; cbn [about] in A; subst u.
    + left. cbn [id_act]. rewrite E. exact E.
    + left. cbn [id_act]. rewrite E. exact E.
    + right. now exists now, token.
    + exfalso. apply B. cbn. rewrite Nat.eqb_refl. reflexivity.
  - left. rewrite id_act_others by exact N. exact E.
Qed.

(** What is known of a suspended call to read [b]. *)
Definition reading_on (g : guid) (b : bytes) (p : id_pending) : Prop :=
  match p with
  | Unblinding q =>
    (v <- finish (gd_perm g) q ;; raw <- z_to_bytes (gd_size g) BigEndian v ;;
     raw_read (rg_config (gd_raw g)) raw) = guid_read g b
  | Parsing raw => raw_read (rg_config (gd_raw g)) raw = guid_read g b
  | _ => False
  end.
Definition read_followed (g : guid) (t : nat) (b : bytes) (m : maker) : Prop :=
  id_frame g (mk_guid m) /\ exists p, mk_tasks m t = Some (Read b, p) /\ reading_on g b p.

Lemma id_act_read : forall g t b m a, read_followed g t b m -> mk_tasks (fst (id_act m a)) t <> None ->
  read_followed g t b (fst (id_act m a)).
Proof.
  intros g t b m a ((Z1 & Z2 & Z3) & p & E & C) B. split.
  { apply (id_frame_trans g (mk_guid m)); [repeat split; assumption|apply id_act_frame]. }
  destruct (id_act_own m a t _ E B) as [S|(now & token & ->)]; [exists p; split; assumption|].
  cbn [id_act] in *. rewrite E in *. destruct p as [|q|q|raw]; cbn [reading_on] in C; try contradiction; cbn [id_resume] in *.
  - destruct (go_on (gd_perm (mk_guid m)) q) as [q'|r] eqn:G.
    + exists (Unblinding q'). split; [cbn; rewrite Nat.eqb_refl; reflexivity|].
      cbn [reading_on]. rewrite Z2 in G. rewrite (go_on_waits _ _ _ G). exact C.
    + apply go_on_returns in G. subst r. rewrite Z1, Z2 in *.
      destruct (finish (gd_perm g) q) as [v|e]; cbn [bind] in *.
      2:{ exfalso. apply B. cbn. rewrite Nat.eqb_refl. reflexivity. }
      destruct (z_to_bytes (gd_size g) BigEndian v) as [raw|e]; cbn [bind] in *.
      2:{ exfalso. apply B. cbn. rewrite Nat.eqb_refl. reflexivity. }
      exists (Parsing raw). split; [cbn; rewrite Nat.eqb_refl; reflexivity|]. exact C.
  - exfalso. apply B. cbn. rewrite Nat.eqb_refl. reflexivity.
Qed.
Lemma id_run_read : forall l g t b m, read_followed g t b m ->
  (forall l3 l4, l = l3 ++ l4 -> mk_tasks (fst (id_run m l3)) t <> None) ->
  read_followed g t b (fst (id_run m l)).
Proof.
  induction l as [|a l IH]; intros g t b m H B; [exact H|]. rewrite id_run_cons. cbn [fst]. apply IH.
  - apply id_act_read; [exact H|]. specialize (B [a] l eq_refl). rewrite id_run_cons in B. exact B.
  - intros l3 l4 E. specialize (B (a :: l3) l4 ltac:(rewrite E; reflexivity)). rewrite id_run_cons in B. exact B.
Qed.
Lemma read_ends : forall g t b m now token r, read_followed g t b m ->
  snd (id_act m (IdResume t now token)) = [(t, Read b, r)] -> r = (c <- guid_read g b ;; Ok (Parsed c)).
Proof.
  intros g t b m now token r ((Z1 & Z2 & Z3) & p & E & C) H. cbn [id_act] in H. rewrite E in H.
  destruct p as [|q|q|raw]; cbn [reading_on] in C; try contradiction; cbn [id_resume] in H.
  - destruct (go_on (gd_perm (mk_guid m)) q) as [q'|x] eqn:G; [discriminate H|].
    apply go_on_returns in G. subst x. rewrite Z1, Z2 in H.
    destruct (finish (gd_perm g) q) as [v|e]; cbn [bind] in *.
    2:{ cbn [snd] in H. injection H as <-. rewrite <- C. reflexivity. }
    destruct (z_to_bytes (gd_size g) BigEndian v) as [raw|e]; cbn [bind] in *; [discriminate H|].
    cbn [snd] in H. injection H as <-. rewrite <- C. reflexivity.
  - cbn [snd] in H. injection H as <-. rewrite Z3, C. reflexivity.
Qed.

(** What is known of a suspended call for a new GUID, made after [n0] draws. *)
Definition new_on (g : guid) (t n0 : nat) (d : list call) (m : maker) : Prop :=
  (n0 <= length d)%nat /\
  (mk_tasks m t = Some (New, Drawing) \/
   exists q i, mk_tasks m t = Some (New, Blinding q) /\ (n0 <= i)%nat /\
     nth_error (guid_run g d) i = Some (out_bytes g (finish (gd_perm g) q))).

Lemma nth_error_grow : forall (A : Type) (a b : list A) i x, nth_error a i = Some x -> nth_error (a ++ b) i = Some x.
Proof.
  intros A a b i x H. rewrite nth_error_app1; [exact H|]. apply nth_error_Some. rewrite H. discriminate.
Qed.
Lemma guid_run_grow : forall g a b i x, nth_error (guid_run g a) i = Some x -> nth_error (guid_run g (a ++ b)) i = Some x.
Proof. intros. rewrite guid_run_app. apply nth_error_grow. assumption. Qed.
Lemma guid_run_last : forall g d c, nth_error (guid_run g (d ++ [c])) (length d) = Some (fst (one_new (guid_after g d) c)).
Proof.
  intros g d c. rewrite guid_run_app, nth_error_app2; rewrite guid_run_length; [|lia].
  rewrite Nat.sub_diag, guid_run_cons. reflexivity.
Qed.

Lemma id_act_new : forall cid g t n0 d es m a, wf_guid cid g -> Forall (good_token cid) (d ++ drawn m a) ->
  accounted g m d es -> new_on g t n0 d m -> mk_tasks (fst (id_act m a)) t <> None ->
  new_on g t n0 (d ++ drawn m a) (fst (id_act m a)).
Proof.
  intros cid g t n0 d es m a W F (T & G & _) (L & C) B. split; [rewrite app_length; lia|].
  assert (X : exists x, mk_tasks m t = Some x) by (destruct C as [E|(q & i & E & _)]; eexists; exact E).
  destruct X as [x Ex].
  destruct (id_act_own m a t _ Ex B) as [S|(now & token & ->)].
  { rewrite S, <- Ex. destruct C as [E|(q & i & E & I & H)]; [left; exact E|right].
    exists q, i. split; [exact E|]. split; [exact I|]. apply guid_run_grow, H. }
  clear x Ex. apply Forall_app in F. destruct F as [Fd Fa].
  destruct (guid_after_wf cid d g W Fd) as (Wd & (Z1 & Z2 & Z3)). rewrite <- G in *.
  destruct C as [E|(q & i & E & I & H)]; cbn [id_act drawn] in *; rewrite E in *; cbn [id_resume] in *.
  - right. inversion Fa as [|? ? F1 _]; subst. pose proof (draw_new cid (mk_guid m) now token Wd F1) as D.
    destruct (raw_new (gd_raw (mk_guid m)) now token) as [[raw r']|e].
    2:{ exfalso. apply B. cbn. rewrite Nat.eqb_refl. reflexivity. }
    destruct D as (D & _). eexists. exists (length d). split; [cbn; rewrite Nat.eqb_refl; reflexivity|].
    split; [exact L|]. rewrite guid_run_last, <- G. rewrite D. cbn [fst]. unfold out_bytes. rewrite Z1, Z2. reflexivity.
  - rewrite app_nil_r. right.
    destruct (go_on (gd_perm (mk_guid m)) q) as [q'|r] eqn:GO.
    2:{ exfalso. apply B. cbn. rewrite Nat.eqb_refl. reflexivity. }
    exists q', i. split; [cbn; rewrite Nat.eqb_refl; reflexivity|]. split; [exact I|].
    rewrite Z2 in GO. rewrite (go_on_waits _ _ _ GO). exact H.
Qed.
Lemma id_run_new : forall cid l g t n0 d es m, wf_guid cid g -> Forall (good_token cid) (d ++ draws_from m l) ->
  accounted g m d es -> new_on g t n0 d m ->
  (forall l3 l4, l = l3 ++ l4 -> mk_tasks (fst (id_run m l3)) t <> None) ->
  new_on g t n0 (d ++ draws_from m l) (fst (id_run m l)).
Proof.
  intro cid. induction l as [|a l IH]; intros g t n0 d es m W F A H B.
  - cbn [draws_from id_run fst]. rewrite app_nil_r. exact H.
  - rewrite id_run_cons. cbn [fst draws_from] in *. rewrite app_assoc in *.
    assert (F1 : Forall (good_token cid) (d ++ drawn m a)) by (apply Forall_app in F; exact (proj1 F)).
    apply (IH _ _ _ _ (es ++ snd (id_act m a))); [exact W|exact F| | |].
    + apply (id_act_accounted cid); assumption.
    + apply (id_act_new cid _ _ _ _ es); try assumption.
      specialize (B [a] l eq_refl). rewrite id_run_cons in B. exact B.
    + intros l3 l4 E. specialize (B (a :: l3) l4 ltac:(rewrite E; reflexivity)). rewrite id_run_cons in B. exact B.
Qed.
(** How the call ends: the result, as one of the results of the history. *)
Definition as_id (r : result bytes) : result id_answer := b <- r ;; Ok (Identifier b).
Lemma new_ends : forall cid g t n0 d es m now token r, wf_guid cid g ->
  Forall (good_token cid) (d ++ drawn m (IdResume t now token)) ->
  accounted g m d es -> new_on g t n0 d m ->
  snd (id_act m (IdResume t now token)) = [(t, New, r)] ->
  exists i x, (n0 <= i)%nat /\ nth_error (guid_run g (d ++ drawn m (IdResume t now token))) i = Some x /\ r = as_id x.
Proof.
  intros cid g t n0 d es m now token r W F (T & G & _) (L & C) H. cbn [id_act drawn] in *.
  apply Forall_app in F. destruct F as [Fd Fa].
  destruct (guid_after_wf cid d g W Fd) as (Wd & (Z1 & Z2 & Z3)). rewrite <- G in *.
  destruct C as [E|(q & i & E & I & N)]; rewrite E in *; cbn [id_resume] in H.
  - inversion Fa as [|? ? F1 _]; subst. pose proof (draw_new cid (mk_guid m) now token Wd F1) as D.
    destruct (raw_new (gd_raw (mk_guid m)) now token) as [[raw r']|e]; [discriminate H|].
    cbn [snd] in H. injection H as <-. exists (length d), (Err e). split; [exact L|]. split; [|reflexivity].
    rewrite guid_run_last, <- G. rewrite D. reflexivity.
  - destruct (go_on (gd_perm (mk_guid m)) q) as [q'|x] eqn:GO; [discriminate H|]. cbn [snd] in H. injection H as <-.
    apply go_on_returns in GO. subst x. rewrite app_nil_r. exists i. eexists. split; [exact I|].
    split; [exact N|]. unfold blinded, as_id, out_bytes. rewrite Z1, Z2.
    destruct (finish (gd_perm g) q) as [v|e]; reflexivity.
Qed.
