(** * Proofs about databases with mutable values *)
From Coq Require Import Lia.
From Verif Require Import Base AliasModel AliasSpec.

Section Alias.
Context {A K : Type}.
Variable limit : nat.
Notation heap := (heap A K).
Notation tree := (tree A K).
Notation base := (base A K).
Notation op := (op A K).
Notation step := (step A K limit).
Notation run := (run A K limit).
Notation memory := (memory A K).
Notation cache := (cache A K).
Notation files := (files A K).

Fixpoint tree_rect2 (P : tree -> Prop) (f : forall x, P (TAtom A K x))
    (g : forall ts, Forall (fun p => P (snd p)) ts -> P (TMany A K ts)) (t : tree) : P t :=
  match t with
  | TAtom _ _ x => f x
  | TMany _ _ ts => g ts ((fix go ts := match ts return Forall (fun p => P (snd p)) ts with
      | [] => Forall_nil _
      | p :: ts => Forall_cons p (tree_rect2 P f g (snd p)) (go ts)
      end) ts)
  end.

Scheme looks_min := Minimality for looks Sort Prop with looks_all_min := Minimality for looks_all Sort Prop.
Combined Scheme looks_both from looks_min, looks_all_min.

(** What is not changed looks as before. *)
Lemma looks_same (P Q : nat -> Prop) (h h' : heap) :
  (forall x, P x -> Q x) -> (forall x y, P x -> nth_error h x = Some y -> nth_error h' x = Some y) ->
  (forall a t, looks P h a t -> looks Q h' a t) /\ (forall l ts, looks_all P h l ts -> looks_all Q h' l ts).
Proof.
  intros I S. apply looks_both; intros.
  - apply looks_atom; auto.
  - eapply looks_many; eauto.
  - constructor.
  - constructor; auto.
Qed.
Lemma looks_any P (h : heap) a t : looks P h a t -> looks any h a t.
Proof. apply (proj1 (looks_same P any h h (fun _ _ => I) (fun _ _ _ H => H))). Qed.
(** A part of the memory that refers only to itself. *)
Lemma looks_within (h : heap) n : (forall a x c, a < n -> nth_error h a = Some x -> In c (parts A K x) -> c < n) ->
  (forall a t, looks any h a t -> a < n -> looks (fun x => x < n) h a t) /\
  (forall l ts, looks_all any h l ts -> (forall c, In c (map snd l) -> c < n) -> looks_all (fun x => x < n) h l ts).
Proof.
  intros C. apply looks_both; intros.
  - apply looks_atom; auto.
  - eapply looks_many; eauto.
  - constructor.
  - constructor; [apply H0|apply H2]; intros; [apply H3; left; reflexivity|apply H3; right; assumption].
Qed.

Lemma nth_grown {X} (h more : list X) x y : nth_error h x = Some y -> nth_error (h ++ more) x = Some y.
Proof. intros E. rewrite nth_error_app1; [exact E|]. apply nth_error_Some. congruence. Qed.
Lemma nth_last {X} (h : list X) y : nth_error (h ++ [y]) (length h) = Some y.
Proof. rewrite nth_error_app2, Nat.sub_diag by lia. reflexivity. Qed.

(** New objects. *)
Fixpoint loads_all (ts : list (K * tree)) (h : heap) : list (K * nat) * heap :=
  match ts with
  | [] => ([], h)
  | (k, t) :: ts =>
      let '(a, h) := loads A K t h in
      let '(l, h) := loads_all ts h in
      ((k, a) :: l, h)
  end.
Lemma loads_many ts h : loads A K (TMany A K ts) h = let '(l, h) := loads_all ts h in (length h, h ++ [Many A K l]).
Proof.
  cbn. assert (E : forall ts h, (fix go ts (h : heap) := match ts with [] => ([], h) | (k, t) :: ts =>
     let '(a, h) := loads A K t h in let '(l, h) := go ts h in ((k, a) :: l, h) end) ts h = loads_all ts h).
  { clear. induction ts as [|[k t] ts IH]; intros h; cbn; [reflexivity|]. destruct (loads A K t h) as [a h1]. rewrite IH. reflexivity. }
  rewrite E. reflexivity.
Qed.
Definition made (h h' : heap) (x : nat) : Prop := length h <= x < length h'.
Lemma loads_looks t : forall h a h', loads A K t h = (a, h') ->
  (exists more, h' = h ++ more) /\ looks (made h h') h' a t /\ a < length h' /\
  (forall x y c, length h <= x -> nth_error h' x = Some y -> In c (parts A K y) -> c < length h').
Proof.
  induction t as [x|ts IH] using tree_rect2; intros h a h' E.
  - cbn in E. injection E as <- <-. split; [eauto|]. rewrite app_length. cbn. split; [|split; [lia|]].
    + apply looks_atom; [unfold made; rewrite app_length; cbn; lia|apply nth_last].
    + intros y z c L N I. rewrite nth_error_app2 in N by exact L. destruct (y - length h) as [|[|]]; try discriminate.
      injection N as <-. destruct I.
  - rewrite loads_many in E. destruct (loads_all ts h) as [l h1] eqn:L. injection E as <- <-.
    assert (G : (exists more, h1 = h ++ more) /\ looks_all (made h h1) h1 l ts /\ (forall c, In c (map snd l) -> c < length h1) /\
      (forall x y c, length h <= x -> nth_error h1 x = Some y -> In c (parts A K y) -> c < length h1)).
    { clear - IH L. revert h l h1 L. induction IH as [|[k t] ts It _ IH]; intros h l h1 L; cbn in L.
      - injection L as <- <-. split; [exists []; symmetry; apply app_nil_r|]. split; [constructor|]. split; [intros c []|].
        intros x y c Lx N. assert (x < length h) by (apply nth_error_Some; congruence). lia.
      - destruct (loads A K t h) as [a h2] eqn:E. destruct (loads_all ts h2) as [l2 h3] eqn:E2. injection L as <- <-.
        destruct (It _ _ _ E) as ((m1 & M1) & L1 & B1 & C1). destruct (IH _ _ _ E2) as ((m2 & M2) & L2 & B2 & C2).
        assert (Len : length h <= length h2 /\ length h2 <= length h3) by (subst h3 h2; rewrite !app_length; lia).
        split; [exists (m1 ++ m2); subst; symmetry; apply app_assoc|]. split; [|split].
        + constructor.
          * eapply (proj1 (looks_same (made h h2) (made h h3) h2 h3 _ _)); exact L1.
            Unshelve. { unfold made. intros; lia. } { intros x y _ N. subst h3. apply nth_grown, N. }
          * eapply (proj2 (looks_same (made h2 h3) (made h h3) h3 h3 _ _)); exact L2.
            Unshelve. { unfold made. intros; lia. } { intros x y _ N. exact N. }
        + intros c [<-|I]; [cbn; lia|apply B2, I].
        + intros x y c Lx N I. destruct (Nat.lt_ge_cases x (length h2)) as [Lt|Ge]; [|eapply C2; eauto].
          assert (N2 : nth_error h2 x = Some y) by (rewrite M2, nth_error_app1 in N by exact Lt; exact N).
          specialize (C1 _ _ _ Lx N2 I). lia. }
    destruct G as ((m & M) & Lk & B & C).
    assert (Len : length h <= length h1) by (subst h1; rewrite app_length; lia).
    split; [exists (m ++ [Many A K l]); rewrite M; symmetry; apply app_assoc|]. rewrite app_length. cbn. split; [|split; [lia|]].
    + eapply looks_many; [unfold made; rewrite app_length; cbn; lia|apply nth_last|].
      eapply (proj2 (looks_same (made h h1) _ h1 _ _ _)); exact Lk.
      Unshelve. { unfold made. rewrite app_length. cbn. intros; lia. } { intros x y _ N. apply nth_grown, N. }
    + intros x y c Lx N I. destruct (Nat.lt_ge_cases x (length h1)) as [Lt|Ge].
      * rewrite nth_error_app1 in N by exact Lt. specialize (C _ _ _ Lx N I). lia.
      * rewrite nth_error_app2 in N by exact Ge. destruct (x - length h1) as [|[|]]; try discriminate. injection N as <-.
        cbn in I. specialize (B _ I). lia.
Qed.

(** Texts. *)
Lemma dumps_looks f : forall (h : heap) a t, dumps A K f h a = Some t -> looks any h a t.
Proof.
  induction f as [|f IH]; intros h a t E; cbn in E; [discriminate|].
  destruct (nth_error h a) as [[x|l]|] eqn:N; try discriminate.
  - injection E as <-. apply looks_atom; [exact I|exact N].
  - destruct (all_of _) as [ts|] eqn:L; cbn in E; [|discriminate]. injection E as <-.
    eapply looks_many; [exact I|exact N|]. clear N. revert ts L. induction l as [|[k c] l IHl]; cbn; intros ts L.
    + injection L as <-. constructor.
    + destruct (dumps A K f h c) as [t|] eqn:D; cbn in L; [|discriminate].
      destruct (all_of _) as [r|] eqn:R; [|discriminate]. injection L as <-. constructor; [apply IH, D|apply IHl; reflexivity].
Qed.
Lemma looks_dumps (h : heap) :
  (forall a t, looks any h a t -> forall f, depth t <= f -> dumps A K f h a = Some t) /\
  (forall l ts, looks_all any h l ts -> forall f, fold_right (fun p => Nat.max (depth (snd p))) 0 ts <= f ->
     all_of (map (fun p => option_map (pair (fst p)) (dumps A K f h (snd p))) l) = Some ts).
Proof.
  apply looks_both.
  - intros a x _ N f L. cbn in L. destruct f; [lia|]. cbn. rewrite N. reflexivity.
  - intros a l ts _ N _ IH f L. cbn in L. destruct f; [lia|]. cbn. rewrite N, IH by lia. reflexivity.
  - reflexivity.
  - intros k a t l ts _ IH1 _ IH2 f L. cbn in L |- *. rewrite IH1, IH2 by lia. reflexivity.
Qed.
Lemma looks_unique (h : heap) :
  (forall a t, looks any h a t -> forall u, looks any h a u -> u = t) /\
  (forall l ts, looks_all any h l ts -> forall us, looks_all any h l us -> us = ts).
Proof.
  apply looks_both.
  - intros a x _ N u U. inversion U; subst; congruence.
  - intros a l ts _ N _ IH u U. inversion U; subst; [congruence|]. assert (l0 = l) as -> by congruence. f_equal. auto.
  - intros us U. inversion U. reflexivity.
  - intros k a t l ts _ IH1 _ IH2 us U. inversion U; subst. f_equal; [f_equal|]; auto.
Qed.

(** The cache. *)
Lemma get_put n m a c : get n (put m a c) = if Nat.eqb m n then Some a else get n c.
Proof.
  induction c as [|[k b] c IH]; cbn; [reflexivity|].
  destruct (Nat.eqb_spec k m) as [->|F]; cbn; [destruct (Nat.eqb_spec m n); reflexivity|].
  rewrite IH. destruct (Nat.eqb_spec k n) as [->|], (Nat.eqb_spec m n) as [->|]; congruence.
Qed.
Lemma get_del n m c : get n (del m c) = if Nat.eqb m n then None else get n c.
Proof.
  unfold del in *. induction c as [|[k b] c IH]; cbn; [destruct (m =? n); reflexivity|].
  destruct (Nat.eqb_spec k m) as [->|F]; cbn; rewrite IH; [destruct (Nat.eqb_spec m n); reflexivity|].
  destruct (Nat.eqb_spec k n) as [->|], (Nat.eqb_spec m n) as [->|]; congruence.
Qed.
Lemma keys_put n a c : NoDup (map fst c) -> NoDup (map fst (put n a c)).
Proof.
  assert (I : forall c x, In x (map fst (put n a c)) -> x = n \/ In x (map fst c)).
  { clear. induction c as [|[k b] c IH]; cbn; intros x H; [destruct H; auto|].
    destruct (k =? n); cbn in H; destruct H as [H|H]; auto. destruct (IH _ H); auto. }
  induction c as [|[k b] c IH]; cbn; intros N; [repeat constructor; auto|].
  inversion N; subst. destruct (Nat.eqb_spec k n) as [->|F]; cbn; [exact N|]. constructor; [|auto].
  intros H. apply I in H as [H|H]; congruence.
Qed.
Lemma keys_del n c : NoDup (map fst c) -> NoDup (map fst (del n c)).
Proof.
  induction c as [|[k b] c IH]; cbn; intros N; [constructor|]. inversion N; subst.
  destruct (negb (k =? n)); cbn; [|auto]. constructor; [|auto]. intros H. apply H1.
  apply in_map_iff in H as ([k' b'] & <- & H). apply filter_In in H as (H & _). apply in_map_iff. exists (k', b'). auto.
Qed.
Lemma nth_replaced {X} i (x : X) l y : nth_error l i = Some y -> nth_error (replace i x l) i = Some x.
Proof. revert i. induction l as [|z l IH]; intros [|i] H; cbn in *; try discriminate; eauto. Qed.
Lemma nth_others {X} i j (x : X) l : i <> j -> nth_error (replace i x l) j = nth_error l j.
Proof. revert i j. induction l as [|z l IH]; intros [|i] [|j] H; cbn in *; auto; try congruence. Qed.
Lemma replace_length {X} i (x : X) l : length (replace i x l) = length l.
Proof. revert i. induction l as [|z l IH]; intros [|i]; cbn; auto. Qed.

(** What calls do to the memory: they add to it. *)
Definition grows (b b' : base) : Prop := exists more, memory b' = memory b ++ more.
Lemma grows_refl b : grows b b.
Proof. exists []. symmetry. apply app_nil_r. Qed.
Lemma save_file_memory n b b' r : save_file A K limit n b = (b', r) -> memory b' = memory b /\ cache b' = cache b.
Proof.
  unfold save_file. destruct (get n (cache b)); [destruct (dumps A K limit (memory b) n0)|]; injection 1 as <- <-; auto.
Qed.
Lemma save_tag_memory n d b b' r : save_tag A K limit n d b = (b', r) -> memory b' = memory b /\ cache b' = (if d then del n (cache b) else cache b).
Proof.
  unfold save_tag. destruct (save_file A K limit n b) as [b1 r1] eqn:E. destruct (save_file_memory _ _ _ _ E) as (M & C).
  injection 1 as <- <-. destruct d; cbn; rewrite ?C; auto.
Qed.
Lemma save_tags_memory ns : forall b b' r, save_tags A K limit ns b = (b', r) -> memory b' = memory b /\ cache b' = cache b.
Proof.
  induction ns as [|n ns IH]; intros b b' r E; cbn in E; [injection E as <- <-; auto|].
  destruct (save_file A K limit n b) as [b1 r1] eqn:S. destruct (save_file_memory _ _ _ _ S) as (M & C).
  destruct r1; try (injection E as <- <-; auto); destruct (IH _ _ _ E) as (M' & C'); split; congruence.
Qed.
Lemma query_memory n s c b b' r : query_tag A K n s c b = (b', r) -> grows b b' /\ files b' = files b /\ manifest A K b' = manifest A K b.
Proof.
  unfold query_tag. destruct (get n (cache b)) as [a|]; [injection 1 as <- <-; split; [apply grows_refl|auto]|].
  destruct (files b n) as [t|]; [|injection 1 as <- <-; split; [apply grows_refl|auto]].
  destruct (loads A K t (memory b)) as [a h] eqn:L. destruct (loads_looks _ _ _ _ L) as (G & _).
  destruct c; injection 1 as <- <-; (split; [exact G|auto]).
Qed.

(** The three invariants that make a database sound. *)
Definition closed (h : heap) : Prop := forall a x c, nth_error h a = Some x -> In c (parts A K x) -> c < length h.
Lemma query_sound n s c (b b' : base) r : query_tag A K n s c b = (b', r) -> sound b -> sound b'.
Proof.
  unfold query_tag. intros E (C & G & N). destruct (get n (cache b)) as [a|] eqn:Gn; [injection E as <- <-; split; auto|].
  destruct (files b n) as [t|]; [|injection E as <- <-; split; auto].
  destruct (loads A K t (memory b)) as [a h] eqn:L. destruct (loads_looks _ _ _ _ L) as ((more & M) & _ & La & Cl).
  assert (Len : length (memory b) <= length h) by (subst h; rewrite app_length; lia).
  assert (Ch : closed h).
  { intros x y z Nx I. destruct (Nat.lt_ge_cases x (length (memory b))) as [Lt|Ge]; [|eapply Cl; eauto].
    assert (nth_error (memory b) x = Some y) by (rewrite M, nth_error_app1 in Nx by exact Lt; exact Nx).
    specialize (C _ _ _ H I). lia. }
  assert (Gh : forall m z, get m (cache b) = Some z -> z < length h) by (intros m z H; specialize (G _ _ H); lia).
  destruct c; injection E as <- <-; (split; [exact Ch|split]); cbn; auto.
  - intros m z H. rewrite get_put in H. destruct (n =? m); [injection H as <-; exact La|eauto].
  - apply keys_put, N.
Qed.
Lemma sound_cache (b b' : base) : memory b' = memory b -> (forall n a, get n (cache b') = Some a -> get n (cache b) = Some a) ->
  NoDup (map fst (cache b')) -> sound b -> sound b'.
Proof. intros M G N (C & Gb & _). unfold sound. rewrite M. split; [exact C|split; [eauto|exact N]]. Qed.
Lemma got_del n m c a : get n (del m c) = Some a -> get n c = Some a.
Proof. rewrite get_del. destruct (m =? n); [discriminate|auto]. Qed.
Lemma step_sound o (b b' : base) r : step o b = (b', r) -> sound b -> sound b'.
Proof.
  intros E S. pose proof S as (C & G & N). destruct o as [x|a x|n a c|n s c|n|n d| |n c| |n s]; cbn -[Nat.ltb] in E.
  - destruct (forallb _ _) eqn:F; injection E as <- <-; [|exact S]. rewrite forallb_forall in F.
    unfold sound. cbn. rewrite app_length. cbn. split; [|split; [|exact N]].
    + intros y z c Ny I. destruct (Nat.lt_ge_cases y (length (memory b))) as [Lt|Ge].
      * rewrite nth_error_app1 in Ny by exact Lt. specialize (C _ _ _ Ny I). lia.
      * rewrite nth_error_app2 in Ny by exact Ge. destruct (y - length (memory b)) as [|[|]]; try discriminate. injection Ny as <-.
        apply F in I. apply Nat.ltb_lt in I. lia.
    + intros m z H. specialize (G _ _ H). lia.
  - destruct (forallb _ _) eqn:F; injection E as <- <-; [|exact S]. rewrite forallb_forall in F.
    unfold sound. cbn. rewrite replace_length. split; [|split; [exact G|exact N]].
    intros y z c Ny I. destruct (Nat.eq_dec a y) as [->|Fa].
    + destruct (nth_error (memory b) y) as [w|] eqn:W.
      * rewrite (nth_replaced _ _ _ _ W) in Ny. injection Ny as <-. apply F in I. apply Nat.ltb_lt in I. exact I.
      * exfalso. apply nth_error_None in W. assert (y < length (replace y x (memory b))) by (apply nth_error_Some; congruence).
        rewrite replace_length in H. lia.
    + rewrite nth_others in Ny by exact Fa. eapply C; eauto.
  - destruct (Nat.ltb_spec a (length (memory b))) as [La|]; [|injection E as <- <-; exact S].
    unfold set_tag in E.
    set (b1 := with_manifest A K _ _) in E.
    assert (S1 : sound b1).
    { unfold sound, b1. cbn. split; [exact C|split; [|apply keys_put, N]]. intros m z H. rewrite get_put in H.
      destruct (n =? m); [injection H as <-; exact La|eauto]. }
    destruct c; [injection E as <- <-; exact S1|]. destruct (save_tag_memory _ _ _ _ _ E) as (M & Cc).
    apply (sound_cache b1); auto; rewrite Cc; [intros; eapply got_del; eauto|apply keys_del, S1].
  - eapply query_sound; eauto.
  - injection E as <- <-. exact S.
  - destruct (save_tag_memory _ _ _ _ _ E) as (M & Cc). apply (sound_cache b); auto; rewrite Cc; destruct d; auto;
      [intros; eapply got_del; eauto|apply keys_del, N].
  - destruct (save_tags_memory _ _ _ _ E) as (M & Cc). apply (sound_cache b); auto; rewrite Cc; auto.
  - unfold rollback_tag in E. set (b1 := match files b n with None => _ | Some _ => b end) in E.
    assert (M1 : memory b1 = memory b /\ cache b1 = cache b) by (unfold b1; destruct (files b n); auto). destruct M1 as (M1 & C1).
    set (b2 := with_cache A K _ _) in E.
    assert (S2 : sound b2) by (apply (sound_cache b); auto; unfold b2; cbn; rewrite C1; [intros; eapply got_del; eauto|apply keys_del, N]).
    destruct c; injection E as <- <-; [|exact S2].
    destruct (query_tag A K n false true b2) as [b3 r3] eqn:Q. eapply query_sound; eauto.
  - injection E as <- <-. apply (sound_cache b); auto; cbn; [discriminate|constructor].
  - unfold pop_tag in E. destruct (query_tag A K n true false b) as [b1 v] eqn:Q. pose proof (query_sound _ _ _ _ _ _ Q S) as S1.
    injection E as <- _. apply (sound_cache b1); auto; cbn; [intros; eapply got_del; eauto|apply keys_del, S1].
Qed.
Lemma run_sound os : forall b : base, sound b -> sound (run os b).
Proof. induction os as [|o os IH]; intros b S; cbn; [exact S|]. apply IH. destruct (step o b) eqn:E. eapply step_sound; eauto. Qed.

(** Objects that the user does not change. *)
Lemma step_spares P o (b b' : base) r : step o b = (b', r) -> spares P o ->
  forall x y, P x -> nth_error (memory b) x = Some y -> nth_error (memory b') x = Some y.
Proof.
  intros E S x y Px N. destruct o as [z|a z|n a c|n s c|n|n d| |n c| |n s]; cbn -[Nat.ltb] in E.
  - destruct (forallb _ _); injection E as <- <-; [cbn; apply nth_grown|]; exact N.
  - destruct (forallb _ _); injection E as <- <-; [|exact N]. cbn. rewrite nth_others; [exact N|]. cbn in S. intros ->. contradiction.
  - destruct (a <? length (memory b)); [|injection E as <- <-; exact N]. unfold set_tag in E.
    destruct c; [injection E as <- <-; exact N|]. destruct (save_tag_memory _ _ _ _ _ E) as (-> & _). exact N.
  - destruct (query_memory _ _ _ _ _ _ E) as ((m & ->) & _). apply nth_grown, N.
  - injection E as <- <-. exact N.
  - destruct (save_tag_memory _ _ _ _ _ E) as (-> & _). exact N.
  - destruct (save_tags_memory _ _ _ _ E) as (-> & _). exact N.
  - unfold rollback_tag in E. set (b1 := match files b n with None => _ | Some _ => b end) in E.
    assert (M1 : memory b1 = memory b) by (unfold b1; destruct (files b n); auto).
    set (b2 := with_cache A K _ _) in E. assert (M2 : memory b2 = memory b) by exact M1.
    destruct c; injection E as <- <-; [|rewrite M2; exact N].
    destruct (query_tag A K n false true b2) as [b3 r3] eqn:Q. destruct (query_memory _ _ _ _ _ _ Q) as ((m & M) & _). cbn. rewrite M.
    apply nth_grown. rewrite M2. exact N.
  - injection E as <- <-. exact N.
  - unfold pop_tag in E. destruct (query_tag A K n true false b) as [b1 v] eqn:Q. injection E as <- _. cbn.
    destruct (query_memory _ _ _ _ _ _ Q) as ((m & ->) & _). apply nth_grown, N.
Qed.
Lemma run_spares P os : forall b : base, Forall (spares P) os -> forall x y, P x -> nth_error (memory b) x = Some y -> nth_error (memory (run os b)) x = Some y.
Proof.
  induction os as [|o os IH]; intros b S x y Px N; cbn; [exact N|]. inversion S; subst. destruct (step o b) as [b1 r] eqn:E. cbn.
  apply IH; auto. eapply step_spares; eauto.
Qed.
Lemma run_looks P os (b : base) a t : Forall (spares P) os -> looks P (memory b) a t -> looks P (memory (run os b)) a t.
Proof. intros S. apply (proj1 (looks_same P P _ _ (fun _ H => H) (run_spares P os b S))). Qed.

(** Files. *)
Lemma save_file_files n m b b' r : save_file A K limit n b = (b', r) -> n <> m -> files b' m = files b m.
Proof.
  unfold save_file. intros E F. destruct (get n (cache b)); [destruct (dumps A K limit (memory b) n0)|]; injection E as <- <-; auto.
  cbn. destruct (Nat.eqb_spec m n); congruence.
Qed.
Lemma save_tag_files n m d b b' r : save_tag A K limit n d b = (b', r) -> n <> m -> files b' m = files b m.
Proof.
  unfold save_tag. destruct (save_file A K limit n b) as [b1 r1] eqn:E. intros H F. rewrite <- (save_file_files _ _ _ _ _ E F).
  injection H as <- <-. destruct d; reflexivity.
Qed.
Lemma step_files m o (b b' : base) r : step o b = (b', r) -> ~ stores m o -> files b' m = files b m.
Proof.
  intros E S. destruct o as [z|a z|n a c|n s c|n|n d| |n c| |n s]; cbn -[Nat.ltb] in E, S.
  - destruct (forallb _ _); injection E as <- <-; reflexivity.
  - destruct (forallb _ _); injection E as <- <-; reflexivity.
  - destruct (a <? length (memory b)); [|injection E as <- <-; reflexivity]. unfold set_tag in E.
    destruct c; [injection E as <- <-; reflexivity|]. rewrite (save_tag_files _ m _ _ _ _ E); [reflexivity|]. intros ->. tauto.
  - destruct (query_memory _ _ _ _ _ _ E) as (_ & -> & _). reflexivity.
  - injection E as <- <-. reflexivity.
  - apply (save_tag_files _ m _ _ _ _ E). auto.
  - tauto.
  - unfold rollback_tag in E. set (b1 := match files b n with None => _ | Some _ => b end) in E.
    assert (F1 : files b1 = files b) by (unfold b1; destruct (files b n); auto).
    set (b2 := with_cache A K _ _) in E. assert (F2 : files b2 = files b) by exact F1.
    destruct c; injection E as <- <-; [|rewrite F2; reflexivity].
    destruct (query_tag A K n false true b2) as [b3 r3] eqn:Q. destruct (query_memory _ _ _ _ _ _ Q) as (_ & F & _). cbn. rewrite F, F2. reflexivity.
  - injection E as <- <-. reflexivity.
  - unfold pop_tag in E. destruct (query_tag A K n true false b) as [b1 v] eqn:Q. injection E as <- _. cbn.
    destruct (query_memory _ _ _ _ _ _ Q) as (_ & -> & _). destruct (Nat.eqb_spec m n); congruence.
Qed.
Lemma run_files m os : forall b : base, Forall (fun o => ~ stores m o) os -> files (run os b) m = files b m.
Proof.
  induction os as [|o os IH]; intros b S; cbn; [reflexivity|]. inversion S; subst. destruct (step o b) as [b1 r] eqn:E. cbn.
  rewrite IH by assumption. eapply step_files; eauto.
Qed.

(** The cache. *)
Lemma query_cached n m s c (b b' : base) r a : query_tag A K n s c b = (b', r) -> get m (cache b) = Some a -> get m (cache b') = Some a.
Proof.
  unfold query_tag. intros E G. destruct (get n (cache b)) as [x|] eqn:Gn; [injection E as <- <-; exact G|].
  destruct (files b n) as [t|]; [|injection E as <- <-; exact G]. destruct (loads A K t (memory b)) as [x h].
  destruct c; injection E as <- <-; cbn; [|exact G]. rewrite get_put. destruct (Nat.eqb_spec n m) as [->|]; [congruence|exact G].
Qed.
Lemma step_cached m o (b b' : base) r a : step o b = (b', r) -> ~ displaces m o -> get m (cache b) = Some a -> get m (cache b') = Some a.
Proof.
  intros E D G. destruct o as [z|x z|n x c|n s c|n|n d| |n c| |n s]; cbn -[Nat.ltb] in E, D.
  - destruct (forallb _ _); injection E as <- <-; exact G.
  - destruct (forallb _ _); injection E as <- <-; exact G.
  - destruct (x <? length (memory b)); [|injection E as <- <-; exact G]. unfold set_tag in E.
    assert (P : get m (put n x (cache b)) = Some a) by (rewrite get_put; destruct (Nat.eqb_spec n m); [tauto|exact G]).
    destruct c; [injection E as <- <-; exact P|]. destruct (save_tag_memory _ _ _ _ _ E) as (_ & ->). rewrite get_del. cbn.
    destruct (Nat.eqb_spec n m); [tauto|exact P].
  - eapply query_cached; eauto.
  - injection E as <- <-. exact G.
  - destruct (save_tag_memory _ _ _ _ _ E) as (_ & ->). destruct d; [|exact G]. rewrite get_del. destruct (Nat.eqb_spec n m); [tauto|exact G].
  - destruct (save_tags_memory _ _ _ _ E) as (_ & ->). exact G.
  - unfold rollback_tag in E. set (b1 := match files b n with None => _ | Some _ => b end) in E.
    assert (C1 : cache b1 = cache b) by (unfold b1; destruct (files b n); auto).
    set (b2 := with_cache A K _ _) in E.
    assert (G2 : get m (cache b2) = Some a) by (unfold b2; cbn; rewrite C1, get_del; destruct (Nat.eqb_spec n m); [tauto|exact G]).
    destruct c; injection E as <- <-; [|exact G2].
    destruct (query_tag A K n false true b2) as [b3 r3] eqn:Q. eapply query_cached; eauto.
  - tauto.
  - unfold pop_tag in E. destruct (query_tag A K n true false b) as [b1 v] eqn:Q. pose proof (query_cached _ m _ _ _ _ _ _ Q G) as G1.
    injection E as <- _. cbn. rewrite get_del. destruct (Nat.eqb_spec n m); [tauto|exact G1].
Qed.
Lemma run_cached m os a : forall b : base, Forall (fun o => ~ displaces m o) os -> get m (cache b) = Some a -> get m (cache (run os b)) = Some a.
Proof.
  induction os as [|o os IH]; intros b D G; cbn; [exact G|]. inversion D; subst. destruct (step o b) as [b1 r] eqn:E. cbn.
  apply IH; auto. eapply step_cached; eauto.
Qed.

(** Saving everything. *)
Lemma save_tags_fine ns : NoDup ns -> forall b b' : base, save_tags A K limit ns b = (b', Fine) ->
  (forall n a, In n ns -> get n (cache b) = Some a -> exists t, dumps A K limit (memory b) a = Some t /\ files b' n = Some t) /\
  (forall n, ~ In n ns -> files b' n = files b n).
Proof.
  induction ns as [|n ns IH]; intros Nd b b' E; cbn in E.
  - injection E as <-. split; [intros n a []|reflexivity].
  - inversion Nd as [|? ? Ni Nd']; subst. destruct (save_file A K limit n b) as [b1 r1] eqn:S.
    destruct (save_file_memory _ _ _ _ S) as (M & C).
    assert (E1 : save_tags A K limit ns b1 = (b', Fine)) by (destruct r1; [exact E|exact E|exact E|discriminate]).
    destruct (IH Nd' _ _ E1) as (In1 & Out1). split.
    + intros m a [<-|I] G.
      * rewrite (Out1 n Ni). unfold save_file in S. rewrite G in S.
        destruct (dumps A K limit (memory b) a) as [t|] eqn:D; [|injection S as <- <-; discriminate].
        injection S as <- _. exists t. split; [reflexivity|]. cbn. rewrite Nat.eqb_refl. reflexivity.
      * rewrite <- M. apply In1; [exact I|]. rewrite C. exact G.
    + intros m F. rewrite Out1 by (intros I; apply F; right; exact I). apply (save_file_files _ _ _ _ _ S). intros ->. apply F. left. reflexivity.
Qed.
Lemma got_in n a c : get n c = Some a -> In n (map fst c).
Proof. induction c as [|[k b] c IH]; cbn; [discriminate|]. destruct (Nat.eqb_spec k n); auto. Qed.
End Alias.
