(** * Proofs about saving a database that is in use *)
From Coq Require Import Lia ZifyBool ZifyNat.
From Verif Require Import Base BaseFacts TasksModel TasksSpec TasksProofs SaveModel SaveSpec.

Lemma replace_nth {A} (l : list A) i x y k : nth_error l i = Some y ->
  nth_error (replace i x l) k = if Nat.eqb k i then Some x else nth_error l k.
Proof.
  revert i k. induction l as [| a l IH]; intros i k H; [destruct i; discriminate |].
  destruct i as [| i]; [destruct k; reflexivity |]. destruct k as [| k]; [reflexivity |].
  cbn in H. exact (IH i k H).
Qed.
Lemma replace_map {A B} (f : A -> B) (l : list A) i x y : nth_error l i = Some y -> f x = f y -> map f (replace i x l) = map f l.
Proof.
  revert i. induction l as [| a l IH]; intros i H E; [destruct i; discriminate |].
  destruct i as [| i]; cbn in H |- *; [injection H as ->; unfold replace; cbn; now rewrite E |].
  f_equal. exact (IH i H E).
Qed.
Lemma replace_len {A} (l : list A) i x y : nth_error l i = Some y -> length (replace i x l) = length l.
Proof.
  intros H. rewrite <- (map_length (fun _ => tt) (replace i x l)), <- (map_length (fun _ => tt) l).
  f_equal. apply (replace_map _ _ _ _ _ H). reflexivity.
Qed.

Section Proofs.
Context {V : Type}.
Variable seal : V -> bytes.
Variable unseal : bytes -> option V.
Variable mseal : list nat -> bytes.
Variable names : list nat.
Notation step := (step seal unseal).
Notation advance := (advance seal unseal mseal names).
Notation saving_run := (saving_run seal unseal mseal names).

Lemma saving_run_app a b y : saving_run (a ++ b) y = saving_run b (saving_run a y).
Proof. apply fold_left_app. Qed.
Lemma saving_run_snoc a e y : saving_run (a ++ [e]) y = advance (saving_run a y) e.
Proof. rewrite saving_run_app. reflexivity. Qed.

(** ** The other tasks *)
Definition calm (t : task V) : Prop :=
  match t with
  | Start o => harmless o
  | Reading Give _ _ | Unsealing Give _ _ | Done _ => True
  | _ => False
  end.
Definition grows (s s' : slot V) : Prop :=
  file s' = file s /\ (cached s <> None -> cached s' <> None) /\ (listed s = true -> listed s' = true).
Lemma calm_step t s : calm t -> calm (fst (step t s)) /\ grows s (snd (step t s)).
Proof.
  assert (R : forall s : slot V, grows s s) by (intros; repeat split; auto).
  destruct t as [[v k | a k | | |] | | | | | a b k | [] b k | [] k c | | r]; cbn [calm harmless]; intros H; try (now destruct H).
  - subst k. cbn. split; [exact I |]. split; [reflexivity |]. split; [discriminate | reflexivity].
  - cbn [TasksModel.step]. unfold look_step. destruct (cached s); cbn; (split; [exact I | apply R]).
  - cbn [TasksModel.step]. destruct (file s) as [[n [| x f]] |]; cbn; try (split; [exact I | apply R]).
    destruct b; cbn; (split; [exact I | apply R]).
  - cbn [TasksModel.step]. destruct (unseal c) as [v |]; cbn; [| split; [exact I | apply R]].
    split; [exact I |]. destruct k; [| apply R]. split; [reflexivity |]. split; [discriminate | auto].
Qed.

(** ** The invariant *)
Section From.
(** The state in which the save has not begun. *)
Variable y1 : dbase V.
Hypothesis ND : NoDup names.
Hypothesis S1 : savers y1 = [SFresh].
Hypothesis U1 : subs y1 = [].
Hypothesis O1 : forall g t, In (g, t) (ops y1) -> In g names /\ calm t.
Hypothesis N1 : forall g, cached (slots y1 g) <> None \/ listed (slots y1 g) = true -> In g names.

Definition had (es : list sevent) (g : nat) (v : V) : Prop :=
  exists a b, es = a ++ b /\ In (Saver 0) a /\ cached (slots (saving_run a y1) g) = Some v.
Lemma had_more es e g v : had es g v -> had (es ++ [e]) g v.
Proof. intros [a [b [-> H]]]. exists a, (b ++ [e]). rewrite <- app_assoc. auto. Qed.

Definition sub_ok (es : list sevent) (g : nat) (t : task V) (s : slot V) : Prop :=
  match t with
  | Saving false => True
  | Sealing false c => exists v, had es g v /\ c = seal v
  | Opened false c n => exists v, had es g v /\ c = seal v /\ file s = Some (n, [])
  | Closed false | Done Fine => exists v n, had es g v /\ file s = Some (n, seal v)
  | _ => False
  end.
Lemma sub_ok_more es e g t s s' : sub_ok es g t s -> file s' = file s -> sub_ok (es ++ [e]) g t s'.
Proof.
  intros H F.
  destruct t as [| [|] | [|] | [|] | [|] | | | | | [| | | |]]; cbn in *; try exact H; try (now destruct H).
  - destruct H as [v [H E]]. exists v. split; [now apply had_more | exact E].
  - destruct H as [v [H [E G]]]. exists v. split; [now apply had_more |]. split; [exact E | congruence].
  - destruct H as [v [n [H E]]]. exists v, n. split; [now apply had_more | congruence].
  - destruct H as [v [n [H E]]]. exists v, n. split; [now apply had_more | congruence].
Qed.
Lemma sub_step es e g t s y : y = saving_run es y1 -> s = slots y g -> In (Saver 0) es -> cached s <> None ->
  sub_ok es g t s ->
  sub_ok (es ++ [e]) g (fst (step t s)) (snd (step t s)) /\ cached (snd (step t s)) = cached s /\ listed (snd (step t s)) = listed s.
Proof.
  intros Ey Es I0 C H.
  destruct t as [| [|] | [|] c | [|] c n | [|] | | | | | [| | | |]]; cbn in H; try (now destruct H).
  - cbn [TasksModel.step]. unfold save_step. destruct (cached s) as [v |] eqn:E; [| now destruct C]. cbn.
    split; [| split; [exact E | reflexivity]]. exists v. split; [| reflexivity].
    exists es, [e]. split; [reflexivity |]. split; [exact I0 |]. rewrite <- Ey, <- Es. exact E.
  - destruct H as [v [H ->]]. cbn [TasksModel.step]. destruct (file s) as [[n f] |]; cbn; (split; [| split; reflexivity]).
    + exists v. split; [now apply had_more |]. split; reflexivity.
    + exists v. split; [now apply had_more |]. split; reflexivity.
  - destruct H as [v [H [-> F]]]. cbn [TasksModel.step]. rewrite F, Nat.eqb_refl. cbn. rewrite skipn_nil, app_nil_r.
    split; [| split; reflexivity]. exists v, n. split; [now apply had_more | reflexivity].
  - destruct H as [v [n [H F]]]. cbn. split; [| split; reflexivity]. exists v, n. split; [now apply had_more | exact F].
  - destruct H as [v [n [H F]]]. cbn. split; [| split; reflexivity]. exists v, n. split; [now apply had_more | exact F].
Qed.

Definition complete (es : list sevent) (l : list nat) : Prop :=
  (forall g, listed (slots y1 g) = true -> In g l) /\
  forall g, In g l -> exists a b, es = a ++ b /\ listed (slots (saving_run a y1) g) = true.
Lemma complete_more es e l : complete es l -> complete (es ++ [e]) l.
Proof. intros [A B]. split; [exact A |]. intros g I. destruct (B g I) as [a [b [-> L]]]. exists a, (b ++ [e]). split; [now rewrite app_assoc | exact L]. Qed.
Definition saver_ok (x : saver) (y : dbase V) (es : list sevent) : Prop :=
  (x <> SFresh -> In (Saver 0) es) /\
  match x with
  | SFresh | SKeying => subs y = []
  | SSealing c => subs y = [] /\ exists l, complete es l /\ c = mseal l
  | SOpened c => subs y = [] /\ root y = Some [] /\ exists l, complete es l /\ c = mseal l
  | SClosed => subs y = [] /\ exists l, complete es l /\ root y = Some (mseal l)
  | SWaiting | SDone true => (exists l, complete es l /\ root y = Some (mseal l)) /\
      (forall g, cached (slots y1 g) <> None -> In g (map (fun p => fst (snd p)) (subs y))) /\
      (x = SDone true -> forall j g t, In (j, (g, t)) (subs y) -> t = Done Fine)
  | SDone false => False
  end.
Definition inv (es : list sevent) (y : dbase V) : Prop :=
  (exists x, savers y = [x] /\ saver_ok x y es) /\
  (forall g t, In (g, t) (ops y) -> In g names /\ calm t) /\
  (forall g, cached (slots y g) <> None \/ listed (slots y g) = true -> In g names) /\
  (forall g, cached (slots y1 g) <> None -> cached (slots y g) <> None) /\
  (forall g, listed (slots y1 g) = true -> listed (slots y g) = true) /\
  NoDup (map (fun p => fst (snd p)) (subs y)) /\
  (forall k j g t, nth_error (subs y) k = Some (j, (g, t)) ->
     j = 0%nat /\ In (Saver 0) es /\ cached (slots y g) <> None /\ sub_ok es g t (slots y g)) /\
  (forall g, ~ In g (map (fun p => fst (snd p)) (subs y)) -> file (slots y g) = file (slots y1 g)).
Lemma inv_start : inv [] y1.
Proof.
  split; [| split; [exact O1 |]]; [| split; [exact N1 |]].
  - exists SFresh. split; [exact S1 |]. split; [congruence | exact U1].
  - split; [auto |]. split; [auto |]. rewrite U1. split; [constructor |]. split; [intros [|] j g t; discriminate | reflexivity].
Qed.
Lemma in_replace {A} (l : list A) i x y z : nth_error l i = Some y -> In z (replace i x l) -> z = x \/ In z l.
Proof.
  intros H I. apply In_nth_error in I. destruct I as [k I]. rewrite (replace_nth l i x y k H) in I.
  destruct (Nat.eqb k i); [injection I as ->; now left | right; now apply nth_error_In in I].
Qed.
Lemma saver_ok_more x y y' es e : saver_ok x y es -> root y' = root y ->
  map (fun p => fst (snd p)) (subs y') = map (fun p => fst (snd p)) (subs y) ->
  (forall j g t, In (j, (g, t)) (subs y') -> In (j, (g, t)) (subs y) \/ exists u, In (j, (g, u)) (subs y) /\ (u = Done Fine -> t = Done Fine)) ->
  saver_ok x y' (es ++ [e]).
Proof.
  intros [A B] R M D.
  assert (E : subs y = [] -> subs y' = []) by (intros E; rewrite E in M; destruct (subs y'); [reflexivity | discriminate]).
  split; [intros N; apply in_or_app; left; now apply A |].
  assert (CM : forall Q : list nat -> Prop, (exists l, complete es l /\ Q l) -> exists l, complete (es ++ [e]) l /\ Q l).
  { intros Q [l [C H]]. exists l. split; [now apply complete_more | exact H]. }
  destruct x as [| | c | c | | | [|]]; rewrite ?R.
  - now apply E.
  - now apply E.
  - destruct B as [B1 B2]. split; [now apply E | now apply CM].
  - destruct B as [B1 [B2 B3]]. split; [now apply E |]. split; [exact B2 | now apply CM].
  - destruct B as [B1 B2]. split; [now apply E | now apply CM].
  - destruct B as [B1 [B2 B3]]. split; [now apply CM |]. rewrite M. split; [exact B2 | discriminate].
  - destruct B as [B1 [B2 B3]]. split; [now apply CM |]. rewrite M. split; [exact B2 |].
    intros _ j g t I. destruct (D j g t I) as [I' | [u [I' K]]]; [exact (B3 eq_refl j g t I') | apply K; exact (B3 eq_refl j g u I')].
  - exact B.
Qed.
Lemma inv_step es e : inv es (saving_run es y1) -> inv (es ++ [e]) (saving_run (es ++ [e]) y1).
Proof.
  set (y := saving_run es y1). intros [[x [Sx Hx]] [Ho [Hn [Hc [Hl [Hd [Hs Hf]]]]]]]. rewrite saving_run_snoc. fold y.
  assert (STAY : inv (es ++ [e]) y).
  { split; [exists x; split; [exact Sx | apply (saver_ok_more x y y es e Hx); auto] |].
    do 5 (split; [assumption |]). split; [| exact Hf].
    intros k j g t H. destruct (Hs k j g t H) as [A [B [C D]]]. split; [exact A |].
    split; [apply in_or_app; now left |]. split; [exact C |]. now apply (sub_ok_more es e g t (slots y g)). }
  destruct e as [i | j | k]; cbn [SaveModel.advance].
  - destruct (nth_error (ops y) i) as [[g t] |] eqn:E; [| exact STAY].
    destruct (Ho g t (nth_error_In _ _ E)) as [Ig Ct]. destruct (calm_step t (slots y g) Ct) as [Ct' [Gf [Gc Gl]]].
    destruct (step t (slots y g)) as [t' s'] eqn:Es. cbn [fst snd] in *.
    set (w' := put_slot (slots y) g s').
    assert (Wf : forall h, file (w' h) = file (slots y h)).
    { intros h. unfold w', put_slot. destruct (Nat.eqb_spec h g) as [-> |]; auto. }
    assert (Wc : forall h, cached (slots y h) <> None -> cached (w' h) <> None).
    { intros h. unfold w', put_slot. destruct (Nat.eqb_spec h g) as [-> |]; auto. }
    assert (Wl : forall h, listed (slots y h) = true -> listed (w' h) = true).
    { intros h. unfold w', put_slot. destruct (Nat.eqb_spec h g) as [-> |]; auto. }
    split; [exists x; split; [exact Sx | apply (saver_ok_more x y _ es _ Hx); cbn; auto] |]. cbn [ops slots subs].
    split. { intros h u I. destruct (in_replace _ _ _ _ _ E I) as [Z | I']; [injection Z as -> ->; now split | now apply Ho]. }
    split. { intros h. unfold w', put_slot. destruct (Nat.eqb_spec h g) as [-> |]; [now intros _ | apply Hn]. }
    split; [intros h Z; apply Wc; now apply Hc |]. split; [intros h Z; apply Wl; now apply Hl |]. split; [exact Hd |].
    split; [| intros h Z; rewrite Wf; now apply Hf].
    intros k j h u H. destruct (Hs k j h u H) as [A [B [C D]]]. split; [exact A |].
    split; [apply in_or_app; now left |]. split; [now apply Wc |]. now apply (sub_ok_more es _ h u (slots y h)).
  - destruct (nth_error (savers y) j) as [x' |] eqn:E; [| exact STAY].
    rewrite Sx in E. destruct j as [| [|]]; try discriminate. injection E as <-.
    assert (I0 : In (Saver 0) (es ++ [Saver 0])) by (apply in_or_app; right; now left).
    assert (KEEP : forall z r, saver_ok z {| slots := slots y; root := r; ops := ops y; savers := [z]; subs := subs y |} (es ++ [Saver 0]) ->
      inv (es ++ [Saver 0]) {| slots := slots y; root := r; ops := ops y; savers := [z]; subs := subs y |}).
    { intros z r K. split; [exists z; split; [reflexivity | exact K] |]. cbn [slots ops subs].
      do 5 (split; [assumption |]). split; [| exact Hf].
      intros k j g t H. destruct (Hs k j g t H) as [A [B [C D]]]. split; [exact A |].
      split; [exact I0 |]. split; [exact C |]. now apply (sub_ok_more es _ g t (slots y g)). }
    assert (CM : forall l, complete es l -> complete (es ++ [Saver 0]) l) by (intros l; apply complete_more).
    assert (RP : forall z, replace 0 z (savers y) = [z]) by (intros z; rewrite Sx; reflexivity).
    destruct Hx as [Hx1 Hx2].
    destruct x as [| | c | c | | | fine]; cbn [saver_step]; rewrite ?RP.
    + apply KEEP. split; [auto | exact Hx2].
    + apply KEEP. split; [auto |]. cbn [root subs]. split; [exact Hx2 |]. exists (listing names (slots y)). split; [| reflexivity].
      split.
      * intros g L. unfold listing. apply filter_In. split; [apply N1; now right | now apply Hl].
      * intros g I. unfold listing in I. apply filter_In in I. exists es, [Saver 0]. split; [reflexivity | apply I].
    + apply KEEP. split; [auto |]. cbn [root subs]. destruct Hx2 as [A [l [C ->]]]. split; [exact A |]. split; [reflexivity |]. exists l. split; [now apply CM | reflexivity].
    + apply KEEP. split; [auto |]. cbn [root subs]. destruct Hx2 as [A [B [l [C ->]]]]. split; [exact A |].
      exists l. split; [now apply CM |]. rewrite B, skipn_nil, app_nil_r. reflexivity.
    + destruct Hx2 as [A [l [C R]]]. rewrite A. cbn [app].
      assert (M : map (fun p => fst (snd p)) (spawn names 0 (slots y)) = filter (fun g => match cached (slots y g) with Some _ => true | None => false end) names).
      { unfold spawn. rewrite map_map. cbn. apply map_id. }
      split; [exists SWaiting; split; [reflexivity |] |].
      { split; [auto |]. cbn [root subs]. split; [exists l; split; [now apply CM | exact R] |]. rewrite M. split; [| discriminate].
        intros g Z. apply filter_In. split; [apply N1; now left |]. apply Hc in Z. destruct (cached (slots y g)); [reflexivity | now destruct Z]. }
      cbn [slots ops subs]. do 4 (split; [assumption |]). rewrite M. split; [now apply NoDup_filter |]. split.
      * intros k j g t H. apply nth_error_In in H. unfold spawn in H. apply in_map_iff in H. destruct H as [h [H F]].
        injection H as <- -> <-. apply filter_In in F. destruct F as [_ F]. split; [reflexivity |]. split; [exact I0 |].
        split; [destruct (cached (slots y g)); [discriminate | discriminate F] | exact I].
      * intros g _. apply Hf. rewrite A. intros [].
    + assert (FIN : forall t, In t (of_saver 0 (subs y)) -> exists j g, In (j, (g, t)) (subs y)).
      { intros t I. unfold of_saver in I. apply in_map_iff in I. destruct I as [[j [g u]] [<- I]]. apply filter_In in I. exists j, g. apply I. }
      assert (NF : existsb failed (of_saver 0 (subs y)) = false).
      { destruct (existsb failed (of_saver 0 (subs y))) eqn:Z; [| reflexivity]. apply existsb_exists in Z. destruct Z as [t [I F]].
        destruct (FIN t I) as [j [g I']]. apply In_nth_error in I'. destruct I' as [k I']. destruct (Hs k j g t I') as [_ [_ [_ D]]].
        destruct t as [| | | | | | | | | [| | | |]]; try discriminate. now destruct D. }
      apply KEEP. unfold waiting. rewrite NF. destruct (forallb over (of_saver 0 (subs y))) eqn:AO.
      * split; [auto |]. cbn [root subs]. destruct Hx2 as [[l [C R]] [B _]]. split; [exists l; split; [now apply CM | exact R] |]. split; [exact B |].
        intros _ j g t I. pose proof I as I'. apply In_nth_error in I'. destruct I' as [k I']. destruct (Hs k j g t I') as [-> [_ [_ D]]].
        assert (OV : over t = true).
        { rewrite forallb_forall in AO. apply AO. unfold of_saver. apply in_map_iff. exists (0%nat, (g, t)). split; [reflexivity |].
          apply filter_In. split; [exact I | reflexivity]. }
        destruct t as [| | | | | | | | | [| | | |]]; try discriminate; now destruct D.
      * split; [auto |]. cbn [root subs]. destruct Hx2 as [[l [C R]] [B _]]. split; [exists l; split; [now apply CM | exact R] |]. split; [exact B | discriminate].
    + exact STAY.
  - destruct (nth_error (subs y) k) as [[j [g t]] |] eqn:E; [| exact STAY].
    destruct (Hs k j g t E) as [-> [I0 [C D]]].
    destruct (sub_step es (Sub k) g t (slots y g) y eq_refl eq_refl I0 C D) as [D' [C' L']].
    destruct (step t (slots y g)) as [t' s'] eqn:Es. cbn [fst snd] in *.
    set (w' := put_slot (slots y) g s').
    assert (Wc : forall h, cached (w' h) = cached (slots y h)).
    { intros h. unfold w', put_slot. destruct (Nat.eqb_spec h g) as [-> |]; auto. }
    assert (Wl : forall h, listed (w' h) = listed (slots y h)).
    { intros h. unfold w', put_slot. destruct (Nat.eqb_spec h g) as [-> |]; auto. }
    assert (M : map (fun p => fst (snd p)) (replace k (0%nat, (g, t')) (subs y)) = map (fun p => fst (snd p)) (subs y)).
    { apply (replace_map _ _ _ _ _ E). reflexivity. }
    split. { exists x. split; [exact Sx |]. apply (saver_ok_more x y _ es _ Hx); cbn; auto.
      intros j h u I. destruct (in_replace _ _ _ _ _ E I) as [Z | I']; [| now left]. injection Z as -> -> ->.
      right. exists t. split; [now apply nth_error_In in E |]. intros ->. cbn in Es. now injection Es as <- _. }
    cbn [ops slots subs]. split; [exact Ho |].
    split; [intros h; rewrite Wc, Wl; apply Hn |]. split; [intros h Z; rewrite Wc; now apply Hc |].
    split; [intros h Z; rewrite Wl; now apply Hl |]. rewrite M. split; [exact Hd |]. split.
    + intros k' j h u H. rewrite (replace_nth _ _ _ _ k' E) in H. destruct (Nat.eqb_spec k' k) as [-> | NE].
      * injection H as <- <- <-. split; [reflexivity |]. split; [apply in_or_app; now left |]. rewrite Wc. split; [exact C |].
        unfold w', put_slot. rewrite Nat.eqb_refl.
        exact D'.
      * destruct (Hs k' j h u H) as [A [B [C2 D2]]]. split; [exact A |]. split; [apply in_or_app; now left |].
        rewrite Wc. split; [exact C2 |]. apply (sub_ok_more es _ h u (slots y h) _ D2).
        unfold w', put_slot. destruct (Nat.eqb_spec h g) as [-> |]; [| reflexivity]. exfalso. apply NE.
        rewrite NoDup_nth_error in Hd. apply Hd.
        -- rewrite map_length. apply nth_error_Some. congruence.
        -- rewrite !nth_error_map, H, E. reflexivity.
    + intros h Z. unfold w', put_slot. destruct (Nat.eqb_spec h g) as [-> |]; [| now apply Hf].
      exfalso. apply Z. apply in_map_iff. exists (0%nat, (g, t)). split; [reflexivity | now apply nth_error_In in E].
Qed.
Lemma inv_run es : inv es (saving_run es y1).
Proof.
  induction es as [| e es IH] using rev_ind; [exact inv_start | exact (inv_step es e IH)].
Qed.
End From.

(** ** From the start *)
Lemma before_the_save os w r es :
  NoDup names -> (forall g o, In (g, o) os -> In g names /\ harmless o) ->
  (forall g, cached (w g) <> None \/ listed (w g) = true -> In g names) ->
  ~ In (Saver 0) es ->
  let y := saving_run es (opening os 1 w r) in
  savers y = [SFresh] /\ subs y = [] /\ (forall g t, In (g, t) (ops y) -> In g names /\ calm t) /\
  (forall g, cached (slots y g) <> None \/ listed (slots y g) = true -> In g names).
Proof.
  intros ND HO HW NI y.
  destruct (inv_run (opening os 1 w r) ND eq_refl eq_refl) with (es := es) as [[x [Sx [Hx1 Hx2]]] [Ho [Hn _]]].
  - intros g t I. cbn in I. apply in_map_iff in I. destruct I as [[h o] [E I]]. injection E as <- <-. exact (HO h o I).
  - exact HW.
  - fold y in Sx, Hx2, Ho, Hn. destruct x; try (exfalso; apply NI; apply Hx1; discriminate). auto.
Qed.

(** ** The save can end *)
Lemma sub_alone n : forall k y j g t, nth_error (subs y) k = Some (j, (g, t)) ->
  let y' := saving_run (repeat (Sub k) n) y in
  nth_error (subs y') k = Some (j, (g, fst (steps seal unseal n t (slots y g)))) /\
  (forall k', k' <> k -> nth_error (subs y') k' = nth_error (subs y) k') /\ savers y' = savers y /\ length (subs y') = length (subs y).
Proof.
  induction n as [| n IH]; intros k y j g t E; [cbn; auto |].
  cbn [repeat]. change (saving_run (Sub k :: repeat (Sub k) n) y) with (saving_run (repeat (Sub k) n) (advance y (Sub k))).
  cbn [SaveModel.advance]. rewrite E. cbn [steps]. destruct (step t (slots y g)) as [t' s'] eqn:Es.
  destruct (IH k {| slots := put_slot (slots y) g s'; root := root y; ops := ops y; savers := savers y; subs := replace k (j, (g, t')) (subs y) |} j g t') as [A [B [C L]]].
  - cbn [subs]. rewrite (replace_nth _ _ _ _ k E), Nat.eqb_refl. reflexivity.
  - cbn [slots subs savers] in A, B, C, L. unfold put_slot at 2 in A. rewrite Nat.eqb_refl in A. split; [exact A |].
    split; [| split; [exact C |]]; [| rewrite L; apply (replace_len _ _ _ _ E)].
    intros k' NE. rewrite (B k' NE). rewrite (replace_nth _ _ _ _ k' E). destruct (Nat.eqb_spec k' k); [contradiction | reflexivity].
Qed.
Lemma subs_end m : forall y, exists es,
  (forall k p, (k < m)%nat -> nth_error (subs (saving_run es y)) k = Some p -> over (snd (snd p)) = true) /\
  savers (saving_run es y) = savers y /\ length (subs (saving_run es y)) = length (subs y).
Proof.
  induction m as [| m IH]; intros y; [exists []; split; [lia | split; reflexivity] |].
  destruct (IH y) as [es [A [B Ln]]]. set (z := saving_run es y) in *.
  destruct (nth_error (subs z) m) as [[j [g t]] |] eqn:E.
  - destruct (sub_alone 5 m z j g t E) as [C [D [F G]]]. exists (es ++ repeat (Sub m) 5). rewrite saving_run_app. fold z.
    split; [| split; [rewrite F; exact B | rewrite G; exact Ln]]. intros k p L H. destruct (Nat.eq_dec k m) as [-> | NE].
    + destruct (left_done seal unseal (fst (steps seal unseal 5 t (slots z g)))) as [r Hr]; [| rewrite C, Hr in H; injection H as <-; reflexivity].
      pose proof (steps_left seal unseal 5 t (slots z g)).
      assert (left_ t <= 5)%nat by (destruct t as [[v [|] | | | |] | | | | | | | | |]; cbn; lia). lia.
    + rewrite (D k NE) in H. apply (A k p); [lia | exact H].
  - exists es. split; [| split; assumption]. intros k p L H. fold z in H. destruct (Nat.eq_dec k m) as [-> | NE]; [congruence |]. apply (A k p); [lia | exact H].
Qed.
Lemma saver_nth (y : dbase V) j x z : nth_error (savers y) j = Some x -> nth_error (replace j z (savers y)) j = Some z.
Proof. intros H. rewrite (replace_nth _ _ _ _ j H), Nat.eqb_refl. reflexivity. Qed.
Lemma saver_moves y j x : nth_error (savers y) j = Some x ->
  nth_error (savers (saving_run [Saver j] y)) j =
  Some (match x with
        | SFresh => SKeying | SKeying => SSealing (mseal (listing names (slots y))) | SSealing c => SOpened c | SOpened _ => SClosed
        | SClosed => SWaiting | SWaiting => waiting (of_saver j (subs y)) | SDone b => SDone b end).
Proof.
  intros H. cbn [SaveModel.saving_run fold_left SaveModel.advance]. rewrite H.
  destruct x; cbn [saver_step savers]; try exact (saver_nth _ _ _ _ H). exact H.
Qed.
Lemma saver_ends y j : (j < length (savers y))%nat -> exists es fine, nth_error (savers (saving_run es y)) j = Some (SDone fine).
Proof.
  intros L. destruct (nth_error (savers y) j) as [x |] eqn:E; [| apply nth_error_None in E; lia]. clear L.
  assert (W : forall y, nth_error (savers y) j = Some SWaiting -> exists es fine, nth_error (savers (saving_run es y)) j = Some (SDone fine)).
  { clear y x E. intros y E. destruct (subs_end (length (subs y)) y) as [es [A [B Ln]]]. rewrite <- B in E.
    exists (es ++ [Saver j]). rewrite saving_run_app, (saver_moves _ _ _ E). unfold waiting.
    destruct (existsb failed _); [now exists false |]. exists true.
    replace (forallb over _) with true; [reflexivity |]. symmetry. apply forallb_forall. intros t I.
    unfold of_saver in I. apply in_map_iff in I. destruct I as [p [<- I]]. apply filter_In in I. destruct I as [I _].
    apply In_nth_error in I. destruct I as [k I]. apply (A k p); [| exact I]. rewrite <- Ln. apply nth_error_Some. congruence. }
  assert (N : forall y x, nth_error (savers y) j = Some x ->
    (forall y', nth_error (savers y') j = nth_error (savers (saving_run [Saver j] y)) j -> exists es fine, nth_error (savers (saving_run es y')) j = Some (SDone fine)) ->
    exists es fine, nth_error (savers (saving_run es y)) j = Some (SDone fine)).
  { intros y' x' _ K. destruct (K (saving_run [Saver j] y') eq_refl) as [es [fine F]]. exists ([Saver j] ++ es), fine. now rewrite saving_run_app. }
  assert (A1 : forall y, nth_error (savers y) j = Some SClosed -> exists es fine, nth_error (savers (saving_run es y)) j = Some (SDone fine)).
  { intros y' E'. apply (N y' _ E'). intros y'' K. rewrite (saver_moves _ _ _ E') in K. exact (W y'' K). }
  assert (A2 : forall y c, nth_error (savers y) j = Some (SOpened c) -> exists es fine, nth_error (savers (saving_run es y)) j = Some (SDone fine)).
  { intros y' c E'. apply (N y' _ E'). intros y'' K. rewrite (saver_moves _ _ _ E') in K. exact (A1 y'' K). }
  assert (A3 : forall y c, nth_error (savers y) j = Some (SSealing c) -> exists es fine, nth_error (savers (saving_run es y)) j = Some (SDone fine)).
  { intros y' c E'. apply (N y' _ E'). intros y'' K. rewrite (saver_moves _ _ _ E') in K. exact (A2 y'' c K). }
  assert (A4 : forall y, nth_error (savers y) j = Some SKeying -> exists es fine, nth_error (savers (saving_run es y)) j = Some (SDone fine)).
  { intros y' E'. apply (N y' _ E'). intros y'' K. rewrite (saver_moves _ _ _ E') in K. exact (A3 y'' _ K). }
  destruct x as [| | c | c | | | fine].
  - apply (N y _ E). intros y'' K. rewrite (saver_moves _ _ _ E) in K. exact (A4 y'' K).
  - exact (A4 y E).
  - exact (A3 y c E).
  - exact (A2 y c E).
  - exact (A1 y E).
  - exact (W y E).
  - exists [], fine. exact E.
Qed.
End Proofs.
