(** * Proofs about displays of objects and the debug mode *)
From Coq Require Import Strings.String.
From Verif Require Import Base BaseFacts StrModel ReprModel ReprSpec.
Local Open Scope N_scope.
Open Scope list_scope.

Lemma pieces_agree (show1 show2 : value -> result str) agree l1 l2 : items_agree agree l1 l2 ->
  (forall v w, agree v w -> show1 v = show2 w) -> pieces show1 l1 = pieces show2 l2.
Proof.
  intros A S. induction A as [|[n1 v] [n2 w] l1 l2 [N V] A IH]; [reflexivity|]. cbn [fst snd] in *. subst n2.
  cbn [pieces]. destruct n1 as [|c n]; [reflexivity|]. destruct (N.eqb_spec c 95) as [->|K]; [exact IH|].
  rewrite (S v w) by (apply V; exists c, n; auto). rewrite IH. reflexivity.
Qed.
Lemma mapped_agree sep (show1 show2 : value -> result str) agree name l1 l2 : items_agree agree l1 l2 ->
  (forall v w, agree v w -> show1 v = show2 w) -> mapped_text sep show1 name l1 = mapped_text sep show2 name l2.
Proof.
  intros A S. unfold mapped_text. rewrite (pieces_agree _ _ _ _ _ A S). now destruct A.
Qed.
Lemma slots_agree_pieces h1 h2 l1 l2 : slots_agree (same_class h1 h2) l1 l2 -> slot_pieces h1 l1 = slot_pieces h2 l2.
Proof.
  intros A. induction A as [|[n1 v] [n2 w] l1 l2 [N V] A IH]; [reflexivity|]. cbn [fst snd] in *. subst n2. cbn [slot_pieces].
  rewrite IH. destruct n1 as [|c n].
  - destruct V as [V|V]; [|discriminate]. destruct v, w; try contradiction; [|reflexivity]. now rewrite V.
  - destruct (N.eqb_spec c 95) as [->|K]; [reflexivity|]. destruct V as [V|V]; [|cbn in V; congruence].
    destruct v, w; try contradiction; [|reflexivity]. now rewrite V.
Qed.
Lemma alike_nth d h1 h2 i : alike d h1 h2 ->
  match nth_error h1 i, nth_error h2 i with
  | Some o1, Some o2 => objects_agree d h1 h2 o1 o2
  | None, None => True
  | _, _ => False
  end.
Proof.
  unfold alike. generalize (objects_agree d h1 h2). intros R A. revert i.
  induction A as [|o1 o2 l1 l2 O A IH]; intros [|i]; cbn; [exact I|exact I|exact O|apply IH].
Qed.
Lemma repr_alike sep d h1 h2 : alike d h1 h2 -> forall depth v, repr sep depth d h1 v = repr sep depth d h2 v.
Proof.
  intros A. induction depth as [|depth IH]; intros [c t|i]; try reflexivity. cbn [repr].
  pose proof (alike_nth d h1 h2 i A) as O.
  destruct (nth_error h1 i) as [[m1 n1 c1 l1|n1 c1 l1]|], (nth_error h2 i) as [[m2 n2 c2 l2|n2 c2 l2]|]; cbn in O; try contradiction.
  - destruct O as (<- & <- & _ & O). destruct (m1 && negb d)%bool.
    + apply (mapped_agree _ _ _ _ _ _ _ O). intros v w E. unfold omitted. now rewrite E.
    + apply (mapped_agree _ _ _ _ _ _ _ O). intros v w <-. apply IH.
  - destruct O as (<- & _ & O). unfold instance_text. now rewrite (slots_agree_pieces _ _ _ _ O).
  - reflexivity.
Qed.

Lemma part_refl t : part t t.
Proof. exists [], []. now rewrite app_nil_r. Qed.
Lemma part_front t x a : part t x -> part t (a ++ x).
Proof. intros (p & q & ->). exists (a ++ p), q. now rewrite !app_assoc. Qed.
Lemma part_back t x b : part t x -> part t (x ++ b).
Proof. intros (p & q & ->). exists p, (q ++ b). now rewrite <- !app_assoc. Qed.
Lemma part_join s t l : In t l -> part t (join s l).
Proof.
  induction l as [|x l IH]; intros I; [destruct I|]. destruct I as [->|I].
  - destruct l; [apply part_refl|]. exists [], (s ++ join s (s0 :: l)). reflexivity.
  - destruct l as [|y l]; [destruct I|]. cbn [join]. destruct (IH I) as (p & q & E). cbn [join] in E. rewrite E.
    exists (x ++ s ++ p), q. now rewrite !app_assoc.
Qed.
Lemma pieces_in show items l name v : pieces show items = Ok l -> In (name, v) items -> visible name ->
  exists t, show v = Ok t /\ In (name ++ lit "=" ++ t) l.
Proof.
  revert l. induction items as [|[n w] items IH]; intros l E I (c & r & -> & C); [destruct I|].
  cbn [pieces] in E. destruct n as [|c' n]; [discriminate|].
  assert (G : forall l', pieces show items = Ok l' -> In (c :: r, v) items -> exists t, show v = Ok t /\ In ((c :: r) ++ lit "=" ++ t) l').
  { intros l' E' I'. apply (IH l' E' I'). exists c, r. auto. }
  destruct (N.eqb_spec c' 95) as [->|K].
  - destruct I as [I|I]; [injection I as X _ _; congruence|]. now apply G.
  - destruct (show w) as [t|e] eqn:S; [|discriminate]. cbn [bind] in E. destruct (pieces show items) as [l'|e]; [|discriminate].
    cbn [bind] in E. injection E as <-. destruct I as [I|I].
    + injection I as -> -> ->. exists t. split; [exact S|]. now left.
    + destruct (G l' eq_refl I) as (t' & S' & J). exists t'. split; [exact S'|]. now right.
Qed.
Lemma mapped_shows sep show name items text k v : mapped_text sep show name items = Ok text -> In (k, v) items -> visible k ->
  exists t, show v = Ok t /\ part (k ++ lit "=" ++ t) text.
Proof.
  unfold mapped_text. destruct (pieces show items) as [l|e] eqn:P; [|discriminate]. cbn [bind]. intros E I V. apply Ok_inj in E. subst text.
  destruct (pieces_in _ _ _ _ _ P I V) as (t & S & J). exists t. split; [exact S|].
  destruct items as [|x items]; [destruct I|].
  pose proof (part_join (lit "," ++ sep ++ lit "    ") _ _ J) as Q.
  apply part_front, part_front, part_back, part_front, part_front, part_back. exact Q.
Qed.
Lemma pieces_total show items : (forall v, exists t, show v = Ok t) -> Forall (fun kv => fst kv <> []) items ->
  exists l, pieces show items = Ok l.
Proof.
  intros S F. induction F as [|[n v] items N F IH]; [now exists []|]. cbn [pieces]. destruct n as [|c n]; [now destruct N|].
  destruct IH as (l & E). rewrite E. destruct (c =? 95); [eauto|]. destruct (S v) as (t & ->). cbn [bind]. eauto.
Qed.

(** ** The debug mode *)
Lemma toggle_mode switches : forall i c, mode (fst (toggle i switches c)) = mode c.
Proof.
  induction switches as [|f switches IH]; intros i c; [reflexivity|]. cbn [toggle].
  destruct (f _); [rewrite IH; reflexivity|reflexivity].
Qed.
Lemma toggle_calls switches : Forall (fun f => forall b, f b = Ok tt) switches -> forall i c,
  toggle i switches c = ({| mode := mode c; calls := calls c ++ map (fun k => (k, mode c)) (seq i (length switches)) |}, Ok tt).
Proof.
  intros F. induction F as [|f switches S F IH]; intros i c; cbn [toggle length seq map].
  - rewrite app_nil_r. now destruct c.
  - rewrite S, IH. cbn [mode calls]. now rewrite <- app_assoc.
Qed.
Lemma step_mode warn switches o c :
  mode (fst (control_step warn switches o c)) =
  match o with
  | Enable silent => if negb silent && match warn with Err _ => true | Ok _ => false end then mode c else true
  | Disable => false
  end.
Proof.
  destruct o as [silent|]; cbn [control_step].
  - destruct silent; cbn [negb andb]; [|destruct warn]; cbn [fst]; try reflexivity;
      (destruct (mode c) eqn:M; [exact M|]; now rewrite toggle_mode).
  - destruct (mode c) eqn:M; [now rewrite toggle_mode|exact M].
Qed.
Lemma step_calls warn switches o c : Forall (fun f => forall b, f b = Ok tt) switches ->
  let c' := fst (control_step warn switches o c) in
  calls c' = calls c ++ (if Bool.eqb (mode c) (mode c') then [] else map (fun k => (k, mode c')) (seq 0 (length switches))).
Proof.
  intros F. cbv zeta. rewrite step_mode. destruct o as [silent|]; cbn [control_step].
  - destruct silent; cbn [negb andb]; [|destruct warn]; cbn [fst]; (destruct (mode c) eqn:M; cbn [Bool.eqb fst];
      [now rewrite app_nil_r|]); try (now rewrite (toggle_calls _ F)). now rewrite app_nil_r.
  - destruct (mode c) eqn:M; cbn [Bool.eqb fst]; [now rewrite (toggle_calls _ F)|now rewrite app_nil_r].
Qed.
Lemma find_app {A} (p : A -> bool) a b : find p (a ++ b) = match find p a with Some x => Some x | None => find p b end.
Proof. induction a as [|x a IH]; [reflexivity|]. cbn. destruct (p x); [reflexivity|exact IH]. Qed.
Lemma find_told i b l : In i l -> find (fun x : nat * bool => Nat.eqb (fst x) i) (map (fun k => (k, b)) l) = Some (i, b).
Proof.
  induction l as [|k l IH]; intros I; [destruct I|]. cbn. destruct (Nat.eqb_spec k i) as [->|]; [reflexivity|].
  apply IH. destruct I; [congruence|assumption].
Qed.
Lemma step_told warn switches o c i : Forall (fun f => forall b, f b = Ok tt) switches -> (i < length switches)%nat ->
  told i c = mode c -> told i (fst (control_step warn switches o c)) = mode (fst (control_step warn switches o c)).
Proof.
  intros F L T. unfold told in *. rewrite (step_calls warn switches o c F). cbv zeta.
  destruct (Bool.eqb (mode c) _) eqn:E.
  - rewrite app_nil_r, T. now apply Bool.eqb_prop.
  - rewrite rev_app_distr, <- map_rev, find_app, find_told; [reflexivity|]. apply -> in_rev. apply in_seq. lia.
Qed.
