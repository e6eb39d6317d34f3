(** * One event loop for all: proofs *)
From Verif Require Import Base BaseFacts LoopModel LoopSpec.

Lemma run_app : forall l r w, run (l ++ r) w = (fst (run l w) ++ fst (run r (snd (run l w))), snd (run r (snd (run l w)))).
Proof.
  induction l as [|i l IH]; intros r w; cbn; [now destruct (run r w)|]. destruct (step i w) as [e w'] eqn:E. rewrite IH.
  destruct (run l w') as [es w'']. cbn. now rewrite app_assoc.
Qed.
Lemma put_same {A} (f : nat -> A) i x : put f i x i = x.
Proof. unfold put. now rewrite Nat.eqb_refl. Qed.
Lemma put_other {A} (f : nat -> A) i j x : j <> i -> put f i x j = f j.
Proof. unfold put. intros N. destruct (Nat.eqb_spec j i); [contradiction|reflexivity]. Qed.

(** What is left of the program of each thread. *)
Definition suffix (program : nat -> list request) (w : world) : Prop := forall i, exists made, program i = made ++ calls w i.
Lemma suffix_step program i w : suffix program w -> suffix program (snd (step i w)).
Proof.
  intros S. assert (L : suffix program (leave w i)).
  { intros j. destruct (S j) as [m E]. cbn. unfold put. destruct (Nat.eqb_spec j i) as [->|]; [|eauto]. destruct (calls w i) as [|c cs] eqn:C; [cbn; eauto|].
    exists (m ++ [c]). rewrite E, <- app_assoc. reflexivity. }
  unfold step. destruct (calls w i) as [|c cs] eqn:C; [exact S|]. destruct (places w i); repeat match goal with |- context [if ?b then _ else _] => destruct b end; try exact L; exact S.
Qed.
Lemma call_number program w i c cs : suffix program w -> calls w i = c :: cs -> call_at program i (number w i) = Some c.
Proof.
  intros S C. destruct (S i) as [m E]. unfold call_at, number. rewrite E, C. cbn [tl]. rewrite rev_app_distr. cbn [rev]. rewrite <- app_assoc.
  rewrite nth_error_app2 by (rewrite rev_length; lia). rewrite rev_length, Nat.sub_diag. reflexivity.
Qed.

(** ** Calls within an event loop *)
Definition winv (program : nat -> list request) (w : world) : Prop := suffix program w /\
  forall i, places w i <> Outside -> exists c cs, calls w i = c :: cs /\ within_loop c = false.
Lemma winv_step program i w : winv program w -> winv program (snd (step i w)) /\
  forall j k, In (Returned j k) (fst (step i w)) -> exists c, call_at program j k = Some c /\ within_loop c = false.
Proof.
  intros [S P]. split; [split; [now apply suffix_step|]|].
  - assert (LV : forall j, places (leave w i) j <> Outside -> exists c cs, calls (leave w i) j = c :: cs /\ within_loop c = false).
    { intros j. cbn. unfold put. destruct (Nat.eqb_spec j i) as [->|N]; [congruence|]. apply P. }
    intros j. unfold step. destruct (calls w i) as [|c cs] eqn:C; [apply P|].
    assert (GO : forall p, places w i <> Outside -> put (places w) i p j <> Outside -> exists c cs, calls w j = c :: cs /\ within_loop c = false).
    { intros p Q. unfold put. destruct (Nat.eqb_spec j i) as [->|N]; [intros _; now apply P|apply P]. }
    destruct (places w i) eqn:PL.
    + destruct (running w || within_loop c) eqn:R; [apply LV|]. cbn. apply Bool.orb_false_iff in R as [_ R]. unfold put. destruct (Nat.eqb_spec j i) as [->|N]; [intros _; eauto|apply P].
    + destruct (running w); [apply LV|]. apply GO. discriminate.
    + apply GO. discriminate.
    + cbn. destruct (stopping w || _); [apply GO; discriminate|apply P].
    + destruct (existsb _ (ended w)); apply LV.
  - intros j k. unfold step. destruct (calls w i) as [|c cs] eqn:C; [intros []|]. destruct (places w i) eqn:PL; repeat match goal with |- context [if ?b then _ else _] => destruct b end; cbn; try (intros []; fail);
      try (intros [X|[]]; discriminate X).
    intros [X|[]]. injection X as <- <-. exists c. split; [now apply (call_number program w i c cs)|].
    destruct (P i) as (c' & cs' & E & Wl); [congruence|]. rewrite C in E. injection E as <- <-. exact Wl.
Qed.
Lemma winv_run program : forall l w, winv program w -> winv program (snd (run l w)) /\
  forall j k, In (Returned j k) (fst (run l w)) -> exists c, call_at program j k = Some c /\ within_loop c = false.
Proof.
  induction l as [|i l IH]; intros w V; cbn; [split; [exact V|intros j k []]|]. destruct (winv_step program i w V) as [V' R]. destruct (step i w) as [e w'].
  cbn in V', R. destruct (IH w' V') as [V'' R']. destruct (run l w') as [es w'']. cbn in *. split; [exact V''|]. intros j k I. apply in_app_iff in I as [I|I]; auto.
Qed.
Lemma winv_fresh program : winv program (fresh program).
Proof. split; [intros i; exists []; reflexivity|]. intros i H. cbn in H. congruence. Qed.

(** ** One call at a time *)
Definition own (w : world) (i n : nat) : list task := [{| owner := (i, number w i); left_over := n; stops := true |}].
Definition calm (w : world) (i : nat) : Prop := stopping w = false /\
  match places w i with
  | Outside => running w = false /\ tasks w = []
  | Scheduled | Checked => running w = false /\ exists n, tasks w = own w i n
  | Looping => running w = true /\ exists n, tasks w = own w i n
  | After => running w = false /\ tasks w = [] /\ In (i, number w i) (ended w)
  end.
Definition alone (w : world) (i : nat) : Prop := forall j, j <> i -> places w j = Outside.
Definition fair_end (program : nat -> list request) (e : outcome) : Prop :=
  match e with
  | Returned i k => True
  | Refused i k => exists c, call_at program i k = Some c /\ within_loop c = true
  end.
Lemma calm_step program i w : winv program w -> alone w i -> calm w i ->
  alone (snd (step i w)) i /\ calm (snd (step i w)) i /\ Forall (fair_end program) (fst (step i w)).
Proof.
  intros [S P] A [ST C]. unfold step. destruct (calls w i) as [|c cs] eqn:CL; [repeat split; try assumption; constructor|].
  assert (AP : forall w' p, places w' = put (places w) i p -> alone w' i) by (intros w' p E j N; rewrite E, put_other by exact N; now apply A).
  destruct (places w i) eqn:PL.
  - destruct C as [R T]. rewrite R. cbn [orb]. destruct (within_loop c) eqn:W.
    + split; [now apply (AP _ Outside)|]. split.
      * unfold calm. cbn [snd leave stopping places running tasks]. rewrite put_same, T. auto.
      * constructor; [|constructor]. exists c. split; [now apply (call_number program w i c cs)|exact W].
    + split; [now apply (AP _ Scheduled)|]. split; [|constructor]. unfold calm. cbn [snd stopping places running tasks]. rewrite put_same, T. split; [exact ST|]. split; [reflexivity|].
      exists (rounds c). reflexivity.
  - destruct C as [R T]. rewrite R. split; [now apply (AP _ Checked)|]. split; [|constructor]. unfold calm. cbn [snd go stopping places running tasks]. rewrite put_same. split; [exact ST|]. split; [exact R|exact T].
  - destruct C as [R T]. split; [now apply (AP _ Looping)|]. split; [|constructor]. unfold calm. cbn [snd stopping places running tasks]. rewrite put_same. split; [exact ST|]. split; [reflexivity|exact T].
  - destruct C as [R [n T]]. rewrite T, ST, R. unfold own. cbn [filter left_over negb orb]. destruct n as [|n]; cbn [Nat.eqb negb existsb stops orb andb map owner left_over Nat.pred app].
    + split; [now apply (AP _ After)|]. split; [|constructor]. unfold calm. cbn [snd stopping places running tasks ended]. rewrite put_same. split; [reflexivity|]. split; [reflexivity|]. split; [reflexivity|].
      left. reflexivity.
    + split; [exact A|]. split; [|constructor]. unfold calm. cbn [snd stopping places running tasks ended]. rewrite PL. split; [reflexivity|]. split; [reflexivity|]. exists n. reflexivity.
  - destruct C as (R & T & E).
    assert (X : existsb (fun id => Nat.eqb (fst id) i && Nat.eqb (snd id) (number w i)) (ended w) = true).
    { apply existsb_exists. exists (i, number w i). split; [exact E|]. cbn. now rewrite !Nat.eqb_refl. }
    rewrite X. split; [now apply (AP _ Outside)|]. split.
    + unfold calm. cbn [snd leave stopping places running tasks]. rewrite put_same, T. auto.
    + constructor; [exact I|constructor].
Qed.
Lemma calm_other w i j : alone w i -> alone w j -> calm w i -> calm w j.
Proof.
  intros A B [ST C]. destruct (Nat.eq_dec j i) as [->|N]; [split; assumption|]. rewrite (B i) in C by congruence. split; [exact ST|]. rewrite (A j) by exact N. exact C.
Qed.
Lemma alone_run program : forall l w i, winv program w -> alone w i -> calm w i ->
  (forall before j after, l = before ++ j :: after -> forall i, i <> j -> places (snd (run before w)) i = Outside) ->
  (exists j, alone (snd (run l w)) j /\ calm (snd (run l w)) j) /\ Forall (fair_end program) (fst (run l w)).
Proof.
  induction l as [|j l IH]; intros w i V A C O; [split; [exists i; split; assumption|constructor]|].
  assert (AJ : alone w j) by (intros k N; now apply (O [] j l eq_refl)).
  destruct (calm_step program j w V AJ (calm_other w i j A AJ C)) as (A' & C' & F). destruct (winv_step program j w V) as [V' _].
  cbn [run]. destruct (step j w) as [e w'] eqn:E. cbn [fst snd] in *.
  assert (O' : forall before k after, l = before ++ k :: after -> forall i, i <> k -> places (snd (run before w')) i = Outside).
  { intros b k a Q x N. specialize (O (j :: b) k a). cbn [app run] in O. rewrite E in O. destruct (run b w') as [es w''] eqn:RB. cbn [snd] in *. apply (O (f_equal (cons j) Q) x N). }
  destruct (IH w' j V' A' C' O') as [X Y]. destruct (run l w') as [es w'']. cbn [fst snd] in *. split; [exact X|]. apply Forall_app. auto.
Qed.
Lemma serial_run program l : one_at_a_time program l ->
  (exists j, alone (snd (run l (fresh program))) j /\ calm (snd (run l (fresh program))) j) /\ Forall (fair_end program) (fst (run l (fresh program))).
Proof.
  intros O. apply (alone_run program l (fresh program) 0%nat (winv_fresh program)); [intros j _; reflexivity|repeat split|exact O].
Qed.

(** How far the call of thread [i] is from its end. *)
Definition to_go (w : world) (i : nat) : nat :=
  match places w i with
  | Outside => S (match calls w i with c :: _ => 5 + rounds c | [] => 0 end)
  | Scheduled => 4 + match tasks w with t :: _ => left_over t | [] => 0 end
  | Checked => 3 + match tasks w with t :: _ => left_over t | [] => 0 end
  | Looping => 2 + match tasks w with t :: _ => left_over t | [] => 0 end
  | After => 1
  end.
Lemma ends_alone program i : forall n w c cs, winv program w -> alone w i -> calm w i -> calls w i = c :: cs -> (to_go w i <= n)%nat -> within_loop c = false ->
  exists m, fst (run (repeat i m) w) = [Returned i (number w i)] /\ places (snd (run (repeat i m) w)) i = Outside.
Proof.
  induction n as [|n IH]; intros w c cs V A C CL L WL; [unfold to_go in L; destruct (places w i); lia|].
  destruct (calm_step program i w V A C) as (A' & C' & _). destruct (winv_step program i w V) as [V' _].
  assert (NEXT : fst (step i w) = [] -> calls (snd (step i w)) i = c :: cs -> number (snd (step i w)) i = number w i -> (to_go (snd (step i w)) i <= n)%nat ->
    exists m, fst (run (repeat i m) w) = [Returned i (number w i)] /\ places (snd (run (repeat i m) w)) i = Outside).
  { intros E1 E2 E3 E4. destruct (IH (snd (step i w)) c cs V' A' C' E2 E4 WL) as (m & R1 & R2). exists (S m). cbn [repeat run]. destruct (step i w) as [e w']. cbn [fst snd] in *. subst e.
    destruct (run (repeat i m) w') as [es w'']. cbn [fst snd app] in *. rewrite <- E3. auto. }
  destruct C as [ST C]. unfold to_go in L. unfold step in NEXT. rewrite CL in NEXT, L. destruct (places w i) eqn:PL.
  - destruct C as [R T]. rewrite R, WL in NEXT. cbn [orb fst snd] in NEXT. apply NEXT; [reflexivity|exact CL|reflexivity|]. unfold to_go. cbn [places tasks]. rewrite put_same, T. cbn. lia.
  - destruct C as [R T]. rewrite R in NEXT. cbn [fst snd] in NEXT. apply NEXT; [reflexivity|exact CL|reflexivity|]. unfold to_go. cbn [go places tasks]. rewrite put_same. lia.
  - cbn [fst snd] in NEXT. apply NEXT; [reflexivity|exact CL|reflexivity|]. unfold to_go. cbn [places tasks]. rewrite put_same. lia.
  - destruct C as [R [k T]]. rewrite T, ST, R in *. unfold own in *. cbn [filter left_over negb orb] in *. destruct k as [|k]; cbn [Nat.eqb negb existsb stops orb andb map owner left_over Nat.pred app fst snd] in NEXT.
    + apply NEXT; [reflexivity|exact CL|reflexivity|]. unfold to_go. cbn [places]. rewrite put_same. lia.
    + apply NEXT; [reflexivity|exact CL|reflexivity|]. unfold to_go. cbn [places tasks]. rewrite PL. cbn. cbn in L. lia.
  - destruct C as (R & T & E). exists 1%nat. cbn [repeat run]. unfold step. rewrite CL, PL.
    assert (X : existsb (fun id => Nat.eqb (fst id) i && Nat.eqb (snd id) (number w i)) (ended w) = true).
    { apply existsb_exists. exists (i, number w i). split; [exact E|]. cbn. now rewrite !Nat.eqb_refl. }
    rewrite X. cbn [fst snd app leave places]. rewrite put_same. auto.
Qed.
