(** * C102: permutations and GUID makers shared by asyncio tasks.

    [one_call s l1 t k l2 r] (WeaveSpec.v): in a schedule which starts with the
    permutation [s], task [t] awaits the method [k] after [l1]; the call is under
    way all through [l2] and ends, with [r], when the task is next given a turn.
    The other tasks do in [l2] whatever they like. *)
From Coq Require Import ZArith Lia Permutation.
From Verif Require Import Base BaseFacts PermModel PermSpec PermProofs PermProps ClockModel IdModel IdSpec
  IdProofs IdProps WeaveModel WeaveSpec WeaveProofs.
Local Open Scope Z_scope.

(** ** Permutations *)

(** An awaited method gives what the synchronous method gives on the permutation as it is at one
    moment: [apermute] as it was when the call began, the others as it is when the call ends. *)
Theorem C102_answer_of_one_moment : forall s l1 t k l2 r,
  one_call s l1 t k l2 r ->
  r = answer_of (chain_after s (match k with Permute _ => l1 | _ => l1 ++ Make t k :: l2 end)) k.
Proof.
  intros s l1 t k l2 r H. rewrite (proj2 (one_call_followed _ _ _ _ _ _ H)). destruct k; reflexivity.
Qed.
Print Assumptions C102_answer_of_one_moment.

(** The synchronous methods, called in between, give what the permutation is then. *)
Theorem C102_synchronous_calls : forall s l t k, ~ inside s l t ->
  ended s (l ++ [CallNow t k]) = ended s l ++ [(t, k, answer_of (chain_after s l) k)].
Proof.
  intros s l t k N. unfold ended, chain_after. rewrite run_app. cbn [snd]. f_equal.
  unfold inside in N. set (m := fst (run (unused s) l)) in *. rewrite run_cons. cbn [run snd act].
  destruct (sh_tasks m t); [exfalso; apply N; discriminate|].
  rewrite <- call_now_answer. destruct (call_now (sh_chain m) k). reflexivity.
Qed.
Print Assumptions C102_synchronous_calls.

(** The permutation is what the tweaks make of it which have ended, in the order in which they ended:
    each counts once, and a call that is cancelled or under way has changed nothing. *)
Theorem C102_tweaks_in_the_order_they_end : forall s l, chain_after s l = after s (tweaks (ended s l)).
Proof. intros s l. apply (run_chain l (unused s) (unused_typed s)). Qed.
Print Assumptions C102_tweaks_in_the_order_they_end.

(** Nothing the others do keeps a call from ending: three turns are enough, for a tweak one. *)
Theorem C102_every_call_ends : forall s l1 t k l2,
  ~ inside s l1 t -> ~ In (Cancel t) l2 -> (turns k <= turns_of t l2)%nat ->
  exists l3 l4 r, l2 = l3 ++ Resume t :: l4 /\ one_call s l1 t k l3 r.
Proof.
  intros s l1 t k l2 N C L.
  destruct (make_followed s l1 t k N) as (_ & _ & p & E & _).
  assert (P : (left_of p <= turns_of t l2)%nat).
  { assert (Q : p = begin_job (chain_after s l1) k).
    { rewrite run_app in E. cbn [fst] in E. rewrite run_cons in E. cbn [fst run act] in E. unfold chain_after, inside in *.
      destruct (sh_tasks (fst (run (unused s) l1)) t); [exfalso; apply N; discriminate|].
      cbn in E. rewrite Nat.eqb_refl in E. injection E as <-. reflexivity. }
    rewrite Q. destruct k; exact L. }
  destruct (ends_within l2 t k _ p E P C) as (l3 & l4 & r & Q1 & Q2 & Q3).
  exists l3, l4, r. split; [exact Q1|]. split; [exact N|].
  assert (A : forall l, l1 ++ Make t k :: l = (l1 ++ [Make t k]) ++ l).
  { intro l. rewrite <- app_assoc. reflexivity. }
  split.
  - intros a b Hab. unfold inside. rewrite A, run_app. exact (Q2 a b Hab).
  - unfold ended. rewrite (A (l3 ++ [Resume t])), (A l3), app_assoc, (run_app (_ ++ l3)). cbn [snd]. f_equal.
    rewrite run_cons. cbn [snd run]. rewrite app_nil_r, run_app. cbn [fst]. exact Q3.
Qed.
Print Assumptions C102_every_call_ends.

(** What one task permuted another recovers, if no tweak ends from the beginning of the first call
    to the end of the second; permutations and inversions by others do not matter, nor do tweaks begun
    and cancelled. *)
Theorem C102_recovered : forall kind size mult c key s l1 t v l2 w l3 u l4 r,
  make_chain_config kind size mult = Ok c -> make_chain c key = Ok s -> in_domain size v ->
  one_call s l1 t (Permute v) l2 (Ok (Number w)) ->
  let l := l1 ++ Make t (Permute v) :: l2 ++ Resume t :: l3 in
  one_call s l u (Invert w) l4 r ->
  tweaks (ended s (l ++ Make u (Invert w) :: l4)) = tweaks (ended s l1) ->
  r = Ok (Number v).
Proof.
  intros kind size mult c key s l1 t v l2 w l3 u l4 r Hc Hs D H1 l H2 Q.
  apply C102_answer_of_one_moment in H1, H2. rewrite C102_tweaks_in_the_order_they_end in H1, H2.
  rewrite Q in H2. cbn [answer_of] in H1, H2.
  destruct (C12_chain_bijection kind size mult c key s (tweaks (ended s l1)) Hc Hs) as ((B & _) & _).
  destruct (B v D) as (w' & P1 & P2 & P3). rewrite P1 in H1. injection H1 as <-. rewrite P3 in H2. exact H2.
Qed.
Print Assumptions C102_recovered.

(** Not so if a tweak ends while the inversion is under way, although both calls began when the
    permutation was the same: [apermute] takes the key at its beginning, [ainvert] at its end. *)
Theorem C102_begun_in_time_refuted : exists kind size mult c key s v l1 t l2 w u l4 r,
  make_chain_config kind size mult = Ok c /\ make_chain c key = Ok s /\ in_domain size v /\
  one_call s l1 t (Permute v) l2 (Ok (Number w)) /\
  (let l := l1 ++ Make t (Permute v) :: l2 ++ [Resume t] in
   one_call s l u (Invert w) l4 r /\ chain_after s l = chain_after s l1) /\
  r <> Ok (Number v).
Proof.
  exists FastChain, 1, 37. eexists. exists ex_key5. eexists. exists 9, [], 0%nat.
  exists [Resume 0%nat; Resume 0%nat], 87, 1%nat.
  exists [Resume 1%nat; Make 0%nat Step; Resume 0%nat; Resume 1%nat]. eexists.
  split; [vm_compute; reflexivity|]. split; [vm_compute; reflexivity|]. split; [split; reflexivity || discriminate|].
  assert (O : forall (s : chain) l t, match sh_tasks (fst (run (unused s) l)) t with None => true | _ => false end = false ->
    inside s l t).
  { intros s l t H E. rewrite E in H. discriminate H. }
  assert (N : forall (s : chain) l t, match sh_tasks (fst (run (unused s) l)) t with None => true | _ => false end = true ->
    ~ inside s l t).
  { intros s l t H E. apply E. destruct (sh_tasks _ t); [discriminate H|reflexivity]. }
  split; [|split].
  - split; [apply N; vm_compute; reflexivity|]. split; [|vm_compute; reflexivity].
    intros [|a [|b [|? ?]]] l4 H; try discriminate H; try (injection H; intros; subst); apply O; vm_compute; reflexivity.
  - split; [|vm_compute; reflexivity].
    split; [apply N; vm_compute; reflexivity|]. split; [|vm_compute; reflexivity].
    intros [|a [|b [|b3 [|b4 [|? ?]]]]] l4 H; try discriminate H; try (injection H; intros; subst); apply O; vm_compute; reflexivity.
  - discriminate.
Qed.
Print Assumptions C102_begun_in_time_refuted.

(** ** GUID makers *)

(** Whatever the tasks do, the GUIDs they get are results of [new] in one sequential history, whose
    times and tokens are those of the moments at which the raw GUIDs were drawn; no result is given
    twice, and the rest belongs to calls cancelled or under way. *)
Theorem C102_guids_of_one_history : forall mult dk key node cid g l,
  make_guid mult dk key node cid = Ok g -> Forall (good_token cid) (draws g l) ->
  exists rest, Permutation (new_ids (ids_ended g l) ++ rest) (guid_run g (draws g l)).
Proof.
  intros mult dk key node cid g l H F.
  destruct (make_guid_ok _ _ _ _ _ _ H) as (S & W & _ & _ & P).
  assert (WG : wf_guid cid g) by (constructor; assumption).
  destruct (id_run_accounted cid l g (idle g) [] [] WG F) as (_ & _ & rest & _ & Q).
  { split; [intros t k p E; discriminate E|]. split; [reflexivity|]. exists []. split; [|reflexivity].
    intros t p E; discriminate E. }
  exists (map snd rest). exact Q.
Qed.
Print Assumptions C102_guids_of_one_history.

(** A GUID's place in that history is between the beginning and the end of the call. *)
Theorem C102_guid_of_its_own_time : forall mult dk key node cid g l1 t l2 now token r,
  make_guid mult dk key node cid = Ok g ->
  let l := l1 ++ IdMake t New :: l2 ++ [IdResume t now token] in
  Forall (good_token cid) (draws g l) ->
  one_id_call g l1 t New l2 now token r ->
  exists i, (length (draws g l1) <= i)%nat /\
    match nth_error (guid_run g (draws g l)) i with
    | Some (Ok b) => r = Ok (Identifier b)
    | Some (Err e) => r = Err e
    | None => False
    end.
Proof.
  intros mult dk key node cid g l1 t l2 now token r H l F (N & B & E).
  destruct (make_guid_ok _ _ _ _ _ _ H) as (S & W & _ & _ & P).
  assert (WG : wf_guid cid g) by (constructor; assumption).
  assert (A : forall x, l1 ++ IdMake t New :: x = (l1 ++ [IdMake t New]) ++ x).
  { intro x. rewrite <- app_assoc. reflexivity. }
  assert (A2 : l = (l1 ++ IdMake t New :: l2) ++ [IdResume t now token]).
  { unfold l. rewrite <- app_assoc. reflexivity. }
  assert (D0 : draws g (l1 ++ [IdMake t New]) = draws g l1).
  { unfold draws. rewrite draws_app. cbn [draws_from drawn]. now rewrite !app_nil_r. }
  assert (D1 : draws g (l1 ++ IdMake t New :: l2) =
    draws g l1 ++ draws_from (fst (id_run (idle g) (l1 ++ [IdMake t New]))) l2).
  { rewrite A, <- D0. unfold draws. rewrite draws_app. reflexivity. }
  set (m2 := fst (id_run (idle g) (l1 ++ IdMake t New :: l2))) in *.
  assert (D2 : draws g l = draws g (l1 ++ IdMake t New :: l2) ++ drawn m2 (IdResume t now token)).
  { rewrite A2. unfold draws. rewrite draws_app. cbn [draws_from]. rewrite app_nil_r. reflexivity. }
  rewrite D2 in F. pose proof F as F'. apply Forall_app in F'. destruct F' as [F1 _].
  assert (I0 : accounted g (idle g) [] []).
  { split; [intros u k p X; discriminate X|]. split; [reflexivity|]. exists []. split; [|reflexivity].
    intros u p X; discriminate X. }
  assert (I1 : accounted g (fst (id_run (idle g) (l1 ++ [IdMake t New]))) (draws g l1)
                 (snd (id_run (idle g) (l1 ++ [IdMake t New])))).
  { rewrite <- D0. apply (id_run_accounted cid _ g (idle g) [] [] WG); [|exact I0].
    cbn [app]. fold (draws g (l1 ++ [IdMake t New])). rewrite D0. rewrite D1 in F1. apply Forall_app in F1. exact (proj1 F1). }
  assert (I2 : accounted g m2 (draws g (l1 ++ IdMake t New :: l2)) (snd (id_run (idle g) (l1 ++ IdMake t New :: l2)))).
  { apply (id_run_accounted cid _ g (idle g) [] [] WG); [exact F1|exact I0]. }
  assert (O : new_on g t (length (draws g l1)) (draws g (l1 ++ IdMake t New :: l2)) m2).
  { rewrite D1. unfold m2. rewrite (A l2), (id_run_app (l1 ++ [IdMake t New]) l2). cbn [fst].
    apply (id_run_new cid _ _ _ _ _ (snd (id_run (idle g) (l1 ++ [IdMake t New])))); [exact WG| |exact I1| |].
    - rewrite <- D1. exact F1.
    - split; [reflexivity|]. left. rewrite id_run_app. cbn [fst]. unfold id_inside in N.
      rewrite id_run_cons. cbn [id_run fst id_act].
      destruct (mk_tasks (fst (id_run (idle g) l1)) t); [exfalso; apply N; discriminate|].
      cbn. now rewrite Nat.eqb_refl.
    - intros l3 l4 X. specialize (B l3 l4 X). unfold id_inside in B. rewrite (A l3), id_run_app in B. exact B. }
  assert (E' : snd (id_act m2 (IdResume t now token)) = [(t, New, r)]).
  { unfold ids_ended in E. fold l in E. rewrite A2, id_run_app in E. cbn [snd] in E. apply app_inv_head in E.
    rewrite id_run_cons in E. cbn [id_run snd] in E. rewrite app_nil_r in E. exact E. }
  destruct (new_ends cid _ _ _ _ _ _ _ _ _ WG F I2 O E') as (i & x & L & X & ->).
  exists i. split; [exact L|]. rewrite D2, X. destruct x; reflexivity.
Qed.
Print Assumptions C102_guid_of_its_own_time.

(** Hence no two calls get the same GUID, as long as at most 256 are drawn, or the clock does not go
    back and at most 256 are drawn at one reading. *)
Theorem C102_guids_unique : forall mult dk key node cid g l i j b,
  make_guid mult dk key node cid = Ok g -> Forall (good_token cid) (draws g l) ->
  (length (draws g l) <= 256)%nat \/ (monotone (draws g l) /\ at_most_256_per_reading (draws g l)) ->
  nth_error (new_ids (ids_ended g l)) i = Some (Ok b) ->
  nth_error (new_ids (ids_ended g l)) j = Some (Ok b) -> i = j.
Proof.
  intros mult dk key node cid g l i j b H F U Hi Hj.
  destruct (C102_guids_of_one_history _ _ _ _ _ _ l H F) as (rest & P).
  apply Permutation_sym in P. apply Permutation_nth_error in P. destruct P as (_ & f & Inj & P).
  assert (Q : forall n, nth_error (new_ids (ids_ended g l)) n = Some (Ok b) ->
    nth_error (guid_run g (draws g l)) (f n) = Some (Ok b)).
  { intros n E. rewrite <- P. apply nth_error_grow, E. }
  apply Q in Hi, Hj. apply Inj.
  assert (B : forall n, nth_error (guid_run g (draws g l)) n = Some (Ok b) -> (n < length (draws g l))%nat).
  { intros n E. rewrite <- (guid_run_length _ g). apply nth_error_Some. rewrite E. discriminate. }
  pose proof (B _ Hi). pose proof (B _ Hj).
  destruct (Nat.lt_trichotomy (f i) (f j)) as [L|[L|L]]; [exfalso|exact L|exfalso].
  - destruct (C17_guid_unique _ _ _ _ _ _ _ _ _ _ H F Hi Hj L) as (D & M). destruct U as [U|U]; [lia|exact (M U)].
  - destruct (C17_guid_unique _ _ _ _ _ _ _ _ _ _ H F Hj Hi L) as (D & M). destruct U as [U|U]; [lia|exact (M U)].
Qed.
Print Assumptions C102_guids_unique.

(** Reading a GUID gives what it gives without the others. *)
Theorem C102_reads : forall g l1 t b l2 now token r,
  one_id_call g l1 t (Read b) l2 now token r -> r = (c <- guid_read g b ;; Ok (Parsed c)).
Proof.
  intros g l1 t b l2 now token r (N & B & E).
  assert (A : forall x, l1 ++ IdMake t (Read b) :: x = (l1 ++ [IdMake t (Read b)]) ++ x).
  { intro x. rewrite <- app_assoc. reflexivity. }
  assert (FR : forall l m, id_frame (mk_guid m) (mk_guid (fst (id_run m l)))).
  { induction l as [|a l IH]; intro m; [apply id_frame_refl|]. rewrite id_run_cons.
    eapply id_frame_trans; [apply id_act_frame|apply IH]. }
  pose proof (FR l1 (idle g)) as F1. cbn [idle mk_guid] in F1. unfold id_inside in N.
  assert (B0 : mk_tasks (fst (id_run (idle g) (l1 ++ [IdMake t (Read b)]))) t <> None).
  { apply (B [] l2 eq_refl). }
  assert (O : read_followed g t b (fst (id_run (idle g) (l1 ++ [IdMake t (Read b)])))).
  { split; [apply FR|]. rewrite id_run_app in *. cbn [fst] in *. rewrite id_run_cons in *. cbn [id_run fst id_act] in *.
    set (m := fst (id_run (idle g) l1)) in *.
    destruct (mk_tasks m t) eqn:Em; [exfalso; apply N; discriminate|].
    destruct (negb _) eqn:L; [exfalso; apply B0; exact Em|].
    eexists. split; [cbn; rewrite Nat.eqb_refl; reflexivity|]. destruct F1 as (Z1 & Z2 & Z3). cbn [reading_on].
    rewrite Z2, begin_invert by apply frame_refl. unfold guid_read. rewrite <- Z1, L. reflexivity. }
  assert (O2 : read_followed g t b (fst (id_run (idle g) (l1 ++ IdMake t (Read b) :: l2)))).
  { rewrite (A l2), (id_run_app (l1 ++ [IdMake t (Read b)]) l2). cbn [fst]. apply id_run_read; [exact O|].
    intros l3 l4 X. specialize (B l3 l4 X). unfold id_inside in B. rewrite (A l3), id_run_app in B. exact B. }
  apply (read_ends g t b _ now token r O2).
  unfold ids_ended in E. rewrite app_comm_cons, app_assoc, id_run_app in E. cbn [snd] in E. apply app_inv_head in E.
  rewrite id_run_cons in E. cbn [id_run snd] in E. rewrite app_nil_r in E. exact E.
Qed.
Print Assumptions C102_reads.

(** ** Cases *)
(** A step lands while a permutation is under way; a second step is cancelled. *)
Example C102_case : exists c s,
  make_chain_config FastChain 1 37 = Ok c /\ make_chain c ex_key5 = Ok s /\
  ended s [Make 0 (Permute 9); Make 1 Step; Resume 0; Resume 1; Make 1 Step; Resume 0; Cancel 1; Resume 0;
           CallNow 2 (Permute 9); Make 1 (Invert 35); Resume 1; Resume 1; Resume 1]%nat
    = [(1, Step, Ok Nothing); (0, Permute 9, Ok (Number 87)); (2, Permute 9, Ok (Number 35));
       (1, Invert 35, Ok (Number 9))]%nat.
Proof. do 2 eexists. ex_split. Qed.

(** Three tasks draw a raw GUID; one is cancelled then; the other two get theirs in the other order,
    and read them. *)
Definition ex_now : call := (EPOCH_NS + 1000, [x01; x02]).
Definition ex_turn (t : nat) : id_action := IdResume t (fst ex_now) (snd ex_now).
Definition ex_turns : list id_action :=
  [IdMake 0 New; IdMake 1 New; ex_turn 1; ex_turn 0; IdMake 2 New; ex_turn 2; IdCancel 2;
   ex_turn 0; ex_turn 0; ex_turn 0; ex_turn 1; ex_turn 1; ex_turn 1]%nat.
Example C102_guid_case : exists g b0 b1 b2 c,
  make_guid 12345677 [] (Some ex_guid_key) [x09] 12 = Ok g /\
  draws g ex_turns = [ex_now; ex_now; ex_now] /\
  guid_run g (draws g ex_turns) = [Ok b1; Ok b0; Ok b2] /\
  ids_ended g ex_turns = [(0, New, Ok (Identifier b0)); (1, New, Ok (Identifier b1))]%nat /\
  ids_ended g (ex_turns ++ IdMake 1 (Read b0) :: IdMake 0 New :: map ex_turn [1; 0; 1; 1])%nat
    = ids_ended g ex_turns /\
  ids_ended g (ex_turns ++ IdMake 1 (Read b0) :: IdMake 0 New :: map ex_turn [1; 0; 1; 1; 1])%nat
    = ids_ended g ex_turns ++ [(1, Read b0, Ok (Parsed c))]%nat /\
  co_ticker c = [x02].
Proof. do 5 eexists. ex_split. Qed.
