(** * One authenticator shared by asyncio tasks (C99): theorems *)
From Coq Require Import ZArith Lia.
From Verif Require Import Base BaseFacts CanonModel ClockModel CipherModel CipherProps AuthModel AuthSpec AuthProofs AuthProps
  AwaitModel AwaitSpec AwaitProofs.

(** ** C99: overlapping calls are calls made one at a time

    Whatever the schedule of the tasks, the calls which were not turned away got, in the order in
    which they ended, the replies they would have got one at a time, and the objects are left as
    these calls leave them. Nothing else has happened, except that a generator whose task was
    cancelled is closed. *)
Theorem C99_as_if_one_at_a_time : forall H c, c_type c = ShakePermute -> forall b l,
  exists turns, closes turns <= cancellations l /\
    one_at_a_time H c (unused b) turns =
      (filter (fun x => negb (turned_away x)) (ended H c b l), s_world (state_after H c b l)).
Proof. intros H c T b l. exact (run_matches H c T b l). Qed.
Print Assumptions C99_as_if_one_at_a_time.

(** ** C99: one tag

    At most one finalization of an object ever answers, and whatever shows a tag of this object, be
    it the result or a successful test, shows that one. *)
Theorem C99_one_tag : forall H c, c_type c = ShakePermute -> forall b l i t l1 l2,
  ended H c b l = l1 ++ (Finalize i, Got t) :: l2 ->
  (forall t', ~ In (Finalize i, Got t') (l1 ++ l2)) /\
  (forall t' x, In x (ended H c b l) -> shows i t' x -> t' = t).
Proof.
  intros H c T b l i t l1 l2 E. destruct (run_matches H c T b l) as (turns & _ & R).
  fold (ended H c b l) in R. rewrite E, filter_app in R. cbn [filter turned_away negb] in R.
  pose proof (f_equal fst R) as R1. cbn [fst] in R1.
  assert (P : forall t' l, In (Finalize i, Got t') l -> In (Finalize i, Got t') (filter (fun x => negb (turned_away x)) l)).
  { intros t' l' I. apply filter_In. auto. }
  split.
  - intros t' I. apply in_app_or in I. destruct I as [I|I].
    + apply P in I. exact (one_tag H c i t turns _ _ _ (sound_unused b) R1 t' I).
    + apply P in I. apply in_split in I. destruct I as (m1 & m2 & I). rewrite I in R1.
      change (filter (fun x => negb (turned_away x)) l1 ++ (Finalize i, Got t) :: m1 ++ (Finalize i, Got t') :: m2)
        with (filter (fun x => negb (turned_away x)) l1 ++ ((Finalize i, Got t) :: m1) ++ (Finalize i, Got t') :: m2) in R1.
      rewrite app_assoc in R1. apply (one_tag H c i t' turns _ _ _ (sound_unused b) R1 t). apply in_or_app. right. now left.
  - intros t' x I S. apply (tagged_same i t' t (s_world (snd (run H c l (fresh b))))).
    + now apply (shown_run H c T b i t' l x).
    + apply (shown_run H c T b i t l (Finalize i, Got t)); [|now left]. fold (ended H c b l). rewrite E. apply in_or_app. cbn. auto.
Qed.
Print Assumptions C99_one_tag.

(** ** C99: who is turned away

    A finalization is refused only behind another one of the same object: one that has answered, one
    that is under way, or one whose task was cancelled in it.  A block is refused only if the
    generator is busy with the block of another task. *)
Theorem C99_refused_only_behind_another : forall H c, c_type c = ShakePermute -> forall b l,
  (forall i, In (Finalize i, Raised PermissionErr) (ended H c b l) ->
    exists l1 l2, l = l1 ++ l2 /\
      ((exists t, In (Finalize i, Got t) (ended H c b l1)) \/
       (exists u, finalizing H c b l1 u i) \/
       (exists l3 u l4, l1 = l3 ++ Cancel u :: l4 /\ finalizing H c b l3 u i))) /\
  (forall g block, In (Feed g block, Raised RuntimeErr) (ended H c b l) ->
    exists l1 l2 u block' out hashed, l = l1 ++ l2 /\
      s_tasks (state_after H c b l1) u = Some (Feeding g block' out hashed)).
Proof.
  intros H c T b l. split.
  - intros i I. destruct (refused_claimed H c T b i l I) as (l1 & l2 & E & C). exists l1, l2. split; [exact E|].
    destruct (claimed_why H c T b i l1 C) as [F|[U|X]]; [|auto|auto]. left.
    destruct (run_matches H c T b l1) as (turns & _ & R). pose proof (final_turns H c T i turns (unused b)) as Y. rewrite R in Y.
    cbn [fst snd] in Y. destruct (Y F) as [(h & N & _)|(t & J)]; [now destruct i|].
    apply filter_In in J. exists t. apply J.
  - intros g block I. destruct (busy_run H c T b g block l I) as (l1 & l2 & E & R).
    destruct (held_run H c b l1 g R) as (u & bl & out & hs & X). exists l1, l2, u, bl, out, hs. auto.
Qed.
Print Assumptions C99_refused_only_behind_another.

(** At that very moment. *)
Theorem C99_busy_only_while_feeding : forall H c, c_type c = ShakePermute -> forall b l a g block,
  ended H c b (l ++ [a]) = ended H c b l ++ [(Feed g block, Raised RuntimeErr)] ->
  exists u block' out hashed, s_tasks (state_after H c b l) u = Some (Feeding g block' out hashed).
Proof.
  intros H c T b l a g block E. apply (held_run H c b l g). apply (busy_act H c T _ a g block); [now apply run_ok|].
  revert E. unfold ended. rewrite run_snoc. cbn [fst]. intros E. apply app_inv_head in E. rewrite E. now left.
Qed.
Print Assumptions C99_busy_only_while_feeding.

(** ** C99: a cancelled finalization

    Once the task inside afinalize is cancelled, the object has no tag and never gets one. *)
Theorem C99_cancelled_finalization_is_for_ever : forall H c, c_type c = ShakePermute -> forall b l1 u l2 i,
  finalizing H c b l1 u i ->
  (forall t x, In x (ended H c b (l1 ++ Cancel u :: l2)) -> ~ shows i t x) /\
  (forall t asynchronous, s_tasks (state_after H c b (l1 ++ Cancel u :: l2)) t = None ->
    ended H c b ((l1 ++ Cancel u :: l2) ++ [Make t (Finalize i) asynchronous]) =
      ended H c b (l1 ++ Cancel u :: l2) ++ [(Finalize i, Raised PermissionErr)]).
Proof.
  intros H c T b l1 u l2 i E. destruct (stuck_run H c T b i l1 u l2 E) as (C & F & N). split.
  - intros t x I S. apply F. destruct (shown_run H c T b i t _ x I S) as (h & X & _ & Y). now exists h.
  - intros t asy K. unfold ended. rewrite run_snoc. cbn [fst act]. f_equal. unfold make. unfold state_after in K. rewrite K.
    unfold begin_finalize. destruct (nth_error _ i) as [h|] eqn:S; [now rewrite C|].
    elim (o_claims _ _ _ (run_ok H c T b _) i C S).
Qed.
Print Assumptions C99_cancelled_finalization_is_for_ever.

(** ** Cases *)

(** No counterpart: what is shown of the replies below. *)
Definition outline (l : list (call * reply)) : list reply := map (fun x => if is_got (snd x) then Done else snd x) l.
Definition preamble : list action :=
  [Make 0 (DeclareRun Async) false; Make 0 NewShmac false; Make 0 (DeclareMode 0 Encryption) false;
   Make 0 (Start 0 Encryption Async) false].

(** Three tasks overlap: two feed, one asks for block ids, all finalize. *)
Example C99_case : exists c ks b, slick256 [x61] 13 = Ok c /\ c_type c = ShakePermute /\
  make_cipher toy c a_key = Ok ks /\
  make_bundle toy c ks None [] None (repeat x01 8) (repeat x02 8) = Ok b /\
  let l := preamble ++
    [Make 1 (Feed 0 (repeat x41 32)) true; Make 2 (Feed 0 (repeat x42 32)) true;
     Make 2 (BlockId 0 (repeat x43 32) None []) true; Resume 1; Resume 2;
     Make 1 (Feed 0 (repeat x44 32)) true; Make 2 (Finalize 0) true; Make 3 (Finalize 0) false;
     Make 3 (Result 0) false; Resume 1; Resume 2; Make 3 (Result 0) false; Make 1 (Feed 0 (repeat x45 32)) true] in
  map (fun x => match fst x with Feed _ _ => 1 | BlockId _ _ _ _ => 2 | Finalize _ => 3 | Result _ => 4 | _ => 0 end)
      (ended toy c b l) = [0; 0; 0; 0; 1; 1; 2; 3; 4; 1; 3; 4; 1] /\
  outline (ended toy c b l) =
    [Done; Made 0; Done; Made 0; Raised RuntimeErr; Done; Done; Raised PermissionErr; Raised AttributeErr; Done; Done; Done;
     Raised AttributeErr] /\
  (exists t, nth_error (ended toy c b l) 10 = Some (Finalize 0, Got t) /\ nth_error (ended toy c b l) 11 = Some (Result 0, Got t)).
Proof.
  destruct (slick256 [x61] 13) as [c|] eqn:E; [|vm_compute in E; discriminate].
  vm_compute in E. apply Ok_inj in E. subst c. eexists _, _, _.
  split; [reflexivity|]. split; [reflexivity|]. split; [vm_compute; reflexivity|]. split; [vm_compute; reflexivity|].
  split; [vm_compute; reflexivity|]. split; [vm_compute; reflexivity|]. eexists. split; vm_compute; reflexivity.
Qed.

(** A finalization can be made again after a task was cancelled in it: refuted. *)
Theorem C99_finalize_after_cancellation_refuted : exists c ks b, slick256 [x61] 13 = Ok c /\
  make_cipher toy c a_key = Ok ks /\
  make_bundle toy c ks None [] None (repeat x01 8) (repeat x02 8) = Ok b /\
  let l := preamble ++ [Make 1 (Finalize 0) true] in
  finalizing toy c b l 1 0 /\
  outline (ended toy c b (l ++ Cancel 1 :: [Make 1 (Result 0) false; Make 1 (Finalize 0) true; Make 1 (Finalize 0) false; Make 1 (Result 0) false])) =
    [Done; Made 0; Done; Made 0; Raised AttributeErr; Raised PermissionErr; Raised PermissionErr; Raised AttributeErr].
Proof.
  destruct (slick256 [x61] 13) as [c|] eqn:E; [|vm_compute in E; discriminate].
  vm_compute in E. apply Ok_inj in E. subst c. eexists _, _, _.
  split; [reflexivity|]. split; [vm_compute; reflexivity|]. split; [vm_compute; reflexivity|].
  split; vm_compute; reflexivity.
Qed.
Print Assumptions C99_finalize_after_cancellation_refuted.

(** The block id is the one of the moment of the call: refuted.  Task 2 asks while the second block is
    under way; had it asked without waiting, the id were another one. *)
Theorem C99_block_id_of_the_call_refuted : exists c ks b, slick256 [x61] 13 = Ok c /\
  make_cipher toy c a_key = Ok ks /\
  make_bundle toy c ks None [] None (repeat x01 8) (repeat x02 8) = Ok b /\
  exists id id',
  let ask := BlockId 0 (repeat x43 32) None [] in
  In (ask, Got id) (ended toy c b (preamble ++ [Make 1 (Feed 0 (repeat x40 32)) true; Resume 1; Make 1 (Feed 0 (x02 :: repeat x41 31)) true; Make 2 ask false; Resume 1])) /\
  In (ask, Got id') (ended toy c b (preamble ++ [Make 1 (Feed 0 (repeat x40 32)) true; Resume 1; Make 1 (Feed 0 (x02 :: repeat x41 31)) true; Make 2 ask true; Resume 1; Resume 2])) /\
  id <> id'.
Proof.
  destruct (slick256 [x61] 13) as [c|] eqn:E; [|vm_compute in E; discriminate].
  vm_compute in E. apply Ok_inj in E. subst c. eexists _, _, _.
  split; [reflexivity|]. split; [vm_compute; reflexivity|]. split; [vm_compute; reflexivity|].
  eexists _, _. cbv zeta. split; [|split].
  - vm_compute. do 5 right. left. reflexivity.
  - vm_compute. do 6 right. left. reflexivity.
  - vm_compute. discriminate.
Qed.
Print Assumptions C99_block_id_of_the_call_refuted.
