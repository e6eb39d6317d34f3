(** * C83, C84: functions in threads, processes and pools *)
From Coq Require Import Lia.
From Verif Require Import Base PoolModel PoolSpec PoolProofs.
Local Open Scope N_scope.

(** ** C83: [new] *)

(** The caller gets the value the function returns, whatever the order in which the two
    proceed; for a process the value has to be picklable. *)
Theorem C83_gives_the_value : forall (V E : Type) (size : V -> option N) q (v : V) l (a : answer V E),
  (q = Thread \/ size v <> None) ->
  cl (new V E size q (Returns v) l) = Returned a -> a = direct (Returns v).
Proof.
  intros V E size q v l a Hq Ha. apply new_returned in Ha. destruct Ha as [-> _].
  unfold reported, left_over. destruct q as [| c]; [reflexivity |].
  destruct Hq as [Hq | Hq]; [discriminate |]. destruct (size v); [reflexivity | contradiction].
Qed.
Print Assumptions C83_gives_the_value.

(** From a thread, and from a process if the value fits into the pipe, it does: there
    is a number of steps of the child after which the next look of the caller ends the
    call. *)
Theorem C83_ends_partial : forall (V E : Type) (size : V -> option N) q (v : V),
  match q with Thread => True | Process capacity => exists n, size v = Some n /\ n <= capacity end ->
  exists k, forall l, (k <= child_steps l)%nat ->
    cl (new V E size q (Returns v) (l ++ [Caller])) = Returned (direct (Returns v)).
Proof.
  intros V E size q v Hq. exists (N.to_nat (to_write size q (Returns (E := E) v)) + 2)%nat. intros l Hl.
  rewrite (new_ends size q (Returns v) l); [| | exact Hl].
  - unfold reported, left_over. destruct q as [| c]; [reflexivity |]. destruct Hq as [n [-> _]]. reflexivity.
  - destruct q as [| c]; [exact I |]. destruct Hq as [n [Hn Hc]]. cbn. rewrite Hn. exact Hc.
Qed.
Print Assumptions C83_ends_partial.

(** An exception never reaches the caller: the call always ends with [queue.Empty]. *)
Theorem C83_exceptions_reach_the_caller_refuted : forall (V E : Type) (size : V -> option N) q (e : E),
  (forall l a, cl (new V E size q (Raises e) l) = Returned a -> a = Empty) /\
  exists k, forall l, (k <= child_steps l)%nat ->
    cl (new V E size q (Raises e) (l ++ [Caller])) = Returned Empty.
Proof.
  intros V E size q e. split.
  - intros l a Ha. apply new_returned in Ha. destruct Ha as [-> _]. destruct q; reflexivity.
  - exists 2%nat. intros l Hl. rewrite (new_ends size q (Raises e) l); [destruct q; reflexivity | destruct q; exact I | destruct q; exact Hl].
Qed.
Print Assumptions C83_exceptions_reach_the_caller_refuted.

(** A value that does not fit into the pipe never reaches the caller, who waits for ever:
    the process does not end before the pipe is read, which the caller does not do
    before the process ends. *)
Theorem C83_large_values_refuted : forall (V E : Type) (size : V -> option N) capacity (v : V) n l,
  size v = Some n -> capacity < n -> cl (new V E size (Process capacity) (Returns v) l) = Probing.
Proof.
  intros V E size c v n l Hn Hc. destruct (cl (new V E size (Process c) (Returns v) l)) as [| a] eqn:Ea; [reflexivity |].
  exfalso. apply new_returned in Ea. destruct Ea as [_ F]. cbn in F. rewrite Hn in F. lia.
Qed.
Print Assumptions C83_large_values_refuted.

(** A value that cannot be pickled is lost. *)
Theorem C83_unpicklable_refuted : forall (V E : Type) (size : V -> option N) capacity (v : V) l a,
  size v = None -> cl (new V E size (Process capacity) (Returns v) l) = Returned a -> a = Empty.
Proof.
  intros V E size c v l a Hn Ha. apply new_returned in Ha. destruct Ha as [-> _].
  unfold reported, left_over. now rewrite Hn.
Qed.
Print Assumptions C83_unpicklable_refuted.

(** A pipe of ten bytes; numbers take up as many bytes as they say. *)
Example C83_case :
  let thread := new N unit (fun n => Some n) Thread in
  let process := new N unit (fun n => Some n) (Process 10) in
  let l := [Caller; Child 4; Caller; Child 4; Child 4; Caller; Child 1; Child 9; Child 1; Caller] in
  cl (thread (Returns 12) [Caller; Child 1; Caller; Child 1; Caller]) = Returned (Value 12) /\
  cl (process (Returns 9) l) = Returned (Value 9) /\
  cl (process (Returns 11) (l ++ l ++ l)) = Probing /\
  ch (process (Returns 11) (l ++ l ++ l)) = Flushing 1 (Some 11) /\
  cl (process (Raises tt) l) = Returned Empty /\
  cl (new N unit (fun n => None) (Process 10) (Returns 9) l) = Returned Empty.
Proof. vm_compute. repeat split. Qed.

(** ** C84: [gather] *)

(** However the pool works and whatever others do with it, the call ends as if the caller
    had run the functions one after the other. *)
Theorem C84_as_one_by_one : forall (V E : Type) workers (fs : list (outcome V E)) none l r,
  over (run_pool workers (idle fs none) l) r -> r = one_by_one fs.
Proof.
  intros V E w fs none l r [t Ht]. pose proof (run_ok w fs _ l (idle_ok fs none)) as [_ [_ K]].
  rewrite Ht in K. apply K.
Qed.
Print Assumptions C84_as_one_by_one.

(** With at least one worker, the call can end from every state it gets into. *)
Theorem C84_never_stuck : forall (V E : Type) workers (fs : list (outcome V E)) none l,
  (1 <= workers)%nat -> exists l', over (run_pool workers (idle fs none) (l ++ l')) (one_by_one fs).
Proof.
  intros V E w fs none l Hw.
  destruct (gather_can_end w Hw fs (run_pool w (idle fs none) l)) as [l' [r H]].
  - apply run_sound, idle_sound.
  - apply run_ok, idle_ok.
  - exists l'. rewrite <- run_app in H. pose proof (C84_as_one_by_one _ _ _ _ _ _ _ H). subst r. exact H.
Qed.
Print Assumptions C84_never_stuck.

(** No function is handed to a worker twice, and not more at a time than there are
    workers. *)
Theorem C84_each_once : forall (V E : Type) workers (fs : list (outcome V E)) none l,
  NoDup (handed (run_pool workers (idle fs none) l)) /\ (running (run_pool workers (idle fs none) l) <= workers)%nat.
Proof.
  intros V E w fs none l. split.
  - apply s_handed_once, run_sound, idle_sound.
  - apply run_running; [apply idle_sound | cbn; lia].
Qed.
Print Assumptions C84_each_once.

(** When the call gives results, each of its functions was handed to a worker and has
    ended. *)
Theorem C84_all_ran : forall (V E : Type) workers (fs : list (outcome V E)) none l vs,
  let p := run_pool workers (idle fs none) l in
  over p (Results vs) ->
  fs = map Returns vs /\ map (work p) (mine p) = fs /\ NoDup (mine p) /\
  forall i, In i (mine p) -> In i (handed p) /\ futures p i = Finished.
Proof.
  intros V E w fs none l vs p [t Ht].
  pose proof (run_ok w fs _ l (idle_ok fs none)) as [_ [Hn K]]. fold p in Hn, K.
  pose proof (run_sound w _ l (idle_sound fs none)) as S. fold p in S.
  unfold mine in *. rewrite Ht in *. destruct K as [Hf [Hr [_ Hi]]].
  split; [| split; [symmetry; exact Hf | split; [exact Hn |]]].
  - clear -Hr. revert vs Hr. induction fs as [| [v | e] fs IH]; intros vs Hr; cbn in Hr; try discriminate.
    + injection Hr as ->. reflexivity.
    + destruct (one_by_one fs) as [l | |] eqn:Eo; try discriminate. injection Hr as ->. cbn. f_equal. now apply IH.
  - intros i Hin. specialize (Hi vs eq_refl i Hin). split; [| exact Hi]. apply (s_handed p S). now right.
Qed.
Print Assumptions C84_all_ran.

(** Once the call is over, none of its functions is handed to a worker any more. *)
Theorem C84_nothing_later : forall (V E : Type) workers (fs : list (outcome V E)) none l l' r i,
  let p := run_pool workers (idle fs none) l in
  over p r -> In i (mine p) ->
  In i (handed (run_pool workers (idle fs none) (l ++ l'))) -> In i (handed p).
Proof.
  intros V E w fs none l l' r i p [t Ht] Hi Hl.
  pose proof (run_ok w fs _ l (idle_ok fs none)) as [Hm [_ K]]. fold p in Hm, K.
  rewrite run_app in Hl. fold p in Hl. apply decided_run in Hl; [exact Hl | | apply Hm, Hi].
  unfold mine in Hi. rewrite Ht in *. destruct K as [_ [_ [K _]]]. apply K, Hi.
Qed.
Print Assumptions C84_nothing_later.

(** Three functions and one of another caller in a pool with two workers.  The third
    function ends before the first.  The last call fails with the exception of the
    second function although the third failed before; the fourth is never run. *)
Example C84_case :
  let l := [OthersSubmit (Returns 9); Gather; Gather; Gather; Gather; Take; Take; Take; End 0; Take; End 2; Gather; Take; End 3; Gather; End 1; Gather; Gather; Gather; Gather; Gather; Gather; Gather; Gather] in
  let p := run_pool 2 (idle [Returns 1; Returns 2; Returns 3] (Raises tt)) l in
  let fs := [Returns 1; Raises true; Raises false; Returns 4] in
  let l' := [Gather; Gather; Gather; Gather; Gather; Take; Take; End 0; Take; End 2; Gather; Gather; End 1; Gather; Gather; Gather; Gather; Gather; Gather] in
  let p' := run_pool 2 (idle fs (Raises true)) l' in
  gather_ p = Ended (Results [1; 2; 3]) [1; 2; 3]%nat /\ handed p = [3; 2; 1; 0]%nat /\
  gather_ p' = Ended (Fails true) [0; 1; 2; 3]%nat /\ handed p' = [2; 1; 0]%nat /\
  handed (run_pool 2 (idle fs (Raises true)) (l' ++ [Take; Take; Take])) = [2; 1; 0]%nat.
Proof. vm_compute. repeat split. Qed.
