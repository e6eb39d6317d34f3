(** * One event loop for all: the theorems *)
From Verif Require Import Base BaseFacts LoopModel LoopSpec LoopProofs.

(** ** C106: the synchronous generator of random numbers *)

(** If no thread calls it while another is in a call, then exactly the calls made from within a running event loop are
    refused: the others return, whichever threads make them and however many there were. *)
Theorem C106_one_after_another : forall program l, one_at_a_time program l ->
  forall i k, (In (Refused i k) (fst (run l (fresh program))) -> exists c, call_at program i k = Some c /\ within_loop c = true) /\
              (In (Returned i k) (fst (run l (fresh program))) -> exists c, call_at program i k = Some c /\ within_loop c = false).
Proof.
  intros program l O i k. destruct (serial_run program l O) as [_ F]. rewrite Forall_forall in F. split; intros H.
  - exact (F _ H).
  - destruct (winv_run program l (fresh program) (winv_fresh program)) as [_ R]. now apply R.
Qed.
Print Assumptions C106_one_after_another.

(** And a thread that is left alone with its call gets its result, however long that takes. *)
Theorem C106_calls_end : forall program l i c cs, one_at_a_time program l ->
  let w := snd (run l (fresh program)) in
  (forall j, j <> i -> places w j = Outside) -> calls w i = c :: cs -> within_loop c = false ->
  exists n, fst (run (repeat i n) w) = [Returned i (length cs)] /\ places (snd (run (repeat i n) w)) i = Outside.
Proof.
  intros program l i c cs O w A CL WL. destruct (serial_run program l O) as [(j & AJ & C) _].
  destruct (winv_run program l (fresh program) (winv_fresh program)) as [V _].
  destruct (ends_alone program i (to_go w i) w c cs V A (calm_other w j i AJ A C) CL (le_n _) WL) as (m & R1 & R2). exists m. split; [|exact R2].
  rewrite R1. unfold number. rewrite CL. reflexivity.
Qed.
Print Assumptions C106_calls_end.

(** A call from within a running event loop never returns a value, whatever the schedule. *)
Theorem C106_within_a_loop : forall program l i k, In (Returned i k) (fst (run l (fresh program))) ->
  exists c, call_at program i k = Some c /\ within_loop c = false.
Proof.
  intros program l i k H. destruct (winv_run program l (fresh program) (winv_fresh program)) as [_ R]. now apply R.
Qed.
Print Assumptions C106_within_a_loop.

(** Threads 0 and 1 make one call each. *)
Definition pair_of (n : nat) (i : nat) : list request :=
  match i with 0%nat | 1%nat => [{| rounds := n; within_loop := false |}] | _ => [] end.

(** That calls in two threads at the same time both return is false: a call while the other is in the loop raises
    RuntimeError. *)
Theorem C106_threads_refuted : exists program l, (forall i c, In c (program i) -> within_loop c = false) /\
  fst (run l (fresh program)) = [Refused 1 0; Returned 0 0].
Proof.
  exists (pair_of 2), [0; 0; 0; 0; 1; 0; 0; 0]%nat. split; [|reflexivity]. intros [|[|i]] c; [intros [<-|[]]; reflexivity|intros [<-|[]]; reflexivity|intros []].
Qed.
Print Assumptions C106_threads_refuted.

(** That a refused call has no effect is false too: if the loop starts between the two checks, its task stays on the
    loop and is run by the other thread. *)
Theorem C106_refused_means_not_run_refuted : exists program l, (forall i c, In c (program i) -> within_loop c = false) /\
  In (Refused 1 0) (fst (run l (fresh program))) /\ In (1, 0)%nat (ended (snd (run l (fresh program)))).
Proof.
  exists (pair_of 2), [0; 1; 0; 0; 1; 0; 0; 0; 0]%nat. split; [|split; [left; reflexivity|right; left; reflexivity]].
  intros [|[|i]] c; [intros [<-|[]]; reflexivity|intros [<-|[]]; reflexivity|intros []].
Qed.
Print Assumptions C106_refused_means_not_run_refuted.

(** Nor does each call end: if both threads pass both checks before either marks the loop as running, the first to see
    the end of its task takes the order to stop with it, and the other waits for ever although its task is done. *)
Theorem C106_always_ends_refuted : exists program l, (forall i c, In c (program i) -> within_loop c = false) /\
  In (1, 0)%nat (ended (snd (run l (fresh program)))) /\
  forall more, fst (run (l ++ more) (fresh program)) = [Returned 0 0] /\ places (snd (run (l ++ more) (fresh program))) 1%nat = Looping.
Proof.
  exists (pair_of 0), [0; 1; 0; 1; 0; 1; 0; 0]%nat. split; [|split; [right; left; reflexivity|]].
  - intros [|[|i]] c; [intros [<-|[]]; reflexivity|intros [<-|[]]; reflexivity|intros []].
  - intros more. rewrite run_app. cbn [fst snd]. set (w := snd (run [0; 1; 0; 1; 0; 1; 0; 0]%nat (fresh (pair_of 0)))).
    assert (S : forall j, step j w = ([], w)) by (intros [|[|j]]; reflexivity).
    assert (R : run more w = ([], w)) by (induction more as [|j more IH]; [reflexivity|]; cbn; rewrite S, IH; reflexivity).
    rewrite R. split; reflexivity.
Qed.
Print Assumptions C106_always_ends_refuted.

(** Thread 0 makes a call, then thread 1 one from within a coroutine and one outside, one after another. *)
Definition some_calls (i : nat) : list request :=
  match i with
  | 0%nat => [{| rounds := 3; within_loop := false |}]
  | 1%nat => [{| rounds := 1; within_loop := true |}; {| rounds := 1; within_loop := false |}]
  | _ => []
  end.
Example C106_case : let l := (repeat 0 8 ++ repeat 1 7)%nat in
  fst (run l (fresh some_calls)) = [Returned 0 0; Refused 1 1; Returned 1 0] /\ one_at_a_time some_calls l.
Proof.
  intros l. split; [reflexivity|]. intros before j after E i N. unfold l in E. cbn in E.
  do 15 (destruct before as [|? before]; [injection E as <- <-; destruct i as [|[|i]]; (reflexivity || (exfalso; apply N; reflexivity))|]; injection E as <- E).
  destruct before; discriminate.
Qed.
