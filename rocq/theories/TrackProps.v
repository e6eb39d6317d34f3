(** * One guard, many threads: the property C108 *)
From Coq Require Import Lia.
From Verif Require Import Base BaseFacts GuardModel TrackModel TrackSpec TrackProofs.
Local Open Scope nat_scope.

(** C108: whatever calls any number of threads make of one guard, in whatever order their operations come, the
    transitions that succeed are the guard's life in its order, each once, or a beginning of it. *)
Theorem C108_life_is_passed_once : forall calls schedule, begins (moves (fst (run schedule (start calls)))) life.
Proof. intros calls schedule. destruct (run_inv schedule _ _ (start_inv calls)) as (l & E & _). exists l. exact E. Qed.
Lemma moved_in i u l : In (Moved i u) l -> In u (moves l).
Proof. induction l as [|e l IH]; intros I; [destruct I|]. destruct I as [->|I]; [left; reflexivity|]. destruct e; cbn; auto. Qed.
Lemma moved_same l : NoDup (moves l) -> forall i j u, In (Moved i u) l -> In (Moved j u) l -> i = j.
Proof.
  induction l as [|e l IH]; intros N i j u I J; [destruct I|].
  assert (N' : NoDup (moves l)) by (destruct e; cbn in N; [inversion N; assumption|assumption|assumption|assumption]).
  destruct I as [->|I], J as [E|J].
  - congruence.
  - cbn in N. inversion N as [|a b A B]; subst. exfalso. apply A, (moved_in _ _ _ J).
  - subst e. cbn in N. inversion N as [|a b A B]; subst. exfalso. apply A, (moved_in _ _ _ I).
  - eauto.
Qed.
(** C108: so of all threads that use one guard, one at most gets into its block. *)
Theorem C108_one_thread_gets_in : forall calls schedule i j u,
  In (Moved i u) (fst (run schedule (start calls))) -> In (Moved j u) (fst (run schedule (start calls))) -> i = j.
Proof.
  intros calls schedule i j u. apply moved_same. destruct (C108_life_is_passed_once calls schedule) as [r E].
  assert (N : NoDup life) by (unfold life; repeat (constructor; [intros I; repeat (destruct I as [I|I]; [discriminate|]); destruct I|]); constructor).
  rewrite E in N. revert N. generalize (moves (fst (run schedule (start calls)))) as a. induction a as [|x a IH]; intros N; [constructor|]. cbn in N. inversion N; subst. constructor; [|auto].
  intros I. apply H1, in_app_iff. auto.
Qed.
(** C108: a call that is refused while no other thread is in the middle of a transition is the end: no transition
    succeeds any more and the guard counts as faulted for ever. *)
Theorem C108_refused_is_final_partial : forall calls before i after,
  let w := snd (run before (start calls)) in let w' := snd (step i w) in
  quiet w -> In (Refused i) (fst (step i w)) -> moves (fst (run after w')) = [] /\ slot (snd (run after w')) = None.
Proof. intros calls before i after w w' Q R. destruct (refused_quiet i w Q R) as [S Q']. now apply dead_run. Qed.
(** C108: with one user, the two operations of a transition are as good as one step: what the caller sees is what
    GuardModel's transitions give, on which the properties of guards rest. *)
Theorem C108_one_user : forall calls i n, 2 * length (calls i) <= n ->
  fst (run (repeat i n) (start calls)) = fst (one_by_one i (calls i) (Some Unused)) /\
  slot (snd (run (repeat i n) (start calls))) = snd (one_by_one i (calls i) (Some Unused)).
Proof. intros calls i n L. exact (alone i (calls i) n (start calls) L eq_refl eq_refl). Qed.

(** ** Cases *)
(** Two threads that both use the guard. *)
Definition rivals (i : nat) : list call := match i with 0 => [Move Pending; Move Running; Move Finished] | 1 => [Move Pending; AskFault; AskFault] | _ => [] end.
Example C108_one_gets_in : fst (run [0; 0; 0; 0; 0; 0; 1; 1; 0] (start rivals)) = [Moved 0 Pending; Moved 0 Running; Moved 0 Finished; Refused 1; Answered 1 AskFault true].
Proof. vm_compute. reflexivity. Qed.
Example C108_none_gets_in : fst (run [0; 0; 1; 0; 0] (start rivals)) = [Moved 0 Pending; Refused 1; Refused 0; Refused 0] /\
  (let w := snd (run [0; 0] (start rivals)) in quiet w /\ In (Refused 1) (fst (step 1 w))).
Proof. split; [vm_compute; reflexivity|]. split; [intros [|[|i]]; reflexivity|vm_compute; auto]. Qed.
(** Refuted: without the proviso a refusal is not the end.  The other thread is in the middle of its transition; the
    guard then passes through its whole life. *)
Theorem C108_refused_is_final_refuted : exists calls before i after,
  let w := snd (run before (start calls)) in let w' := snd (step i w) in
  In (Refused i) (fst (step i w)) /\ moves (fst (run after w')) = life /\ slot (snd (run after w')) = Some Finished.
Proof. exists rivals, [0], 1, [0; 0; 0; 0; 0]. vm_compute. auto. Qed.
(** Refuted: that has_faulted() tells of a fault.  It is true in the middle of every transition, and false afterwards. *)
Theorem C108_has_faulted_is_final_refuted : exists calls schedule,
  fst (run schedule (start calls)) = [Answered 1 AskFault true; Moved 0 Pending; Answered 1 AskFault false] /\ calls 0 = [Move Pending] /\ calls 1 = [AskFault; AskFault].
Proof. exists (fun i => match i with 0 => [Move Pending] | 1 => [AskFault; AskFault] | _ => [] end), [0; 1; 0; 1]. vm_compute. auto. Qed.
(** Refuted: that enter_fault_state() is the end. *)
Theorem C108_fault_state_is_final_refuted : exists calls schedule,
  fst (run schedule (start calls)) = [Cleared 1; Moved 0 Pending; Moved 0 Running; Moved 0 Finished] /\ calls 1 = [Fault].
Proof. exists (fun i => match i with 0 => [Move Pending; Move Running; Move Finished] | 1 => [Fault] | _ => [] end), [0; 1; 0; 0; 0; 0; 0]. vm_compute. auto. Qed.

(** ** Fault signals *)
(** C108: over any blocks within the tracker's context, if the signals raise nothing: those of the blocks that end in
    an exception run, in the order in which they were registered, each once; those of other blocks never run; nothing
    is left over; and each block ends as it would have without them. *)
Theorem C108_signals_of_failed_blocks_run : forall signal raises (l : list (block signal)),
  (forall b s, In b l -> In s (registers _ b) -> raises s = None) ->
  perform_blocks signal raises l [] = (concat (map (registers _) (filter failed l)), [], map (ends _) l).
Proof. intros signal raises l H. apply blocks_quiet. exact H. Qed.
(** C108: if signals may raise, still each one runs at most once for each time it was registered, and in that order. *)
Theorem C108_signals_run_at_most_once : forall signal raises (l : list (block signal)) ran left results,
  perform_blocks signal raises l [] = (ran, left, results) -> within (ran ++ left) (concat (map (registers _) l)).
Proof. intros signal raises l ran left results E. exact (blocks_within signal raises l [] ran left results E). Qed.
Example C108_signals_case : perform_blocks nat (fun _ => None) [{| registers := [1; 2]; ends := Some OtherErr |}; {| registers := [3]; ends := None |}; {| registers := [4; 5]; ends := Some IndexErr |}] [] =
  ([1; 2; 4; 5], [], [Some OtherErr; None; Some IndexErr]).
Proof. vm_compute. reflexivity. Qed.
(** Refuted: that all signals of a failed block run in it.  If one raises, its exception replaces the block's, and those after it wait: the next block
    that fails runs them. *)
Theorem C108_all_signals_run_refuted : exists raises l,
  perform_blocks nat raises l [] = ([1; 2; 3], [], [Some IndexErr; Some OtherErr]) /\ map (registers _) l = [[1; 2]; [3]] /\ map (ends _) l = [Some OtherErr; Some OtherErr].
Proof. exists (fun s => if Nat.eqb s 1 then Some IndexErr else None), [{| registers := [1; 2]; ends := Some OtherErr |}; {| registers := [3]; ends := Some OtherErr |}]. vm_compute. auto. Qed.

Print Assumptions C108_life_is_passed_once.
Print Assumptions C108_one_thread_gets_in.
Print Assumptions C108_refused_is_final_partial.
Print Assumptions C108_one_user.
Print Assumptions C108_refused_is_final_refuted.
Print Assumptions C108_has_faulted_is_final_refuted.
Print Assumptions C108_fault_state_is_final_refuted.
Print Assumptions C108_signals_of_failed_blocks_run.
Print Assumptions C108_signals_run_at_most_once.
Print Assumptions C108_all_signals_run_refuted.
