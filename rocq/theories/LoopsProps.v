(** * The debug mode and event loops: the property C114 *)
From Verif Require Import Base BaseFacts LoopsModel LoopsProofs.
Open Scope list_scope.

(** C114: [is_debugging()] tells what was asked for last, also if that call raised. *)
Theorem C114_mode_is_what_was_asked_last : forall w ds d,
  mode (program w (ds ++ [d])) = match d with Enable => true | Disable => false | _ => mode (program w ds) end.
Proof. intros w ds d. apply mode_of. Qed.

(** C114: an event loop that stays the current one is in debug mode exactly when [is_debugging()] is true. *)
Theorem C114_the_current_loop_follows : forall w ds i, (forall j, ~ In (Use j) ds) -> current w = Some i -> nth_error (loops w) i = Some (mode w) ->
  nth_error (loops (program w ds)) i = Some (mode (program w ds)).
Proof. intros w ds i. apply follows. Qed.

(** C114: an event loop that is not the current one is never touched. *)
Theorem C114_other_loops_are_untouched : forall w ds i b, ~ In (Use (Some i)) ds -> current w <> Some i -> nth_error (loops w) i = Some b ->
  nth_error (loops (program w ds)) i = Some b.
Proof. intros w ds i b. apply others. Qed.

(** C114: a change of the mode is applied to the current loop, and it raises if and only if there is none. *)
Theorem C114_a_change_is_applied : forall w i, mode w = false -> current w = Some i -> i < length (loops w) ->
  nth_error (loops (fst (enable_debugging w))) i = Some true /\ snd (enable_debugging w) = None /\
  nth_error (loops (do (fst (enable_debugging w)) Disable)) i = Some false.
Proof.
  intros [m l c] i M C L. cbn in M, C, L. subst m c. destruct (nth_error l i) as [b|] eqn:N; [|apply nth_error_None in N; lia].
  cbn. rewrite !put_nth, Nat.eqb_refl, N. repeat split.
Qed.
Theorem C114_raises_iff_no_loop : forall w,
  (snd (enable_debugging w) <> None <-> mode w = false /\ current w = None) /\
  (snd (disable_debugging w) <> None <-> mode w = true /\ current w = None).
Proof.
  intros w. unfold enable_debugging, disable_debugging, toggle. destruct (mode w), (current w); cbn; split; split; intros H; try tauto; try (destruct H; discriminate); try discriminate; split; auto.
Qed.

(** C114 refuted: the current event loop is in debug mode exactly when [is_debugging()] is true.  A loop made after
    [enable_debugging()], as by [asyncio.run], is not; a loop that was current then stays in debug mode when debugging is
    disabled from another one; and after a call without a loop has raised, calling it again does nothing. *)
Theorem C114_refuted :
  (let w := program first_world [Enable; NewLoop; Use (Some 1)] in mode w = true /\ nth_error (loops w) 1 = Some false) /\
  (let w := program first_world [Enable; NewLoop; Use (Some 1); Disable; Use (Some 0)] in mode w = false /\ nth_error (loops w) 0 = Some true) /\
  (let w := program first_world [Use None; Enable; Use (Some 0)] in
    mode w = true /\ nth_error (loops w) 0 = Some false /\ snd (enable_debugging w) = None /\ nth_error (loops (do w Enable)) 0 = Some false).
Proof. repeat split; reflexivity. Qed.
Print Assumptions C114_mode_is_what_was_asked_last.
Print Assumptions C114_the_current_loop_follows.
Print Assumptions C114_other_loops_are_untouched.
Print Assumptions C114_a_change_is_applied.
Print Assumptions C114_raises_iff_no_loop.
Print Assumptions C114_refuted.

Example C114_case : program first_world [Enable; NewLoop; Enable] = {| mode := true; loops := [true; false]; current := Some 0 |} /\
  (forall j, ~ In (Use j) [Enable; NewLoop; Enable]) /\ current first_world = Some 0 /\ nth_error (loops first_world) 0 = Some (mode first_world).
Proof. repeat split. intros j H. cbn in H. decompose [or] H; try discriminate; contradiction. Qed.
