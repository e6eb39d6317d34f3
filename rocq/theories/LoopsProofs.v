(** * The debug mode and event loops: proofs *)
From Verif Require Import Base BaseFacts LoopsModel.
Open Scope list_scope.

Lemma put_nth l x : forall i j, nth_error (put i x l) j = if Nat.eqb i j then option_map (fun _ => x) (nth_error l j) else nth_error l j.
Proof. induction l as [|y l IH]; intros [|i] [|j]; cbn; try reflexivity; [now destruct (Nat.eqb i j)|apply IH]. Qed.
Lemma put_length l x : forall i, length (put i x l) = length l.
Proof. induction l as [|y l IH]; intros [|i]; cbn; auto. Qed.
Lemma new_loop_keeps (l : list bool) i b : nth_error l i = Some b -> nth_error (l ++ [false]) i = Some b.
Proof. intros N. rewrite nth_error_app1; [exact N|]. apply nth_error_Some. congruence. Qed.

(** As long as one loop is the current one it follows the mode. *)
Lemma follows ds : forall w i, (forall j, ~ In (Use j) ds) -> current w = Some i -> nth_error (loops w) i = Some (mode w) ->
  nth_error (loops (program w ds)) i = Some (mode (program w ds)).
Proof.
  induction ds as [|d ds IH]; intros w i N C E; [exact E|]. change (program w (d :: ds)) with (program (do w d) ds).
  assert (forall j, ~ In (Use j) ds) as N' by (intros j I; apply (N j); now right).
  apply IH; [exact N'| |]; destruct d as [| | |j]; try (exfalso; apply (N j); now left); cbn; unfold enable_debugging, disable_debugging, toggle; destruct (mode w) eqn:M; cbn; rewrite ?C; cbn;
    rewrite ?put_nth, ?Nat.eqb_refl, ?E, ?M; try reflexivity; try exact C; now apply new_loop_keeps.
Qed.
(** A loop that is not the current one is left alone. *)
Lemma others ds : forall w i b, ~ In (Use (Some i)) ds -> current w <> Some i -> nth_error (loops w) i = Some b -> nth_error (loops (program w ds)) i = Some b.
Proof.
  induction ds as [|d ds IH]; intros w i b N C E; [exact E|]. change (program w (d :: ds)) with (program (do w d) ds).
  apply IH; [intros I; apply N; now right| |].
  - destruct d as [| | |j]; cbn; unfold enable_debugging, disable_debugging, toggle; [destruct (mode w), (current w) eqn:CW; cbn; congruence..|exact C|].
    intros ->. apply N. now left.
  - destruct d as [| | |j]; cbn; unfold enable_debugging, disable_debugging, toggle; [| |now apply new_loop_keeps|exact E];
      (destruct (mode w); cbn; try exact E; destruct (current w) as [k|] eqn:CW; cbn; try exact E; rewrite put_nth; destruct (Nat.eqb k i) eqn:X; [apply Nat.eqb_eq in X; congruence|exact E]).
Qed.
(** The mode is the last one asked for, also when the call raised. *)
Lemma mode_of ds d : forall w, mode (program w (ds ++ [d])) = match d with Enable => true | Disable => false | _ => mode (program w ds) end.
Proof.
  intros w. unfold program. rewrite fold_left_app. cbn [fold_left]. destruct d; cbn; unfold enable_debugging, disable_debugging, toggle; destruct (mode (fold_left do ds w)) eqn:M; cbn; auto;
    destruct (current (fold_left do ds w)); cbn; auto.
Qed.
