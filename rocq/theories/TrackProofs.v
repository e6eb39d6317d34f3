(** * One guard, many threads: proofs *)
From Coq Require Import Lia.
From Verif Require Import Base BaseFacts GuardModel TrackModel TrackSpec.
Local Open Scope nat_scope.

(** ** At most one token *)
(** What is still to come after a state. *)
Definition rest (u : use) : list use := match u with Unused => [Pending; Running; Finished] | Pending => [Running; Finished] | Running => [Finished] | Finished => [] end.
(** Which transitions can still succeed: [l] is what is left of the life. *)
Definition inv (w : world) (l : list use) : Prop :=
  (slot w = None \/ (exists u, slot w = Some u /\ l = rest u) /\ forall i, hand w i = None) /\
  (forall i u, hand w i = Some u -> l = u :: rest u /\ forall j v, hand w j = Some v -> j = i).
Lemma put_same {A} f i (a : A) : put f i a i = a. Proof. unfold put. now rewrite Nat.eqb_refl. Qed.
Lemma put_other {A} f i j (a : A) : j <> i -> put f i a j = f j. Proof. intros N. unfold put. destruct (Nat.eqb_spec j i); [contradiction|reflexivity]. Qed.
Lemma same_use_eq a b : same_use a b = true <-> a = b. Proof. destruct a, b; cbn; split; congruence. Qed.
Lemma moves_app a b : moves (a ++ b) = moves a ++ moves b.
Proof. induction a as [|[] a IH]; cbn; [reflexivity|now rewrite IH|exact IH|exact IH|exact IH]. Qed.
Lemma step_inv i w l : inv w l -> exists l', l = moves (fst (step i w)) ++ l' /\ inv (snd (step i w)) l'.
Proof.
  intros [A B]. unfold step. destruct (hand w i) as [u|] eqn:H.
  - destruct (B i u H) as [-> U]. exists (rest u). split; [reflexivity|]. cbn. assert (E : forall j, put (hand w) i None j = None).
    { intros j. destruct (Nat.eq_dec j i) as [->|N]; [apply put_same|]. rewrite put_other by exact N. destruct (hand w j) as [v|] eqn:F; [|reflexivity]. exfalso. apply N, (U j v F). }
    split; [right; split; [exists u; split; reflexivity|exact E]|]. intros j v F. cbn in F. rewrite E in F. discriminate.
  - destruct (todo w i) as [|c t]; [exists l; split; [reflexivity|split; assumption]|].
    assert (CL : forall td, inv {| slot := None; hand := hand w; todo := td |} l) by (intros td; split; [left; reflexivity|exact B]).
    assert (KE : forall td, inv {| slot := slot w; hand := hand w; todo := td |} l) by (intros td; split; [exact A|exact B]).
    destruct c as [u| |u|]; cbn; [|exists l; auto|exists l; auto|exists l; auto]. destruct (slot w) as [s|] eqn:S; [|exists l; split; [reflexivity|apply CL]].
    destruct A as [A|[(s' & E & ->) Q]]; [discriminate|]. injection E as <-. destruct (next s) as [v|] eqn:NX; [|exists (rest s); split; [reflexivity|apply CL]]. destruct (same_use v u) eqn:SU; [|exists (rest s); split; [reflexivity|apply CL]].
    apply same_use_eq in SU as ->. exists (rest s). split; [reflexivity|]. split; [left; reflexivity|]. cbn. intros j v F.
    destruct (Nat.eq_dec j i) as [->|N]; [|rewrite put_other in F by exact N; rewrite Q in F; discriminate]. rewrite put_same in F. injection F as <-. split.
    + destruct s; try discriminate NX; injection NX as <-; reflexivity.
    + intros j v F. destruct (Nat.eq_dec j i) as [->|N]; [reflexivity|]. rewrite put_other, Q in F by exact N. discriminate.
Qed.
Lemma run_inv s : forall w l, inv w l -> exists l', l = moves (fst (run s w)) ++ l' /\ inv (snd (run s w)) l'.
Proof.
  induction s as [|i s IH]; intros w l I; cbn; [exists l; auto|]. destruct (step_inv i w l I) as (l1 & E1 & I1). destruct (step i w) as [es w1]. cbn [fst snd] in *.
  destruct (IH w1 l1 I1) as (l2 & E2 & I2). destruct (run s w1) as [es2 w2]. cbn [fst snd] in *. exists l2. split; [|exact I2]. now rewrite moves_app, <- app_assoc, <- E2.
Qed.
Lemma start_inv calls : inv (start calls) life.
Proof. split; [right; split; [exists Unused; auto|reflexivity]|]. intros i u H. discriminate. Qed.
Lemma run_app a b w : run (a ++ b) w = let '(es, w1) := run a w in let '(es2, w2) := run b w1 in (es ++ es2, w2).
Proof.
  revert w. induction a as [|i a IH]; intros w; cbn; [destruct (run b w); reflexivity|]. destruct (step i w) as [es w1]. rewrite IH. destruct (run a w1) as [es1 w2]. destruct (run b w2) as [es2 w3]. now rewrite app_assoc.
Qed.

(** ** Nothing moves once the state is gone and nobody holds it *)
Lemma dead_step i w : slot w = None -> quiet w -> moves (fst (step i w)) = [] /\ slot (snd (step i w)) = None /\ quiet (snd (step i w)).
Proof.
  intros S Q. unfold step. rewrite (Q i). destruct (todo w i) as [|c t]; [auto|]. destruct c; cbn; rewrite ?S; cbn; auto.
Qed.
Lemma dead_run s : forall w, slot w = None -> quiet w -> moves (fst (run s w)) = [] /\ slot (snd (run s w)) = None.
Proof.
  induction s as [|i s IH]; intros w S Q; cbn; [auto|]. destruct (dead_step i w S Q) as (A & B & C). destruct (step i w) as [es w1]. cbn [fst snd] in *. destruct (IH w1 B C) as [D E]. destruct (run s w1) as [es2 w2]. cbn [fst snd] in *.
  rewrite moves_app, A. auto.
Qed.
Lemma refused_quiet i w : quiet w -> In (Refused i) (fst (step i w)) -> slot (snd (step i w)) = None /\ quiet (snd (step i w)).
Proof.
  intros Q. unfold step. rewrite (Q i). destruct (todo w i) as [|c t]; [intros []|]. destruct c as [u| |u|]; cbn; try (intros [E|[]]; discriminate).
  destruct (slot w) as [s|]; [|intros _; split; [reflexivity|exact Q]]. destruct (match next s with Some v => same_use v u | None => false end); cbn; [intros []|]. intros _. split; [reflexivity|exact Q].
Qed.

(** ** One user *)
Lemma run_cons i s w : run (i :: s) w = let '(es, w1) := step i w in let '(es2, w2) := run s w1 in (es ++ es2, w2). Proof. reflexivity. Qed.
Lemma idle i n : forall w, hand w i = None -> todo w i = [] -> run (repeat i n) w = ([], w).
Proof. induction n as [|n IH]; intros w H T; [reflexivity|]. cbn [repeat]. rewrite run_cons. unfold step. rewrite H, T, IH by assumption. reflexivity. Qed.
Lemma alone i l : forall n w, 2 * length l <= n -> hand w i = None -> todo w i = l ->
  fst (run (repeat i n) w) = fst (one_by_one i l (slot w)) /\ slot (snd (run (repeat i n) w)) = snd (one_by_one i l (slot w)).
Proof.
  induction l as [|c l IH]; intros n w L H T; [rewrite idle by assumption; auto|]. destruct n as [|n]; [cbn in L; lia|]. cbn [length] in L. cbn [repeat]. rewrite run_cons. unfold step. rewrite H, T.
  assert (REST : forall n w1 e, 2 * length l <= n -> hand w1 i = None -> todo w1 i = l ->
    fst (let '(es2, w2) := run (repeat i n) w1 in ([e] ++ es2, w2)) = e :: fst (one_by_one i l (slot w1)) /\
    slot (snd (let '(es2, w2) := run (repeat i n) w1 in ([e] ++ es2, w2))) = snd (one_by_one i l (slot w1))).
  { intros n1 w1 e L1 H1 T1. destruct (IH n1 w1 L1 H1 T1) as [A B]. destruct (run (repeat i n1) w1) as [es2 w2]. cbn [fst snd] in *. cbn. now rewrite A, B. }
  assert (FIN : forall n w1 e t, 2 * length l <= n -> hand w1 i = None -> todo w1 i = l -> slot w1 = t ->
    fst (let '(es2, w2) := run (repeat i n) w1 in ([e] ++ es2, w2)) = fst (let '(es, t2) := one_by_one i l t in (e :: es, t2)) /\
    slot (snd (let '(es2, w2) := run (repeat i n) w1 in ([e] ++ es2, w2))) = snd (let '(es, t2) := one_by_one i l t in (e :: es, t2))).
  { intros n1 w1 e t L1 H1 T1 <-. destruct (REST n1 w1 e L1 H1 T1) as [A B]. rewrite A, B. destruct (one_by_one i l (slot w1)); auto. }
  destruct c as [u| |u|]; cbn [one_by_one].
  - destruct (slot w) as [s|] eqn:S.
    + destruct (match next s with Some v => same_use v u | None => false end) eqn:OK.
      * destruct n as [|n]; [lia|]. cbn [repeat]. rewrite run_cons. unfold step. cbn [hand]. rewrite put_same. cbv iota beta.
        assert (E : (let '(ok, t1) := match u with Pending => to_pending (Some s) | Running => to_running (Some s) | Finished => to_done (Some s) | Unused => (false, None) end in
          (if ok then Moved i u else Refused i, t1)) = (Moved i u, Some u)) by (destruct s, u; try discriminate OK; reflexivity). rewrite E. clear E.
        match goal with |- context [run (repeat i n) ?w1] => pose proof (FIN n w1 (Moved i u) (Some u) ltac:(lia) (put_same _ _ _) (put_same _ _ _) eq_refl) as F; destruct (run (repeat i n) w1) as [es2 w2] end.
        exact F.
      * assert (E : (let '(ok, t1) := match u with Pending => to_pending (Some s) | Running => to_running (Some s) | Finished => to_done (Some s) | Unused => (false, None) end in
          (if ok then Moved i u else Refused i, t1)) = (Refused i, None)) by (destruct s, u; try discriminate OK; reflexivity). rewrite E. clear E.
        apply FIN; [lia|exact H|apply put_same|reflexivity].
    + assert (E : (let '(ok, t1) := match u with Pending => to_pending None | Running => to_running None | Finished => to_done None | Unused => (false, None) end in
        (if ok then Moved i u else Refused i, t1)) = (Refused i, None)) by (destruct u; reflexivity). rewrite E. clear E. apply FIN; [lia|exact H|apply put_same|reflexivity].
  - apply FIN; [lia|exact H|apply put_same|reflexivity].
  - apply FIN; [lia|exact H|apply put_same|reflexivity].
  - apply FIN; [lia|exact H|apply put_same|reflexivity].
Qed.

(** ** Fault signals *)
Section S.
Variable signal : Type.
Variable raises : signal -> option exn.
Notation drain := (drain signal raises).
Notation perform_block := (perform_block signal raises).
Notation perform_blocks := (perform_blocks signal raises).
Lemma drain_quiet l : (forall s, In s l -> raises s = None) -> drain l = (l, [], None).
Proof. induction l as [|s l IH]; intros H; cbn; [reflexivity|]. rewrite (H s (or_introl eq_refl)). rewrite IH by (intros x I; apply H; now right). reflexivity. Qed.
Lemma drain_split l : forall ran rest r, drain l = (ran, rest, r) -> l = ran ++ rest.
Proof.
  induction l as [|s l IH]; intros ran rest r E; cbn in E; [injection E as <- <- _; reflexivity|]. destruct (raises s); [injection E as <- <- _; reflexivity|].
  destruct (drain l) as [[a b] c]. injection E as <- <- _. cbn. f_equal. eapply IH. reflexivity.
Qed.
Lemma within_refl {A} (l : list A) : within l l. Proof. induction l; constructor; assumption. Qed.
Lemma within_empty {A} (l : list A) : within [] l. Proof. induction l; constructor; assumption. Qed.
Lemma within_app {A} (a b c d : list A) : within a b -> within c d -> within (a ++ c) (b ++ d).
Proof. induction 1; intros W; cbn; [exact W|constructor; auto|constructor; auto]. Qed.
Lemma blocks_within l : forall q ran rest rs, perform_blocks l q = (ran, rest, rs) -> within (ran ++ rest) (q ++ concat (map (registers signal) l)).
Proof.
  induction l as [|b l IH]; intros q ran rest rs E; cbn in E.
  - injection E as <- <- _. cbn. rewrite app_nil_r. apply within_refl.
  - destruct (perform_block b q) as [[ran1 rest1] r] eqn:P. destruct (perform_blocks l rest1) as [[ran2 rest2] rs2] eqn:PS. injection E as <- <- _. specialize (IH _ _ _ _ PS).
    cbn [map concat]. rewrite app_assoc. unfold TrackModel.perform_block in P. destruct (ends signal b).
    + destruct (drain (q ++ registers signal b)) as [[a c] d] eqn:D. injection P as <- <- _. apply drain_split in D. rewrite D, <- !app_assoc. apply within_app; [apply within_refl|exact IH].
    + injection P as <- <- _. cbn in IH |- *. apply (within_app [] _ _ _ (within_empty _) IH).
Qed.
Lemma blocks_quiet l : (forall b s, In b l -> In s (registers signal b) -> raises s = None) ->
  perform_blocks l [] = (concat (map (registers signal) (filter failed l)), [], map (ends signal) l).
Proof.
  induction l as [|b l IH]; intros H; cbn; [reflexivity|]. unfold TrackModel.perform_block, failed. cbn [app]. destruct (ends signal b) as [e|] eqn:E.
  - rewrite drain_quiet by (intros s I; apply (H b s); [now left|exact I]). rewrite IH by (intros b' s I J; apply (H b' s); [now right|exact J]). reflexivity.
  - rewrite IH by (intros b' s I J; apply (H b' s); [now right|exact J]). reflexivity.
Qed.
End S.
