(** * Proofs about guards that were not queued *)
From Coq Require Import Lia Permutation.
From Verif Require Import Base GuardModel GuardSpec GuardProofs UnqueuedModel UnqueuedSpec.
Import ListNotations.

Section Sim.
Variable exclusive : nat -> bool.
Variable manual : nat -> bool.
Variable forgotten : nat -> bool.
Hypothesis by_hand : forall i, forgotten i = true -> manual i = true.
Notation inv := (inv exclusive manual).
Notation act := (act exclusive manual).
Notation run := (run exclusive manual).
Notation step_guard := (step_guard exclusive manual).

(** Where a forgotten guard can be, and whether it has put a mark among the observers. *)
Definition stuck (p : pc) : Prop :=
  match p with
  | Queued | Used | Notified | Waiting | Checked false | Gone _ _ => True
  | Failed e => e = IndexErr
  | _ => False
  end.
Definition over (p : pc) : bool := match p with Failed _ | Gone _ _ => true | _ => false end.
Definition marks (p : pc) : bool :=
  match p with Notified | Waiting | Checked _ | Failed _ => true | Gone _ o => o | _ => false end.

Record sim (s s' : state) : Prop := {
  sim_queue : queue s = queue s';
  sim_pcs : forall j, forgotten j = false -> pcs s j = pcs s' j;
  sim_uses : forall j, forgotten j = false -> uses s j = uses s' j;
  sim_obs : exists a b a' b' lf, observers s = a ++ b /\ observers s' = a' ++ b' /\
    Forall (fun i => exclusive i = false) a /\ Forall (fun i => exclusive i = true) b /\
    Forall (fun i => exclusive i = false) a' /\ Forall (fun i => exclusive i = true) b' /\
    length a = length a' /\ length b = length b' + length lf /\
    listing (fun i => forgotten i && (exclusive i && marks (pcs s i))) lf;
  sim_stuck : forall i, forgotten i = true -> stuck (pcs s i) /\
    (pcs s' i = Idle \/ exists q, pcs s' i = Gone q false /\ over (pcs s i) = true);
  sim_use : forall i, forgotten i = true -> use_ok (pcs s i) (uses s i);
}.

Lemma sim_start : sim (unqueued_start forgotten) start.
Proof.
  constructor; cbn; auto.
  - intros j ->. reflexivity.
  - exists [], [], [], [], []. repeat split; auto; try constructor; cbn; try tauto.
    destruct (forgotten i) eqn:F; [|discriminate]. cbn. now rewrite Bool.andb_false_r.
  - intros i ->. cbn. auto.
  - intros i ->. reflexivity.
Qed.

Lemma split_unique (a b a' b' : list nat) : a ++ b = a' ++ b' ->
  Forall (fun i => exclusive i = false) a -> Forall (fun i => exclusive i = true) b ->
  Forall (fun i => exclusive i = false) a' -> Forall (fun i => exclusive i = true) b' -> a = a' /\ b = b'.
Proof.
  intros E A B A' B'. assert (a = a').
  { assert (F : forall x y, Forall (fun i => exclusive i = false) x -> Forall (fun i => exclusive i = true) y -> filter (fun i => negb (exclusive i)) (x ++ y) = x).
    { intros x y X Y. rewrite filter_app. induction X as [|h t E1 X IH]; cbn.
      - induction Y as [|h y E2 Y IHy]; cbn; [reflexivity|now rewrite E2].
      - rewrite E1. cbn. now rewrite IH. }
    rewrite <- (F a b A B), <- (F a' b' A' B'), E. reflexivity. }
  subst a'. split; [reflexivity|]. now apply app_inv_head in E.
Qed.

(** A guard that is among the observers is matched by one of its kind. *)
Lemma own_kind s i a b : inv s -> observers s = a ++ b -> Forall (fun i => exclusive i = false) a -> Forall (fun i => exclusive i = true) b ->
  in_obs exclusive i (pcs s i) = true -> if exclusive i then b <> [] else a <> [].
Proof.
  intros I O A B X. destruct (inv_obs _ _ s I) as [(a0 & b0 & ln & le & O0 & A0 & B0 & N & Le & La & Lb)].
  rewrite O in O0. destruct (split_unique _ _ _ _ O0 A B A0 B0) as [<- <-].
  destruct (exclusive i) eqn:Y; intros ->.
  - destruct le; [|cbn in Lb; lia]. assert (Z : In i []) by (apply Le; now rewrite Y, X). destruct Z.
  - destruct ln; [|cbn in La; lia]. assert (Z : In i []) by (apply N; now rewrite Y, X). destruct Z.
Qed.

(** A guard that was not forgotten does the same in both. *)
Lemma same_marks s s1 : (forall j, forgotten j = true -> pcs s1 j = pcs s j) -> forall lf,
  listing (fun i => forgotten i && (exclusive i && marks (pcs s i))) lf ->
  listing (fun i => forgotten i && (exclusive i && marks (pcs s1 i))) lf.
Proof.
  intros E lf. apply listing_same. intros i. destruct (forgotten i) eqn:F; [|reflexivity]. now rewrite E.
Qed.

Lemma removelast_map (b : list nat) : b <> [] -> exists c y, b = c ++ [y].
Proof. intros N. destruct (exists_last N) as (c & y & ->). now exists c, y. Qed.

Definition same_obs (s : state) (o o' : list nat) : Prop :=
  exists a b a' b' lf, o = a ++ b /\ o' = a' ++ b' /\
    Forall (fun i => exclusive i = false) a /\ Forall (fun i => exclusive i = true) b /\
    Forall (fun i => exclusive i = false) a' /\ Forall (fun i => exclusive i = true) b' /\
    length a = length a' /\ length b = length b' + length lf /\
    listing (fun i => forgotten i && (exclusive i && marks (pcs s i))) lf.

(** What a step of a guard does to both, in general. *)
Lemma sim_next s s' k s1 s1' :
  sim s s' -> forgotten k = false -> queue s1 = queue s1' -> same_obs s (observers s1) (observers s1') ->
  (forall j, j <> k -> pcs s1 j = pcs s j /\ pcs s1' j = pcs s' j /\ uses s1 j = uses s j /\ uses s1' j = uses s' j) ->
  pcs s1 k = pcs s1' k -> uses s1 k = uses s1' k -> sim s1 s1'.
Proof.
  intros S F Q (a & b & a' & b' & lf & O & O' & A & B & A' & B' & L1 & L2 & LF) E EP EU.
  assert (Oth : forall j, forgotten j = true -> j <> k) by (intros j J; congruence).
  constructor; cbn.
  - exact Q.
  - intros j J. destruct (Nat.eq_dec j k) as [->|N]; [exact EP|]. destruct (E j N) as (-> & -> & _). now apply (sim_pcs _ _ S).
  - intros j J. destruct (Nat.eq_dec j k) as [->|N]; [exact EU|]. destruct (E j N) as (_ & _ & -> & ->). now apply (sim_uses _ _ S).
  - exists a, b, a', b', lf. do 8 (split; [assumption|]). apply (same_marks s); [|exact LF].
    intros j J. apply (E j (Oth j J)).
  - intros i I. destruct (E i (Oth i I)) as (-> & -> & _). now apply (sim_stuck _ _ S).
  - intros i I. destruct (E i (Oth i I)) as (-> & _ & -> & _). now apply (sim_use _ _ S).
Qed.

Lemma obs_keep s s' : sim s s' -> same_obs s (observers s) (observers s').
Proof. intros S. exact (sim_obs _ _ S). Qed.
Lemma obs_append s s' k : sim s s' -> exclusive k = true -> same_obs s (observers s ++ [k]) (observers s' ++ [k]).
Proof.
  intros S X. destruct (sim_obs _ _ S) as (a & b & a' & b' & lf & -> & -> & A & B & A' & B' & L1 & L2 & LF).
  exists a, (b ++ [k]), a', (b' ++ [k]), lf. rewrite !app_assoc. do 2 (split; [reflexivity|]). rewrite !app_length.
  repeat split; try assumption; try (apply Forall_app; auto); try apply LF. cbn. lia.
Qed.
Lemma obs_prepend s s' k : sim s s' -> exclusive k = false -> same_obs s (k :: observers s) (k :: observers s').
Proof.
  intros S X. destruct (sim_obs _ _ S) as (a & b & a' & b' & lf & -> & -> & A & B & A' & B' & L1 & L2 & LF).
  exists (k :: a), b, (k :: a'), b', lf. do 2 (split; [reflexivity|]). cbn [length].
  repeat split; try assumption; try (constructor; assumption); try apply LF. lia.
Qed.
Lemma obs_pop s s' k : sim s s' -> inv s' -> exclusive k = true -> in_obs exclusive k (pcs s' k) = true ->
  exists o o', pop (observers s) = Some o /\ pop (observers s') = Some o' /\ same_obs s o o'.
Proof.
  intros S I X Y. destruct (sim_obs _ _ S) as (a & b & a' & b' & lf & O & O' & A & B & A' & B' & L1 & L2 & LF).
  pose proof (own_kind s' k a' b' I O' A' B' Y) as N. rewrite X in N.
  destruct (removelast_map b' N) as (c' & y' & ->). destruct (removelast_map b) as (c & y & ->).
  { intros ->. rewrite app_length in L2. cbn in L2. lia. }
  exists (a ++ c), (a' ++ c'). rewrite O, O', !app_assoc. unfold pop. rewrite !removelast_last.
  split; [destruct (a ++ c); reflexivity|]. split; [destruct (a' ++ c'); reflexivity|].
  apply Forall_app in B as [B _]. apply Forall_app in B' as [B' _]. rewrite !app_length in L2. cbn in L2.
  exists a, c, a', c', lf. repeat split; try assumption; try apply LF. lia.
Qed.
Lemma obs_popleft s s' k : sim s s' -> inv s' -> exclusive k = false -> in_obs exclusive k (pcs s' k) = true ->
  exists h o h' o', observers s = h :: o /\ observers s' = h' :: o' /\ same_obs s o o'.
Proof.
  intros S I X Y. destruct (sim_obs _ _ S) as (a & b & a' & b' & lf & O & O' & A & B & A' & B' & L1 & L2 & LF).
  pose proof (own_kind s' k a' b' I O' A' B' Y) as N. rewrite X in N.
  destruct a' as [|h' a']; [congruence|]. destruct a as [|h a]; [discriminate|]. injection L1 as L1.
  exists h, (a ++ b), h', (a' ++ b'). split; [exact O|]. split; [exact O'|].
  inversion A. inversion A'. subst. exists a, b, a', b', lf. repeat split; try assumption; try apply LF.
Qed.
Lemma obs_head s s' k : sim s s' -> inv s' -> exclusive k = true -> in_obs exclusive k (pcs s' k) = true ->
  exists h o h' o', observers s = h :: o /\ observers s' = h' :: o' /\ exclusive h = exclusive h'.
Proof.
  intros S I X Y. destruct (sim_obs _ _ S) as (a & b & a' & b' & lf & O & O' & A & B & A' & B' & L1 & L2 & LF).
  pose proof (own_kind s' k a' b' I O' A' B' Y) as N. rewrite X in N.
  destruct a' as [|h' a'], a as [|h a]; try discriminate.
  - destruct b' as [|h' b']; [congruence|]. destruct b as [|h b]; [discriminate|]. cbn in O, O'.
    inversion B. inversion B'. subst. exists h, b, h', b'. split; [exact O|]. split; [exact O'|]. congruence.
  - cbn in O, O'. inversion A. inversion A'. subst. exists h, (a ++ b), h', (a' ++ b'). split; [exact O|]. split; [exact O'|]. congruence.
Qed.

Ltac far k := let j := fresh "j" in let N := fresh "N" in intros j N; cbn; rewrite ?(proj2 (Nat.eqb_neq j k) N); auto.
Ltac near k := cbn; rewrite ?Nat.eqb_refl; auto.
Ltac next S k := eapply (sim_next _ _ k); [exact S|assumption|cbn|cbn|far k|near k|near k].

Lemma step_same s s' k : sim s s' -> inv s' -> forgotten k = false ->
  fst (step_guard k s) = fst (step_guard k s') /\ sim (snd (step_guard k s)) (snd (step_guard k s')).
Proof.
  intros S I F. pose proof (sim_pcs _ _ S k F) as EP. pose proof (sim_uses _ _ S k F) as EU. pose proof (sim_queue _ _ S) as EQ.
  pose proof (obs_keep _ _ S) as OK. pose proof (inv_shape _ _ s' I k) as [Sh _].
  unfold GuardModel.step_guard. rewrite EP, EU, EQ. destruct (pcs s' k) eqn:P.
  - destruct (manual k).
    + split; [reflexivity|]. next S k; auto; try congruence.
    + destruct (to_pending (uses s' k)) as [[] t] eqn:T; (split; [reflexivity|]); next S k; auto.
  - destruct (to_pending (uses s' k)) as [[] t] eqn:T; (split; [reflexivity|]); next S k; auto.
  - split; [reflexivity|]. destruct (exclusive k) eqn:X; next S k; auto. now apply obs_append.
  - destruct (manual k); (split; [reflexivity|]); next S k; auto; try congruence.
  - destruct (queue s') as [|h q] eqn:Q; (split; [reflexivity|]); next S k; auto; try congruence.
  - cbn in Sh. destruct (obs_head s s' k S I Sh) as (h & o & h' & o' & O & O' & X); [rewrite P; exact Sh|].
    rewrite O, O', X. split; [reflexivity|]. next S k; auto.
  - cbn in Sh. split; [reflexivity|]. next S k; auto. now apply obs_prepend.
  - destruct (queue s') as [|h q] eqn:Q; [split; [reflexivity|]; next S k; auto; try congruence|].
    destruct (Nat.eqb h k); (split; [reflexivity|]); next S k; auto.
  - destruct (to_running (uses s' k)) as [[] t] eqn:T; (split; [reflexivity|]); next S k; auto.
  - destruct (exclusive k) eqn:X.
    + destruct (obs_pop s s' k S I X) as (o & o' & O & O' & SO); [rewrite P; reflexivity|]. rewrite O, O'.
      split; [reflexivity|]. next S k; auto.
    + destruct (obs_popleft s s' k S I X) as (h & o & h' & o' & O & O' & SO); [rewrite P; reflexivity|]. rewrite O, O'.
      split; [reflexivity|]. next S k; auto.
  - destruct (exclusive k) eqn:X.
    + destruct (queue s') as [|h q] eqn:Q; [split; [reflexivity|]; next S k; auto; try congruence|].
      destruct (Nat.eqb h k); [|split; [reflexivity|]; next S k; auto].
      destruct (to_done (uses s' k)) as [[] t] eqn:T; (split; [reflexivity|]); next S k; auto.
    + destruct (to_done (uses s' k)) as [[] t] eqn:T; (split; [reflexivity|]); next S k; auto.
  - split; [reflexivity|exact S].
  - destruct (exclusive k) eqn:X.
    + destruct (obs_pop s s' k S I X) as (o & o' & O & O' & SO); [rewrite P; reflexivity|]. rewrite O, O'.
      split; [reflexivity|]. next S k; auto.
    + destruct (obs_popleft s s' k S I X) as (h & o & h' & o' & O & O' & SO); [rewrite P; reflexivity|]. rewrite O, O'.
      split; [reflexivity|]. next S k; auto.
  - destruct (queue s') as [|h q] eqn:Q; (split; [reflexivity|]); next S k; auto; try congruence.
  - split; [reflexivity|exact S].
  - split; [reflexivity|exact S].
Qed.

(** A forgotten guard changes nothing of what the others see. *)
Lemma sim_aside s s' k s1 o p : sim s s' -> forgotten k = true -> queue s1 = queue s -> observers s1 = o ->
  (forall j, j <> k -> pcs s1 j = pcs s j /\ uses s1 j = uses s j) -> pcs s1 k = p ->
  o = observers s /\ exclusive k && marks p = exclusive k && marks (pcs s k) \/
  o = observers s ++ [k] /\ exclusive k = true /\ marks (pcs s k) = false /\ marks p = true ->
  stuck p -> (over (pcs s k) = true -> over p = true) -> use_ok p (uses s1 k) -> sim s1 s'.
Proof.
  intros S F Q O E EP C ST OV US. constructor.
  - rewrite Q. apply (sim_queue _ _ S).
  - intros j J. rewrite (proj1 (E j ltac:(congruence))). now apply (sim_pcs _ _ S).
  - intros j J. rewrite (proj2 (E j ltac:(congruence))). now apply (sim_uses _ _ S).
  - destruct (sim_obs _ _ S) as (a & b & a' & b' & lf & O1 & O' & A & B & A' & B' & L1 & L2 & LF).
    destruct C as [(E1 & M)|(E1 & X & M1 & M2)].
    + exists a, b, a', b', lf. split; [congruence|]. do 7 (split; [assumption|]).
      apply (listing_same (fun i => forgotten i && (exclusive i && marks (pcs s i)))); [|exact LF]. intros i.
      destruct (Nat.eq_dec i k) as [->|N]; [rewrite EP, M; reflexivity|now rewrite (proj1 (E i N))].
    + exists a, (b ++ [k]), a', b', (k :: lf). split; [rewrite O, E1, O1, app_assoc; reflexivity|]. split; [exact O'|].
      split; [exact A|]. split; [apply Forall_app; auto|]. do 2 (split; [assumption|]). split; [exact L1|].
      split; [rewrite app_length; cbn; lia|].
      apply (listing_add (fun i => forgotten i && (exclusive i && marks (pcs s i)))); [| | |exact LF].
      * intros i N. now rewrite (proj1 (E i N)).
      * now rewrite M1, !Bool.andb_false_r.
      * now rewrite EP, F, X, M2.
  - intros i I. destruct (Nat.eq_dec i k) as [->|N]; [|rewrite (proj1 (E i N)); now apply (sim_stuck _ _ S)].
    rewrite EP. split; [exact ST|]. destruct (sim_stuck _ _ S k F) as [_ [Z|(q & Z & W)]]; [now left|right; exists q; auto].
  - intros i I. destruct (Nat.eq_dec i k) as [->|N]; [rewrite EP; exact US|]. destruct (E i N) as [-> ->]. now apply (sim_use _ _ S).
Qed.

Lemma not_first s s' k h q : sim s s' -> inv s' -> forgotten k = true -> over (pcs s k) = false -> queue s = h :: q -> Nat.eqb h k = false.
Proof.
  intros S I F O Q. apply Nat.eqb_neq. intros ->. destruct (sim_stuck _ _ S k F) as [_ [Z|(q' & _ & Z)]]; [|congruence].
  assert (X : In k (queue s')) by (rewrite <- (sim_queue _ _ S), Q; cbn; auto). apply (inv_queue _ _ s' I) in X. rewrite Z in X. discriminate.
Qed.

Lemma marked_observers s s' k : sim s s' -> forgotten k = true -> exclusive k = true -> marks (pcs s k) = true -> observers s <> [].
Proof.
  intros S F X M O. destruct (sim_obs _ _ S) as (a & b & a' & b' & lf & O1 & O' & A & B & A' & B' & L1 & L2 & LF).
  rewrite O in O1. symmetry in O1. apply app_eq_nil in O1 as [-> ->]. destruct lf; [|cbn in L2; lia].
  assert (Z : In k []) by (apply LF; now rewrite F, X, M). destruct Z.
Qed.

Ltac aside S k := eapply (sim_aside _ _ k); [exact S|assumption|reflexivity|reflexivity|far k|cbn; rewrite ?Nat.eqb_refl; reflexivity| | | |].

(** How far a forgotten guard has got. *)
Definition shaped (s : state) : Prop := forall i, forgotten i = true -> (exists b, pcs s i = Checked b) -> exclusive i = true.

Ltac fin P := rewrite ?P; repeat match goal with H : exclusive _ = _ |- _ => rewrite ?H; revert H end; intros; cbn; rewrite ?Nat.eqb_refl; auto; try discriminate; try exact Logic.I.
Lemma step_forgotten s s' k : sim s s' -> inv s' -> shaped s -> forgotten k = true ->
  sim (snd (step_guard k s)) s' /\ shaped (snd (step_guard k s)) /\ (forall e, In e (fst (step_guard k s)) -> e = Raised k IndexErr).
Proof.
  intros S I SH F. destruct (sim_stuck _ _ S k F) as [ST _]. pose proof (by_hand k F) as M. pose proof (SH k F) as SHk.
  assert (KEEP : forall s1, (forall j, j <> k -> pcs s1 j = pcs s j) -> (forall b, pcs s1 k = Checked b -> exclusive k = true) -> shaped s1).
  { intros s1 E X i Fi (b & B). destruct (Nat.eq_dec i k) as [->|N]; [eauto|]. rewrite (E i N) in B. apply SH; eauto. }
  assert (RES : forall s1 ev, sim s1 s' -> shaped s1 -> (forall e, In e ev -> e = Raised k IndexErr) ->
    sim (snd (ev, s1)) s' /\ shaped (snd (ev, s1)) /\ forall e, In e (fst (ev, s1)) -> e = Raised k IndexErr) by (intros; cbn; auto).
  pose proof (sim_use _ _ S k F) as US.
  unfold GuardModel.step_guard. destruct (pcs s k) eqn:P; try contradiction; cbn in ST, US.
  - rewrite US. cbn [to_pending transition]. apply RES; [|apply KEEP; [far k|near k; discriminate]|intros e []].
    aside S k; fin P.
  - apply RES; [| |intros e []]; destruct (exclusive k) eqn:X; try (apply KEEP; [far k|near k; discriminate]).
    + aside S k; fin P.
    + aside S k; fin P.
  - rewrite M. apply RES; [|apply KEEP; [far k|near k; discriminate]|intros e []].
    aside S k; fin P.
  - destruct (queue s) as [|h q] eqn:Q.
    + apply RES; [|apply KEEP; [far k|near k; discriminate]|intros e [<-|[]]; reflexivity].
      aside S k; fin P.
    + rewrite (not_first s s' k h q S I F ltac:(now rewrite P) Q). destruct (exclusive k) eqn:X.
      * apply RES; [|apply KEEP; [far k|near k]|intros e []]. aside S k; fin P.
      * apply RES; [|apply KEEP; [far k|near k; discriminate]|intros e []]. aside S k; fin P.
  - destruct next; [contradiction|]. assert (X : exclusive k = true) by eauto.
    destruct (observers s) as [|h o] eqn:O; [exfalso; now apply (marked_observers s s' k S F X ltac:(now rewrite P))|]. cbn [andb].
    apply RES; [|apply KEEP; [far k|near k; discriminate]|intros e []]. aside S k; fin P.
  - apply RES; auto. intros e0 [].
  - apply RES; auto. intros e0 [].
Qed.

Lemma step_subject s k e : inv s -> In e (fst (step_guard k s)) -> subject e = k.
Proof.
  intros I X. destruct (step_edge exclusive manual k s I) as [E _]. pose proof (edge_who exclusive manual _ _ _ _ _ _ e E X) as W. destruct e; exact W.
Qed.

Lemma act_same s s' a : sim s s' -> inv s' -> shaped s -> forgotten (actor a) = false ->
  fst (act a s) = fst (act a s') /\ sim (snd (act a s)) (snd (act a s')) /\ shaped (snd (act a s)) /\ (forall e, In e (fst (act a s)) -> subject e = actor a).
Proof.
  intros S I SH F. assert (KEEP : forall s1, (forall j, forgotten j = true -> pcs s1 j = pcs s j) -> shaped s1).
  { intros s1 E i Fi (b & B). rewrite (E i Fi) in B. apply SH; eauto. }
  destruct a as [k|k|k]; cbn [GuardModel.act actor] in *.
  - destruct (step_same s s' k S I F) as [E S1]. split; [exact E|]. split; [exact S1|]. split.
    + apply KEEP. intros j J. apply (step_other exclusive manual k s j). congruence.
    + intros e X. rewrite E in X. now apply (step_subject s').
  - cbn [fst snd]. rewrite (sim_uses _ _ S k F). split; [reflexivity|]. split; [|split; [|intros e []]].
    + destruct (begun (uses s' k)); [|exact S]. next S k; auto; try apply (sim_queue _ _ S); try apply (obs_keep _ _ S). now apply (sim_pcs _ _ S).
    + destruct (begun (uses s' k)); [|exact SH]. exact SH.
  - cbn [fst snd]. rewrite (sim_pcs _ _ S k F). split; [reflexivity|]. split; [|split].
    + unfold cancel_guard. rewrite (sim_pcs _ _ S k F). pose proof (sim_queue _ _ S). pose proof (obs_keep _ _ S). pose proof (sim_uses _ _ S k F).
      destruct (pcs s' k); try exact S; next S k; auto.
    + apply KEEP. intros j J. unfold cancel_guard. destruct (pcs s k); try reflexivity; cbn; rewrite (proj2 (Nat.eqb_neq j k)); congruence.
    + intros e X. destruct (pcs s' k); cbn in X; intuition; subst; reflexivity.
Qed.

Lemma act_forgotten s s' a : sim s s' -> inv s' -> shaped s -> forgotten (actor a) = true ->
  sim (snd (act a s)) s' /\ shaped (snd (act a s)) /\ (forall e, In e (fst (act a s)) -> e = Raised (actor a) IndexErr).
Proof.
  intros S I SH F. destruct a as [k|k|k]; cbn [GuardModel.act actor] in *.
  - now apply (step_forgotten s s' k).
  - cbn [fst snd]. split; [|split; [|intros e []]]; destruct (begun (uses s k)) eqn:B; try exact S; try exact SH.
    eapply (sim_aside _ _ k); [exact S|exact F|reflexivity|reflexivity|far k|reflexivity|auto|apply (sim_stuck _ _ S k F)|auto|].
    cbn. rewrite Nat.eqb_refl. pose proof (sim_use _ _ S k F) as US. destruct (sim_stuck _ _ S k F) as [ST _].
    assert (Z : snd (to_pending (uses s k)) = None) by (destruct (uses s k) as [[]|]; [discriminate|reflexivity..]).
    rewrite Z. destruct (pcs s k) eqn:P; try contradiction; cbn in *; auto. rewrite US in B. discriminate.
  - cbn [fst snd]. destruct (sim_stuck _ _ S k F) as [ST _]. split; [|split].
    + unfold cancel_guard. destruct (pcs s k) eqn:P; try exact S; try contradiction.
      * aside S k; fin P.
      * aside S k; fin P. left. split; [reflexivity|]. cbn. now destruct (exclusive k).
    + intros i Fi (b & B). apply SH; [exact Fi|]. exists b. unfold cancel_guard in B.
      destruct (pcs s k) eqn:P; try exact B; cbn in B; destruct (Nat.eqb_spec i k) as [->|N]; congruence.
    + destruct (pcs s k) eqn:P; try contradiction; intros e [].
Qed.

Lemma of_others_own k ev : forgotten k = false -> (forall e, In e ev -> subject e = k) -> of_others forgotten ev = ev.
Proof.
  intros F E. unfold of_others. induction ev as [|e ev IH]; [reflexivity|]. cbn. rewrite (E e) by (cbn; auto). rewrite F. cbn. f_equal. apply IH. intros x X. apply E. cbn. auto.
Qed.
Lemma of_others_none k ev : forgotten k = true -> (forall e, In e ev -> subject e = k) -> of_others forgotten ev = [].
Proof.
  intros F E. unfold of_others. induction ev as [|e ev IH]; [reflexivity|]. cbn. rewrite (E e) by (cbn; auto). rewrite F. cbn. apply IH. intros x X. apply E. cbn. auto.
Qed.

Lemma sim_run : forall l s s', sim s s' -> inv s' -> shaped s ->
  fst (run (others forgotten l) s') = of_others forgotten (fst (run l s)) /\
  sim (snd (run l s)) (snd (run (others forgotten l) s')) /\ shaped (snd (run l s)) /\
  (forall e, In e (fst (run l s)) -> forgotten (subject e) = true -> e = Raised (subject e) IndexErr).
Proof.
  induction l as [|a l IH]; intros s s' S I SH.
  - cbn. split; [reflexivity|]. split; [exact S|]. split; [exact SH|]. intros e [].
  - cbn [GuardModel.run others filter]. destruct (forgotten (actor a)) eqn:F; cbn [negb].
    + destruct (act_forgotten s s' a S I SH F) as (S1 & SH1 & E1). destruct (act a s) as [e1 s1]. cbn [fst snd] in *.
      destruct (IH s1 s' S1 I SH1) as (T & S2 & SH2 & E2). fold (others forgotten l). destruct (run l s1) as [e2 s2]. cbn [fst snd] in *.
      split; [|split; [exact S2|split; [exact SH2|]]].
      * unfold of_others. rewrite filter_app. change (filter _ e1) with (of_others forgotten e1).
        rewrite (of_others_none (actor a) e1 F); [exact T|]. intros e X. now rewrite (E1 e X).
      * intros e X Y. apply in_app_iff in X as [X|X]; [rewrite (E1 e X); reflexivity|auto].
    + destruct (act_same s s' a S I SH F) as (E & S1 & SH1 & E1). pose proof (act_inv exclusive manual a s' I) as I1. cbn [GuardModel.run].
      destruct (act a s) as [e1 s1], (act a s') as [e1' s1']. cbn [fst snd] in *. subst e1'.
      destruct (IH s1 s1' S1 I1 SH1) as (T & S2 & SH2 & E2). fold (others forgotten l). destruct (run l s1) as [e2 s2], (run (others forgotten l) s1') as [e2' s2']. cbn [fst snd] in *.
      split; [|split; [exact S2|split; [exact SH2|]]].
      * unfold of_others. rewrite filter_app. change (filter _ e1) with (of_others forgotten e1).
        rewrite (of_others_own (actor a) e1 F E1), T. reflexivity.
      * intros e X Y. apply in_app_iff in X as [X|X]; [rewrite (E1 e X) in Y; congruence|auto].
Qed.

Lemma shaped_start : shaped (unqueued_start forgotten).
Proof. intros i F (b & B). cbn in B. rewrite F in B. discriminate. Qed.
End Sim.

Section After.
Variable exclusive : nat -> bool.
Variable manual : nat -> bool.
Variable forgotten : nat -> bool.
Hypothesis by_hand : forall i, forgotten i = true -> manual i = true.
Notation inv := (inv exclusive manual).
Notation act := (act exclusive manual).
Notation run := (run exclusive manual).
Notation step_guard := (step_guard exclusive manual).
Notation sim := (sim exclusive forgotten).
Notation shaped := (shaped exclusive forgotten).

Lemma sim_after l : fst (run (others forgotten l) start) = of_others forgotten (fst (run l (unqueued_start forgotten))) /\
  sim (snd (run l (unqueued_start forgotten))) (snd (run (others forgotten l) start)) /\ shaped (snd (run l (unqueued_start forgotten))) /\
  (forall e, In e (fst (run l (unqueued_start forgotten))) -> forgotten (subject e) = true -> e = Raised (subject e) IndexErr).
Proof. apply sim_run; [exact by_hand|apply sim_start|apply inv_start|apply shaped_start]. Qed.

Lemma idle_stays i : forall l s, (forall a, In a l -> actor a <> i) -> pcs (snd (run l s)) i = pcs s i.
Proof.
  induction l as [|a l IH]; intros s N; [reflexivity|]. cbn [GuardModel.run].
  assert (E : pcs (snd (act a s)) i = pcs s i).
  { pose proof (N a (or_introl eq_refl)) as Na. destruct a as [k|k|k]; cbn [GuardModel.act snd actor] in *.
    - apply step_other. congruence.
    - now destruct (begun (uses s k)).
    - unfold cancel_guard. destruct (pcs s k); try reflexivity; cbn; rewrite (proj2 (Nat.eqb_neq i k)); congruence. }
  destruct (act a s) as [e1 s1]. cbn [snd] in E. rewrite <- E. specialize (IH s1 (fun x X => N x (or_intror X))). now destruct (run l s1).
Qed.

(** When the others have gone, the forgotten ones end too. *)
Definition calm (gs : list nat) (s : state) : Prop :=
  queue s = [] /\ (forall j, In j gs -> forgotten j = false -> pcs s j = Complete) /\ exists s', sim s s' /\ inv s' /\ shaped s.
Definition far_from_over (p : pc) : nat :=
  match p with Queued => 4 | Used => 3 | Notified | Checked _ => 2 | Waiting => 1 | _ => 0 end.

Lemma calm_step gs s k : calm gs s -> In k gs -> calm gs (snd (step_guard k s)) /\
  (forgotten k = true -> far_from_over (pcs (snd (step_guard k s)) k) <= far_from_over (pcs s k) - 1).
Proof.
  intros (Q & C & s' & S & I & SH) K. destruct (forgotten k) eqn:F.
  - destruct (step_forgotten _ _ _ by_hand s s' k S I SH F) as (S1 & SH1 & _). split.
    + split; [|split].
      * rewrite (sim_queue _ _ _ _ S1), <- (sim_queue _ _ _ _ S). exact Q.
      * intros j J Fj. rewrite (proj1 (step_other exclusive manual k s j ltac:(congruence))). auto.
      * exists s'. auto.
    + intros _. destruct (sim_stuck _ _ _ _ S k F) as [ST _]. unfold GuardModel.step_guard. destruct (pcs s k) eqn:P; try contradiction; cbn in ST.
      * pose proof (sim_use _ _ _ _ S k F) as US. rewrite P in US. cbn in US. rewrite US. cbn. rewrite Nat.eqb_refl. cbn. lia.
      * destruct (exclusive k); cbn; rewrite Nat.eqb_refl; cbn; lia.
      * rewrite (by_hand k F). cbn. rewrite Nat.eqb_refl. cbn. lia.
      * rewrite Q. cbn. rewrite Nat.eqb_refl. cbn. lia.
      * destruct next; [contradiction|]. assert (X : exclusive k = true) by (apply SH; eauto).
        destruct (observers s) as [|h o] eqn:O; [cbn; rewrite Nat.eqb_refl; cbn; lia|]. cbn. rewrite Nat.eqb_refl. cbn. lia.
      * cbn. rewrite P. cbn. lia.
      * cbn. rewrite P. cbn. lia.
  - split; [|discriminate]. unfold GuardModel.step_guard. rewrite (C k K F). cbn. split; [exact Q|]. split; [exact C|]. exists s'. auto.
Qed.

Lemma calm_run gs : forall b s, (forall a, In a b -> exists i, a = Step i /\ In i gs) -> calm gs s ->
  calm gs (snd (run b s)) /\ forall i, forgotten i = true -> far_from_over (pcs (snd (run b s)) i) <= far_from_over (pcs s i) - turns i b.
Proof.
  induction b as [|a b IH]; intros s A C; [split; [exact C|intros; cbn; lia]|].
  destruct (A a (or_introl eq_refl)) as (k & -> & K). cbn [GuardModel.run GuardModel.act].
  destruct (calm_step gs s k C K) as [C1 D]. pose proof (step_other exclusive manual k s) as OT. destruct (step_guard k s) as [e1 s1]. cbn [snd] in *.
  destruct (IH s1 (fun x X => A x (or_intror X)) C1) as [C2 D2]. destruct (run b s1) as [e2 s2]. cbn [snd] in *.
  split; [exact C2|]. intros i F. specialize (D2 i F). cbn [turns]. destruct (Nat.eq_dec i k) as [->|N].
  - specialize (D F). rewrite Nat.eqb_refl. lia.
  - rewrite (proj1 (OT i N)) in D2. destruct (Nat.eqb_spec i k); [contradiction|]. try (destruct (Nat.eqb_spec k i); [congruence|]). lia.
Qed.

Lemma others_concat rounds : others forgotten (concat rounds) = concat (map (others forgotten) rounds).
Proof. induction rounds as [|b r IH]; [reflexivity|]. cbn. unfold others in *. now rewrite filter_app, IH. Qed.
Lemma others_round gs b : round gs b -> round (filter (fun i => negb (forgotten i)) gs) (others forgotten b).
Proof.
  intros [R1 R2]. split.
  - intros a X. apply filter_In in X as [X Y]. destruct (R1 a X) as (i & -> & G). exists i. split; [reflexivity|]. now apply filter_In.
  - intros i X. apply filter_In in X as [X Y]. apply filter_In. auto.
Qed.
Lemma rounds_turns gs i : forall rounds, (forall b, In b rounds -> round gs b) -> In i gs -> length rounds <= turns i (concat rounds).
Proof.
  induction rounds as [|b r IH]; intros R G; [cbn; lia|]. cbn [concat length]. rewrite turns_app.
  pose proof (turns_in i b (proj2 (R b (or_introl eq_refl)) i G)). specialize (IH (fun x X => R x (or_intror X)) G). lia.
Qed.
Lemma filter_shorter {A} (f : A -> bool) l : length (filter f l) <= length l.
Proof. induction l as [|x l IH]; cbn; [lia|]. destruct (f x); cbn; lia. Qed.

(** A guard that was queued and cancelled before it was entered blocks those that join later. *)
Lemma cancelled_queued l l' i j : pcs (snd (run l start)) i = Queued -> ~ In (Joined j) (fst (run l start)) ->
  ~ In (Entered j) (fst (run (l ++ Cancel i :: l') start)).
Proof.
  intros P N X. destruct (event_moment_in exclusive manual _ _ X) as (l1 & a & l2 & E & X1). clear X. rename X1 into X.
  pose proof (t_inv _ _ _ _ (tinv_run exclusive manual l1)) as I1. destruct (act_entered exclusive manual _ _ _ I1 X) as (-> & F & _).
  pose proof (tinv_run exclusive manual l) as T. pose proof (tinv_run exclusive manual l1) as T1.
  assert (Ij : i <> j).
  { intros <-. apply N. apply (t_joined _ _ _ _ T). now rewrite P. }
  assert (C : (exists r, l = l1 ++ Step j :: r) \/ exists r, l1 = (l ++ [Cancel i]) ++ r).
  { exact (cut_at l l' l1 l2 (Cancel i) (Step j) ltac:(discriminate) E). }
  destruct C as [(r & ->)|(r & ->)].
  - apply N. rewrite run_app. cbn [fst]. apply in_or_app. left. apply (t_joined _ _ _ _ T1). now rewrite F.
  - assert (G : pcs (snd (run ((l ++ [Cancel i]) ++ r) start)) i = Gone true false).
    { rewrite run_app. cbn [snd]. apply gone_stays. rewrite run_snoc. cbn. unfold cancel_guard. rewrite P. cbn. now rewrite Nat.eqb_refl. }
    assert (J : In (Joined j) (fst (run ((l ++ [Cancel i]) ++ r) start))) by (apply (t_joined _ _ _ _ T1); now rewrite F).
    assert (Ji : In (Joined i) (fst (run l start))) by (apply (t_joined _ _ _ _ T); now rewrite P).
    set (t1 := fst (run ((l ++ [Cancel i]) ++ r) start)) in *.
    assert (Pre : exists u, t1 = fst (run l start) ++ u).
    { unfold t1. rewrite <- app_assoc, run_app. cbn [fst]. eauto. }
    destruct Pre as (u & Pre). apply (joins_in exclusive manual) in Ji.
    assert (Ju : In j (joins u)).
    { apply (joins_in exclusive manual u j). rewrite Pre in J. apply in_app_or in J as [J|J]; [contradiction|exact J]. }
    apply in_split in Ju as (u1 & u2 & Ju).
    assert (Q : in_queue exclusive manual i (pcs (snd (run ((l ++ [Cancel i]) ++ r) start)) i) = false).
    { apply (order_core exclusive manual t1 _ i j (joins (fst (run l start)) ++ u1) u2 T1 F).
      - rewrite Pre, joins_app, Ju, <- app_assoc. reflexivity.
      - apply in_or_app. auto. }
    rewrite G in Q. discriminate.
Qed.

(** Queued after its end, a forgotten guard is like one that was queued and cancelled. *)
Lemma sim_enqueue s s' i : sim s s' -> inv s' -> forgotten i = true -> over (pcs s i) = true -> pcs s' i = Idle ->
  sim (enqueue i s) (snd (run [Step i; Cancel i] s')).
Proof.
  intros S I F O P'. cbn [GuardModel.run GuardModel.act]. unfold GuardModel.step_guard. rewrite P', (by_hand i F). cbn [snd].
  unfold cancel_guard. cbn [pcs set_pc set_queue]. rewrite Nat.eqb_refl. constructor; cbn.
  - now rewrite (sim_queue _ _ _ _ S).
  - intros j J. rewrite (proj2 (Nat.eqb_neq j i)) by congruence. now apply (sim_pcs _ _ _ _ S).
  - intros j J. now apply (sim_uses _ _ _ _ S).
  - exact (sim_obs _ _ _ _ S).
  - intros j J. destruct (Nat.eqb_spec j i) as [->|N]; [|now apply (sim_stuck _ _ _ _ S)].
    split; [apply (sim_stuck _ _ _ _ S i F)|]. right. exists true. auto.
  - intros j J. now apply (sim_use _ _ _ _ S).
Qed.
End After.
Lemma never_gone ex man i : forall l s, (forall a, In a l -> exists k, a = Step k) -> (forall q o, pcs s i <> Gone q o) ->
  forall q o, pcs (snd (run ex man l s)) i <> Gone q o.
Proof.
  induction l as [|a l IH]; intros s A N; [exact N|]. cbn [run]. destruct (A a (or_introl eq_refl)) as (k & ->). cbn [act].
  assert (N1 : forall q o, pcs (snd (step_guard ex man k s)) i <> Gone q o).
  { destruct (Nat.eq_dec i k) as [->|Ne]; [|now rewrite (proj1 (step_other ex man k s i Ne))]. intros q o. unfold step_guard.
    destruct (pcs s k) eqn:P; repeat match goal with |- context [if ?b then _ else _] => destruct b | |- context [let '(_, _) := ?x in _] => destruct x | |- context [match ?x with [] => _ | _ :: _ => _ end] => destruct x | |- context [match pop ?x with None => _ | Some _ => _ end] => destruct (pop x) end;
      cbn; rewrite ?Nat.eqb_refl, ?P; try discriminate; try (destruct (ex k)); try discriminate; try apply N; congruence. }
  destruct (step_guard ex man k s) as [e1 s1]. specialize (IH s1 (fun x X => A x (or_intror X)) N1). now destruct (run ex man l s1).
Qed.
Lemma far_at_most p : far_from_over p <= 4.
Proof. destruct p; cbn; lia. Qed.

(** ** Appended in time *)
Section Late.
Variable exclusive : nat -> bool.
Variable manual : nat -> bool.
Notation inv := (inv exclusive manual).
Notation act := (act exclusive manual).
Notation run := (run exclusive manual).
Notation step_guard := (step_guard exclusive manual).
Notation sim := (sim exclusive).
Notation shaped := (shaped exclusive).

Definition without (forgotten : nat -> bool) (i j : nat) : bool := forgotten j && negb (Nat.eqb j i).

Lemma failed_stays a s i e : pcs s i = Failed e -> pcs (snd (act a s)) i = Failed e.
Proof.
  intros P. destruct a as [k|k|k]; cbn [GuardModel.act snd].
  - destruct (Nat.eq_dec i k) as [->|N]; [|now rewrite (proj1 (step_other exclusive manual k s i N))]. unfold GuardModel.step_guard. now rewrite P.
  - now destruct (begun (uses s k)).
  - unfold cancel_guard. destruct (pcs s k) eqn:Pk; try exact P; cbn; destruct (Nat.eqb_spec i k); congruence.
Qed.
Lemma raised_failed s k e : In (Raised k e) (fst (step_guard k s)) -> stuck (pcs s k) -> pcs s k <> Queued ->
  pcs (snd (step_guard k s)) k = Failed e.
Proof.
  intros X ST NQ. revert X. unfold GuardModel.step_guard.
  destruct (pcs s k) eqn:P; try contradiction; try congruence; cbn; rewrite ?Nat.eqb_refl;
    repeat match goal with |- context [if ?b then _ else _] => destruct b; cbn; rewrite ?Nat.eqb_refl | |- context [match ?b with [] => _ | _ :: _ => _ end] => destruct b; cbn; rewrite ?Nat.eqb_refl end;
    intros X; repeat (destruct X as [X|X]; try discriminate X; try contradiction); try injection X as <-; rewrite ?Nat.eqb_refl; try reflexivity; try contradiction.
Qed.

(** The step that a guard appended late makes up for what it has done already. *)
Lemma sim_append forgotten s s' i : (forall j, forgotten j = true -> manual j = true) ->
  sim forgotten s s' -> inv s' -> forgotten i = true -> between_looks (pcs s i) ->
  exists c, (forall a, In a c -> a = Step i \/ a = Reuse i /\ uses s i = None) /\ fst (run c s') = [Joined i] /\ sim (without forgotten i) (enqueue i s) (snd (run c s')).
Proof.
  intros BH S I F B.
  assert (P' : pcs s' i = Idle).
  { destruct (sim_stuck _ _ _ _ S i F) as [_ [Z|(q & _ & Z)]]; [exact Z|]. destruct B as [B|[B|[B|B]]]; rewrite B in Z; discriminate. }
  pose proof (inv_use _ _ s' I i) as U'. rewrite P' in U'. cbn in U'. pose proof (sim_use _ _ _ _ S i F) as US. pose proof (BH i F) as M.
  assert (GEN : forall s1', queue s1' = queue s' ++ [i] -> (forall j, j <> i -> pcs s1' j = pcs s' j /\ uses s1' j = uses s' j) ->
    pcs s1' i = pcs s i -> uses s1' i = uses s i ->
    (observers s1' = observers s' /\ exclusive i && marks (pcs s i) = false \/ observers s1' = observers s' ++ [i] /\ exclusive i = true /\ marks (pcs s i) = true) ->
    sim (without forgotten i) (enqueue i s) s1').
  { intros s1' Q E EP EU EO. unfold without.
    assert (OTH : forall j, forgotten j && negb (Nat.eqb j i) = true -> forgotten j = true /\ j <> i).
    { intros j J. apply Bool.andb_true_iff in J as [J N]. split; [exact J|]. destruct (Nat.eqb_spec j i); [discriminate|assumption]. }
    constructor; cbn [enqueue set_queue queue pcs uses observers].
    - now rewrite Q, (sim_queue _ _ _ _ S).
    - intros j J. destruct (Nat.eq_dec j i) as [->|N]; [auto|]. rewrite (proj1 (E j N)). apply (sim_pcs _ _ _ _ S).
      rewrite (proj2 (Nat.eqb_neq j i) N), Bool.andb_true_r in J. exact J.
    - intros j J. destruct (Nat.eq_dec j i) as [->|N]; [auto|]. rewrite (proj2 (E j N)). apply (sim_uses _ _ _ _ S).
      rewrite (proj2 (Nat.eqb_neq j i) N), Bool.andb_true_r in J. exact J.
    - destruct (sim_obs _ _ _ _ S) as (a & b & a' & b' & lf & O & O' & A & BB & A' & B' & L1 & L2 & LF).
      destruct EO as [(EO & X)|(EO & X & Y)].
      + exists a, b, a', b', lf. split; [exact O|]. split; [congruence|]. do 6 (split; [assumption|]).
        eapply listing_same; [|exact LF]. intros j. cbn beta. destruct (Nat.eqb_spec j i) as [->|N]; [rewrite F, X; reflexivity|].
        cbn. now rewrite Bool.andb_true_r.
      + edestruct (fun p q r => listing_del (fun j => forgotten j && (exclusive j && marks (pcs s j))) (fun j => (forgotten j && negb (Nat.eqb j i)) && (exclusive j && marks (pcs s j))) lf i p q r LF) as (lf' & LF' & LL).
        * intros j N. now rewrite (proj2 (Nat.eqb_neq j i) N), Bool.andb_true_r.
        * now rewrite F, X, Y.
        * now rewrite Nat.eqb_refl, Bool.andb_false_r.
        * exists a, b, a', (b' ++ [i]), lf'. split; [exact O|]. split; [rewrite EO, O', app_assoc; reflexivity|].
          do 3 (split; [assumption|]). split; [apply Forall_app; auto|]. split; [exact L1|]. split; [rewrite app_length; cbn; lia|exact LF'].
    - intros j J. destruct (OTH j J) as [Fj N]. rewrite (proj1 (E j N)). now apply (sim_stuck _ _ _ _ S).
    - intros j J. destruct (OTH j J) as [Fj N]. now apply (sim_use _ _ _ _ S). }
  (* the steps, and a second use if there was one *)
  assert (ST1 : step_guard i s' = ([Joined i], set_pc (set_queue s' (queue s' ++ [i])) i Queued)) by (unfold GuardModel.step_guard; rewrite P', M; reflexivity).
  set (s1 := set_pc (set_queue s' (queue s' ++ [i])) i Queued) in *.
  assert (ST2 : step_guard i s1 = ([], set_pc (set_use s1 i (Some Pending)) i Used)).
  { unfold GuardModel.step_guard. cbn. rewrite Nat.eqb_refl, U'. reflexivity. }
  set (s2 := set_pc (set_use s1 i (Some Pending)) i Used) in *.
  assert (ST3 : step_guard i s2 = ([], if exclusive i then set_pc (set_observers s2 (observers s2 ++ [i])) i Notified else set_pc s2 i Notified)).
  { unfold GuardModel.step_guard. cbn. rewrite Nat.eqb_refl. reflexivity. }
  set (s3 := if exclusive i then set_pc (set_observers s2 (observers s2 ++ [i])) i Notified else set_pc s2 i Notified) in *.
  assert (P3 : pcs s3 i = Notified) by (unfold s3; destruct (exclusive i); cbn; now rewrite Nat.eqb_refl).
  assert (ST4 : step_guard i s3 = ([], set_pc s3 i Waiting)) by (unfold GuardModel.step_guard; rewrite P3, M; reflexivity).
  assert (REST : forall t j, j <> i -> forall p o, pcs (set_pc (set_observers s2 o) i p) j = pcs s' j /\ uses (set_use (set_pc (set_observers s2 o) i p) i t) j = uses s' j).
  { intros t j N p o. cbn. rewrite (proj2 (Nat.eqb_neq j i) N). auto. }
  assert (CASES : forall k sk, (k = 2 /\ sk = s2 /\ pcs s i = Used) \/ (k = 3 /\ sk = s3 /\ pcs s i = Notified) \/ (k = 4 /\ sk = set_pc s3 i Waiting /\ pcs s i = Waiting) ->
    (forall t, sim (without forgotten i) (enqueue i s) (set_use sk i t) \/ uses s i <> t) /\ fst (run (repeat (Step i) k) s') = [Joined i] /\ snd (run (repeat (Step i) k) s') = sk).
  { intros k sk CS. split.
    - intros t. destruct CS as [(-> & -> & PP)|[(-> & -> & PP)|(-> & -> & PP)]].
      + assert (D : uses s i = t \/ uses s i <> t) by (destruct (uses s i) as [[]|], t as [[]|]; try (left; reflexivity); right; discriminate). destruct D as [D|D]; [left|now right].
        apply GEN; cbn; try reflexivity.
        * intros j N. rewrite (proj2 (Nat.eqb_neq j i) N). auto.
        * now rewrite Nat.eqb_refl.
        * now rewrite Nat.eqb_refl.
        * left. split; [reflexivity|]. rewrite PP. cbn. apply Bool.andb_false_r.
      + assert (D : uses s i = t \/ uses s i <> t) by (destruct (uses s i) as [[]|], t as [[]|]; try (left; reflexivity); right; discriminate). destruct D as [D|D]; [left|now right].
        unfold s3. destruct (exclusive i) eqn:X; apply GEN; cbn; try reflexivity; try (intros j N; rewrite (proj2 (Nat.eqb_neq j i) N); auto); rewrite ?Nat.eqb_refl; auto.
        right. rewrite PP. auto.
      + assert (D : uses s i = t \/ uses s i <> t) by (destruct (uses s i) as [[]|], t as [[]|]; try (left; reflexivity); right; discriminate). destruct D as [D|D]; [left|now right].
        unfold s3. destruct (exclusive i) eqn:X; apply GEN; cbn; try reflexivity; try (intros j N; rewrite (proj2 (Nat.eqb_neq j i) N); auto); rewrite ?Nat.eqb_refl; auto.
        right. rewrite PP. auto.
    - destruct CS as [(-> & -> & _)|[(-> & -> & _)|(-> & -> & _)]]; cbn [repeat GuardModel.run GuardModel.act]; rewrite ST1, ST2, ?ST3, ?ST4; cbn; auto. }
  assert (REUSE : forall sk, uses sk i = Some Pending -> act (Reuse i) sk = ([], set_use sk i None)) by (intros sk U; cbn; now rewrite U).
  assert (FIN : forall k sk, (k = 2 /\ sk = s2 /\ pcs s i = Used) \/ (k = 3 /\ sk = s3 /\ pcs s i = Notified) \/ (k = 4 /\ sk = set_pc s3 i Waiting /\ pcs s i = Waiting) ->
    exists c, (forall a, In a c -> a = Step i \/ a = Reuse i /\ uses s i = None) /\ fst (run c s') = [Joined i] /\ sim (without forgotten i) (enqueue i s) (snd (run c s'))).
  { intros k sk CS. destruct (CASES k sk CS) as (SM & T & E).
    assert (UK : uses sk i = Some Pending) by (destruct CS as [(_ & -> & _)|[(_ & -> & _)|(_ & -> & _)]]; unfold s3; try destruct (exclusive i); cbn; now rewrite Nat.eqb_refl).
    assert (UP : uses s i = Some Pending \/ uses s i = None) by (destruct CS as [(_ & _ & PP)|[(_ & _ & PP)|(_ & _ & PP)]]; rewrite PP in US; exact US).
    destruct UP as [UP|UP].
    - exists (repeat (Step i) k). split; [intros a X; apply repeat_spec in X as ->; auto|]. split; [exact T|]. rewrite E.
      destruct (SM (Some Pending)) as [Z|Z]; [|contradiction].
      (* writing back what is there changes nothing that is looked at *)
      constructor; try apply Z; cbn.
      intros j J. pose proof (sim_uses _ _ _ _ Z j J) as W. cbn in W. destruct (Nat.eqb_spec j i) as [->|N]; [congruence|exact W].
    - exists (repeat (Step i) k ++ [Reuse i]). split.
      + intros a X. apply in_app_iff in X as [X|[<-|[]]]; [apply repeat_spec in X as ->|]; auto.
      + rewrite run_app. cbn [fst snd]. rewrite T, E. cbn [GuardModel.run]. rewrite (REUSE sk UK). cbn [fst snd]. split; [reflexivity|].
        destruct (SM None) as [Z|Z]; [exact Z|contradiction]. }
  destruct B as [B|[B|[B|B]]].
  - exists [Step i]. split; [intros a [<-|[]]; auto|]. cbn [GuardModel.run GuardModel.act]. rewrite ST1. cbn [fst snd app]. split; [reflexivity|].
    rewrite B in US. cbn in US. apply GEN; cbn; try reflexivity.
    + intros j N. rewrite (proj2 (Nat.eqb_neq j i) N). auto.
    + now rewrite Nat.eqb_refl.
    + congruence.
    + left. split; [reflexivity|]. rewrite B. apply Bool.andb_false_r.
  - apply (FIN 2 s2). auto.
  - apply (FIN 3 s3). auto.
  - apply (FIN 4 (set_pc s3 i Waiting)). auto.
Qed.

Notation late_run := (late_run exclusive manual).
Notation late_act := (late_act exclusive manual).
Lemma late_run_snoc : forall l x s, late_run (l ++ [x]) s =
  (fst (late_run l s) ++ fst (late_act x (snd (late_run l s))), snd (late_act x (snd (late_run l s)))).
Proof.
  induction l as [|y l IH]; intros x s; cbn [app UnqueuedModel.late_run].
  - cbn [fst snd app]. destruct (late_act x s) as [e1 s1]. now rewrite app_nil_r.
  - destruct (late_act y s) as [e1 s1]. rewrite IH. destruct (late_run l s1). cbn. now rewrite app_assoc.
Qed.
Lemma late_run_does : forall l h s, late_run (l ++ map Does h) s =
  (fst (late_run l s) ++ fst (run h (snd (late_run l s))), snd (run h (snd (late_run l s)))).
Proof.
  induction l as [|y l IH]; intros h s; cbn [app UnqueuedModel.late_run].
  - cbn [fst snd app]. revert s. induction h as [|a h IH]; intros s; [reflexivity|]. cbn [map UnqueuedModel.late_run UnqueuedModel.late_act GuardModel.run].
    destruct (act a s) as [e1 s1]. rewrite IH. now destruct (run h s1).
  - destruct (late_act y s) as [e1 s1]. rewrite IH. destruct (late_run l s1). cbn. now rewrite app_assoc.
Qed.
Lemma left_out_snoc forgotten l i j : left_out forgotten (l ++ [Appends i]) j = without (left_out forgotten l) i j.
Proof.
  unfold left_out, without. rewrite existsb_app. cbn. rewrite Bool.orb_false_r, Bool.negb_orb, Bool.andb_assoc, (Nat.eqb_sym j i). reflexivity.
Qed.
Lemma left_out_does forgotten l a j : left_out forgotten (l ++ [Does a]) j = left_out forgotten l j.
Proof. unfold left_out. now rewrite existsb_app, Bool.orb_false_r. Qed.
Lemma of_others_ext fo fo' t : (forall e, In e t -> fo (subject e) = fo' (subject e)) -> of_others fo t = of_others fo' t.
Proof. intros E. unfold of_others. apply filter_ext_in. intros e X. now rewrite E. Qed.
Lemma sim_ext fo fo' s s' : (forall i, fo i = fo' i) -> sim fo s s' -> sim fo' s s'.
Proof.
  intros E S. constructor.
  - apply S.
  - intros i F. apply (sim_pcs _ _ _ _ S). now rewrite E.
  - intros i F. apply (sim_uses _ _ _ _ S). now rewrite E.
  - destruct (sim_obs _ _ _ _ S) as (a & b & a' & b' & lf & O & O' & A & BB & A' & B' & L1 & L2 & LF).
    exists a, b, a', b', lf. do 8 (split; [assumption|]). eapply listing_same; [|exact LF]. intros i. cbn. now rewrite E.
  - intros i F. apply (sim_stuck _ _ _ _ S). now rewrite E.
  - intros i F. apply (sim_use _ _ _ _ S). now rewrite E.
Qed.

Lemma act_uses forgotten s s' a i : sim forgotten s s' -> forgotten i = true -> uses (snd (act a s)) i = None -> uses s i = None \/ a = Reuse i.
Proof.
  intros S F U. destruct a as [k|k|k]; cbn [GuardModel.act snd] in U.
  - destruct (Nat.eq_dec i k) as [->|N]; [|left; now rewrite <- (proj2 (step_other exclusive manual k s i N))]. left. revert U.
    destruct (sim_stuck _ _ _ _ S k F) as [ST _]. pose proof (sim_use _ _ _ _ S k F) as US. unfold GuardModel.step_guard.
    destruct (pcs s k) eqn:P; try contradiction ST; cbn in US |- *; try (now auto);
      repeat match goal with |- context [if ?b then _ else _] => destruct b; cbn | |- context [match ?b with [] => _ | _ :: _ => _ end] => destruct b; cbn end; auto.
    rewrite US. cbn. rewrite Nat.eqb_refl. discriminate.
  - destruct (Nat.eq_dec i k) as [->|N]; [auto|]. left. destruct (begun (uses s k)); [|exact U]. cbn in U. rewrite (proj2 (Nat.eqb_neq i k) N) in U. exact U.
  - left. unfold cancel_guard in U. destruct (pcs s k); exact U.
Qed.
(** What the guards do in a history without late appends that shows the same. *)
Definition comes_from (l : list late_action) (a : action) : Prop :=
  In (Does a) l \/ exists i, In (Appends i) l /\ (a = Step i \/ a = Reuse i /\ In (Does (Reuse i)) l).
Lemma comes_snoc l x a : comes_from l a -> comes_from (l ++ [x]) a.
Proof. intros [X|(i & X & [->|[-> Y]])]; [left|right; exists i|right; exists i]; rewrite !in_app_iff; auto 6. Qed.

Lemma late_sim forgotten : (forall i, forgotten i = true -> manual i = true) ->
  forall l, in_time exclusive manual forgotten l -> exists l',
    (forall a, In a l' -> comes_from l a /\ left_out forgotten l (actor a) = false) /\
    (forall i, left_out forgotten l i = true -> uses (late_after exclusive manual forgotten l) i = None -> In (Does (Reuse i)) l) /\
    of_others (left_out forgotten l) (late_trace exclusive manual forgotten l) = trace exclusive manual l' /\
    sim (left_out forgotten l) (late_after exclusive manual forgotten l) (after exclusive manual l') /\
    shaped (left_out forgotten l) (late_after exclusive manual forgotten l) /\
    (forall e, In e (late_trace exclusive manual forgotten l) -> left_out forgotten l (subject e) = true ->
       e = Raised (subject e) IndexErr /\ pcs (late_after exclusive manual forgotten l) (subject e) = Failed IndexErr).
Proof.
  intros BH. induction l as [|x l IH] using rev_ind; intros T.
  - exists []. split; [intros a []|]. split; [intros i _ Z; discriminate Z|]. split; [reflexivity|].
    assert (E : forall i, forgotten i = left_out forgotten [] i) by (intros i; unfold left_out; cbn; now rewrite Bool.andb_true_r).
    split; [apply (sim_ext forgotten); [exact E|apply sim_start]|]. split; [|intros e []].
    intros i F. rewrite <- E in F. now apply (shaped_start exclusive forgotten).
  - assert (T1 : in_time exclusive manual forgotten l).
    { intros l1 i l2 E. apply (T l1 i (l2 ++ [x])). rewrite E, <- app_assoc. reflexivity. }
    destruct (IH T1) as (l' & NA & UN & TR & S & SH & EV). clear IH.
    unfold late_trace, late_after in *. rewrite late_run_snoc. cbn [fst snd].
    set (t := fst (late_run l (unqueued_start forgotten))) in *. set (s := snd (late_run l (unqueued_start forgotten))) in *.
    assert (I : inv (after exclusive manual l')) by (apply run_inv, inv_start).
    assert (BL : forall i, left_out forgotten l i = true -> manual i = true) by (intros i F; apply BH; unfold left_out in F; now apply Bool.andb_true_iff in F as [F _]).
    destruct x as [a|i]; cbn [UnqueuedModel.late_act].
    + destruct (left_out forgotten l (actor a)) eqn:F.
      * destruct (act_forgotten exclusive manual _ BL s _ a S I SH F) as (S1 & SH1 & E1).
        exists l'. split; [intros b X; rewrite left_out_does; split; [apply comes_snoc|]; now apply NA|].
        split; [intros i J U; rewrite left_out_does in J; rewrite in_app_iff; destruct (act_uses _ _ _ a i S J U) as [U1| ->]; cbn; auto|].
        split.
        { transitivity (of_others (left_out forgotten l) (t ++ fst (act a s))); [apply of_others_ext; intros e _; apply left_out_does|].
          unfold of_others. rewrite filter_app. fold (of_others (left_out forgotten l) t). fold (of_others (left_out forgotten l) (fst (act a s))).
          rewrite TR, (of_others_none (left_out forgotten l) (actor a)); [apply app_nil_r|exact F|]. intros e X. now rewrite (E1 e X). }
        split; [eapply sim_ext; [intros j; symmetry; apply left_out_does|exact S1]|].
        split; [intros j J; rewrite left_out_does in J; now apply SH1|].
        intros e X J. rewrite left_out_does in J. apply in_app_iff in X as [X|X].
        -- destruct (EV e X J) as [Z1 Z2]. split; [exact Z1|]. now apply failed_stays.
        -- pose proof (E1 e X) as Z. subst e. cbn [subject]. split; [reflexivity|].
           destruct a as [k|k|k]; cbn [GuardModel.act actor fst snd] in *; [|destruct X|destruct (pcs s k); cbn in X; intuition discriminate].
           destruct (sim_stuck _ _ _ _ S k F) as [ST _]. destruct (pcs s k) eqn:P; try contradiction ST; try (apply raised_failed; [exact X|rewrite P; exact ST|congruence]).
           exfalso. pose proof (sim_use _ _ _ _ S k F) as U. rewrite P in U. cbn in U. unfold GuardModel.step_guard in X. rewrite P, U in X. destruct X.
      * destruct (act_same exclusive manual _ s _ a S I SH F) as (E0 & S1 & SH1 & E1).
        exists (l' ++ [a]). split.
        { intros b X. rewrite left_out_does. apply in_app_iff in X as [X|[<-|[]]]; [split; [apply comes_snoc|]; now apply NA|]. split; [left; apply in_or_app; cbn; auto|exact F]. }
        split; [intros i J U; rewrite left_out_does in J; rewrite in_app_iff; destruct (act_uses _ _ _ a i S J U) as [U1| ->]; cbn; auto|].
        unfold trace, after in *. rewrite run_snoc. cbn [fst snd].
        split.
        { transitivity (of_others (left_out forgotten l) (t ++ fst (act a s))); [apply of_others_ext; intros e _; apply left_out_does|].
          unfold of_others. rewrite filter_app. fold (of_others (left_out forgotten l) t). fold (of_others (left_out forgotten l) (fst (act a s))).
          rewrite TR, (of_others_own (left_out forgotten l) (actor a)); [now rewrite E0|exact F|exact E1]. }
        split; [eapply sim_ext; [intros j; symmetry; apply left_out_does|exact S1]|].
        split; [intros j J; rewrite left_out_does in J; now apply SH1|].
        intros e X J. rewrite left_out_does in J. apply in_app_iff in X as [X|X].
        -- destruct (EV e X J) as [Z1 Z2]. split; [exact Z1|]. now apply failed_stays.
        -- rewrite (E1 e X) in J. congruence.
    + destruct (T l i []) as [F B]; [reflexivity|]. unfold late_after in B. fold s in B.
      destruct (sim_append _ s _ i BL S I F B) as (c & C & CT & S1).
      exists (l' ++ c). unfold trace, after in *. rewrite run_app. cbn [fst snd]. rewrite CT.
      assert (W : forall j, without (left_out forgotten l) i j = left_out forgotten (l ++ [Appends i]) j) by (intros j; symmetry; apply left_out_snoc).
      split.
      { intros a X. rewrite left_out_snoc. unfold without. apply in_app_iff in X as [X|X].
        - split; [apply comes_snoc; now apply NA|]. now rewrite (proj2 (NA a X)).
        - split.
          + right. exists i. rewrite !in_app_iff. split; [cbn; auto|]. destruct (C a X) as [->|[-> U]]; [auto|]. right. split; [reflexivity|]. left. now apply UN.
          + destruct (C a X) as [->|[-> U]]; cbn [actor]; rewrite Nat.eqb_refl; apply Bool.andb_false_r. }
      split.
      { intros j J U. rewrite left_out_snoc in J. apply Bool.andb_true_iff in J as [J _]. apply in_or_app. left. now apply UN. }
      split.
      { unfold of_others. rewrite filter_app. cbn [filter subject]. rewrite left_out_snoc. unfold without at 1. rewrite Nat.eqb_refl, Bool.andb_false_r. cbn [negb]. f_equal.
        rewrite <- TR. apply (of_others_ext (left_out forgotten (l ++ [Appends i])) (left_out forgotten l)). intros e X. rewrite left_out_snoc. unfold without.
        destruct (left_out forgotten l (subject e)) eqn:J; [|reflexivity]. destruct (EV e X J) as [_ Z].
        destruct (Nat.eqb_spec (subject e) i) as [Q|N]; [|reflexivity]. exfalso. rewrite Q in Z. destruct B as [B|[B|[B|B]]]; congruence. }
      split; [eapply sim_ext; [exact W|exact S1]|].
      split; [intros j J; rewrite left_out_snoc in J; unfold without in J; apply Bool.andb_true_iff in J as [J _]; now apply SH|].
      intros e X J. rewrite left_out_snoc in J. unfold without in J. apply Bool.andb_true_iff in J as [J N]. apply in_app_iff in X as [X|[<-|[]]].
      * now apply EV.
      * cbn in N. rewrite Nat.eqb_refl in N. discriminate.
Qed.
End Late.
