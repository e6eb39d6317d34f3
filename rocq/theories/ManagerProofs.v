(** * Proofs about guards on many targets *)
From Coq Require Import Lia.
From Verif Require Import Base GuardModel GuardSpec GuardProofs ManagerModel ManagerSpec.

Section M.
Variable exclusive : nat -> bool.
Variable of : nat -> nat.
Notation trace := (trace exclusive automatic).
Notation after := (after exclusive automatic).
Notation obey := (obey exclusive of).
Notation manage := (manage exclusive of).
Notation go := (go exclusive of).
Notation again := (again of).
Notation abort := (abort exclusive of).

Definition pair_of (x : stage) : option nat :=
  match x with Fresh => None | Bound g | Over g => Some g | Lost g => g end.

Definition bound_to (m : manager) (g : nat) (i : nat) : bool :=
  match stages m i with Bound h => Nat.eqb h g | _ => false end.
Lemma bound_to_spec m g i : bound_to m g i = true <-> stages m i = Bound g.
Proof.
  unfold bound_to. destruct (stages m i) as [|h| |]; try (split; discriminate).
  rewrite Nat.eqb_eq. split; congruence.
Qed.

(** The history of each deque pair, and the users too many. *)
Record minv (hist : nat -> list action) (slack : nat -> nat) (t : list event) (m : manager) : Prop := {
  m_pairs : forall g, pairs m g = after (hist g);
  m_hist : forall g a, In a (hist g) -> exists i, (a = Step i \/ a = Cancel i) /\ pair_of (stages m i) = Some g;
  m_old : forall g, next m <= g -> hist g = [];
  m_target : forall u g, targets m u = Some g -> g < next m;
  m_inj : forall u v g, targets m u = Some g -> targets m v = Some g -> u = v;
  m_bound : forall i g, stages m i = Bound g -> targets m (of i) = Some g;
  m_stage : forall i g, pair_of (stages m i) = Some g -> g < next m;
  m_trace : forall i x, who x = i -> (In x t <-> exists g, pair_of (stages m i) = Some g /\ In x (trace (hist g)));
  m_users : forall g, g < next m -> exists l, listing (bound_to m g) l /\ users m g = length l + slack g;
}.

Lemma minv_start : minv (fun _ => []) (fun _ => 0) [] nobody.
Proof.
  constructor; cbn; try discriminate; try tauto; try lia.
  intros i x _. split; [tauto|]. intros (g & X & _). discriminate.
Qed.

Definition upd {A} (f : nat -> A) (g : nat) (x : A) : nat -> A := fun h => if Nat.eqb h g then x else f h.
Lemma upd_eq {A} (f : nat -> A) g x : upd f g x g = x.
Proof. unfold upd. now rewrite Nat.eqb_refl. Qed.
Lemma upd_ne {A} (f : nat -> A) g x h : h <> g -> upd f g x h = f h.
Proof. unfold upd. intros N. now rewrite (proj2 (Nat.eqb_neq h g)). Qed.

(** Looking up a target keeps everything. *)
Lemma look_up_inv hist slack t m u : minv hist slack t m ->
  let '(g, m1) := look_up m u in
  minv hist (if targets m u then slack else upd slack (next m) 0) t m1 /\ targets m1 u = Some g /\ g < next m1 /\
  stages m1 = stages m /\ (forall v h, targets m v = Some h -> targets m1 v = Some h /\ users m1 h = users m h /\ pairs m1 h = pairs m h) /\
  next m <= next m1.
Proof.
  intros M. unfold look_up. destruct (targets m u) as [g|] eqn:T.
  - split; [exact M|]. split; [exact T|]. split; [apply (m_target _ _ _ _ M u g T)|].
    split; [reflexivity|]. split; [auto|lia].
  - cbn. rewrite Nat.eqb_refl. split; [|split; [reflexivity|split; [lia|split; [reflexivity|split; [|lia]]]]].
    + destruct M as [M1 M2 M3 M4 M5 M6 M7 M8 M9]. constructor; cbn; auto.
      * intros h. destruct (Nat.eqb_spec h (next m)) as [->|Ne]; [rewrite M3 by lia; reflexivity|apply M1].
      * intros h H. apply M3. lia.
      * intros v h. destruct (Nat.eqb_spec v u) as [->|Ne]; [intros X; injection X as <-; lia|]. intros X. apply M4 in X. lia.
      * intros v w h. destruct (Nat.eqb_spec v u) as [->|Nv], (Nat.eqb_spec w u) as [->|Nw]; auto.
        -- intros X Y. injection X as <-. apply M4 in Y. lia.
        -- intros Y X. injection X as <-. apply M4 in Y. lia.
        -- apply M5.
      * intros i h X. destruct (Nat.eqb_spec (of i) u) as [E|Ne]; [|now apply M6]. apply M6 in X. congruence.
      * intros i h X. apply M7 in X. lia.
      * intros h H. destruct (Nat.eqb_spec h (next m)) as [->|Ne].
        -- exists []. rewrite upd_eq. cbn. split; [|reflexivity]. split; [constructor|]. intros i. split; [intros []|].
           intros X. apply bound_to_spec in X. specialize (M7 i (next m)). cbn in X. rewrite X in M7. cbn in M7. specialize (M7 eq_refl). lia.
        -- rewrite upd_ne by exact Ne. apply M9. lia.
    + intros v h X. pose proof (m_target _ _ _ _ M v h X) as L.
      destruct (Nat.eqb_spec v u) as [->|Ne]; [congruence|]. rewrite (proj2 (Nat.eqb_neq h (next m))) by lia. auto.
Qed.

Lemma in_snoc_trace l a x : In x (trace (l ++ [a])) <->
  In x (trace l) \/ In x (fst (act exclusive automatic a (after l))).
Proof. unfold GuardSpec.trace, GuardSpec.after. rewrite run_snoc. cbn [fst]. apply in_app_iff. Qed.
Lemma after_snoc l a : after (l ++ [a]) = snd (act exclusive automatic a (after l)).
Proof. unfold GuardSpec.after. now rewrite run_snoc. Qed.

(** Events of an action are about its guard. *)
Lemma act_who a s x : inv exclusive automatic s -> In x (fst (act exclusive automatic a s)) ->
  exists i, (a = Step i \/ a = Cancel i) /\ who x = i.
Proof.
  intros I X. destruct a as [i|i|i]; cbn [act fst] in X.
  - exists i. split; [auto|]. destruct (step_edge exclusive automatic i s I) as [E _]. exact (edge_who _ _ _ _ _ _ _ _ _ E X).
  - destruct X.
  - exists i. split; [auto|]. destruct (pcs s i); cbn in X; intuition subst; reflexivity.
Qed.
Lemma after_inv l : inv exclusive automatic (after l).
Proof. apply (t_inv _ _ _ _ (tinv_run exclusive automatic l)). Qed.

(** One operation of a guard over its pair. *)
Lemma pair_step hist slack t m i g a : minv hist slack t m -> stages m i = Bound g -> a = Step i \/ a = Cancel i ->
  minv (upd hist g (hist g ++ [a])) slack (t ++ fst (act exclusive automatic a (pairs m g)))
    (set_pair m g (snd (act exclusive automatic a (pairs m g)))).
Proof.
  intros M B A. pose proof (m_stage _ _ _ _ M i g) as Lg. rewrite B in Lg. specialize (Lg eq_refl).
  destruct M as [M1 M2 M3 M4 M5 M6 M7 M8 M9]. constructor; cbn; auto.
  - intros h. destruct (Nat.eqb_spec h g) as [->|Ne]; [rewrite upd_eq, after_snoc, M1; reflexivity|rewrite upd_ne by exact Ne; apply M1].
  - intros h b. destruct (Nat.eq_dec h g) as [->|Ne]; [rewrite upd_eq|rewrite upd_ne by exact Ne; apply M2].
    intros X. apply in_app_iff in X as [X|[<-|[]]]; [now apply M2|]. exists i. rewrite B. auto.
  - intros h H. rewrite upd_ne by lia. now apply M3.
  - intros j x W. rewrite in_app_iff, (M8 j x W). rewrite M1. split.
    + intros [(h & P & X)|X].
      * exists h. split; [exact P|]. destruct (Nat.eq_dec h g) as [->|Ne]; [rewrite upd_eq; apply in_snoc_trace; auto|now rewrite upd_ne].
      * destruct (act_who a _ x (after_inv _) X) as (k & K & W'). assert (j = i) as -> by (destruct A, K; congruence).
        exists g. rewrite B. split; [reflexivity|]. rewrite upd_eq. apply in_snoc_trace. auto.
    + intros (h & P & X). destruct (Nat.eq_dec h g) as [->|Ne]; [rewrite upd_eq in X|rewrite upd_ne in X by exact Ne; eauto].
      apply in_snoc_trace in X as [X|X]; [eauto|auto].
Qed.

(** A guard takes or gives up its place. *)
Lemma take_place hist slack t m i g : minv hist slack t m -> stages m i = Fresh -> targets m (of i) = Some g ->
  minv hist slack t (set_stage (set_users m g (S (users m g))) i (Bound g)).
Proof.
  intros M F T. pose proof (m_target _ _ _ _ M _ _ T) as Lg. destruct M as [M1 M2 M3 M4 M5 M6 M7 M8 M9].
  assert (Nh : forall h a, In a (hist h) -> a <> Step i /\ a <> Cancel i).
  { intros h a X. destruct (M2 h a X) as (k & A & P). assert (k <> i) by (intros ->; rewrite F in P; discriminate).
    destruct A as [->| ->]; split; congruence. }
  assert (Nt : forall h x, In x (trace (hist h)) -> who x <> i).
  { intros h x X W. unfold GuardSpec.trace in X. destruct (event_moment_in exclusive automatic _ _ X) as (l1 & a & l2 & E & Y).
    fold (after l1) in Y. destruct (act_who a _ x (after_inv l1) Y) as (k & K & W').
    destruct (Nh h a) as [N1 N2]; [rewrite E; apply in_or_app; cbn; auto|]. destruct K as [K|K]; congruence. }
  constructor; cbn; auto.
  - intros h a X. destruct (M2 h a X) as (k & A & P). exists k. split; [exact A|].
    destruct (Nat.eqb_spec k i) as [->|Ne]; [rewrite F in P; discriminate|exact P].
  - intros j h. destruct (Nat.eqb_spec j i) as [->|Ne]; [congruence|apply M6].
  - intros j h. destruct (Nat.eqb_spec j i) as [->|Ne]; [cbn; congruence|apply M7].
  - intros j x W. rewrite (M8 j x W). destruct (Nat.eqb_spec j i) as [->|Ne]; [|reflexivity]. rewrite F. cbn.
    split; [intros (h & X & _); discriminate|]. intros (h & X & Y). now destruct (Nt h x Y).
  - intros h H. destruct (M9 h H) as (l & Ll & U). destruct (Nat.eqb_spec h g) as [->|Ne].
    + exists (i :: l). split; [|cbn; lia]. apply (listing_add (bound_to m g)); auto.
      * intros j Nj. unfold bound_to. cbn. now rewrite (proj2 (Nat.eqb_neq j i)).
      * unfold bound_to. now rewrite F.
      * unfold bound_to. cbn. rewrite !Nat.eqb_refl. reflexivity.
    + exists l. split; [|exact U]. revert Ll. apply listing_same. intros j. unfold bound_to. cbn.
      destruct (Nat.eqb_spec j i) as [->|Nj]; [|reflexivity]. rewrite F. symmetry. apply Nat.eqb_neq. congruence.
Qed.

(** Leaving one's place without clean-up. *)
Lemma lose_place hist slack t m i g x : minv hist slack t m -> stages m i = Bound g -> x = Lost (Some g) \/ x = Over g ->
  minv hist (upd slack g (S (slack g))) t (set_stage m i x).
Proof.
  intros M B X. pose proof (m_stage _ _ _ _ M i g) as Lg. rewrite B in Lg. specialize (Lg eq_refl).
  destruct M as [M1 M2 M3 M4 M5 M6 M7 M8 M9].
  assert (Px : pair_of x = pair_of (stages m i)) by (rewrite B; destruct X as [->| ->]; reflexivity).
  assert (Nx : forall h, x <> Bound h) by (intros h; destruct X as [->| ->]; discriminate).
  constructor; cbn; auto.
  - intros h a Y. destruct (M2 h a Y) as (k & A & P). exists k. split; [exact A|].
    destruct (Nat.eqb_spec k i) as [->|Ne]; [rewrite Px; exact P|exact P].
  - intros j h. destruct (Nat.eqb_spec j i) as [->|Ne]; [intros Z; now destruct (Nx h)|apply M6].
  - intros j h. destruct (Nat.eqb_spec j i) as [->|Ne]; [rewrite Px|]; apply M7.
  - intros j y W. rewrite (M8 j y W). destruct (Nat.eqb_spec j i) as [->|Ne]; [rewrite Px|]; reflexivity.
  - intros h H. destruct (M9 h H) as (l & Ll & U). destruct (Nat.eq_dec h g) as [->|Ne].
    + destruct (listing_del (bound_to m g) (bound_to (set_stage m i x) g) l i) as (l' & L' & E); auto.
      * intros j Nj. unfold bound_to. cbn. now rewrite (proj2 (Nat.eqb_neq j i)).
      * now apply bound_to_spec.
      * unfold bound_to. cbn. rewrite Nat.eqb_refl. destruct X as [->| ->]; reflexivity.
      * exists l'. rewrite upd_eq. split; [exact L'|lia].
    + exists l. rewrite upd_ne by exact Ne. split; [|exact U]. revert Ll. apply listing_same. intros j. unfold bound_to. cbn.
      destruct (Nat.eqb_spec j i) as [->|Nj]; [|reflexivity]. rewrite B. destruct X as [->| ->]; apply Nat.eqb_neq; congruence.
Qed.

Lemma bump hist slack t m g n : minv hist slack t m -> g < next m ->
  minv hist (upd slack g (slack g + n)) t (set_users m g (users m g + n)).
Proof.
  intros [M1 M2 M3 M4 M5 M6 M7 M8 M9] L. constructor; cbn; auto.
  intros h H. destruct (M9 h H) as (l & Ll & U). exists l. split; [exact Ll|].
  destruct (Nat.eqb_spec h g) as [->|Ne]; [rewrite upd_eq; lia|now rewrite upd_ne].
Qed.

(** Clean-up finds a user, and its own pair. *)
Lemma give_place hist slack t m i g : minv hist slack t m -> stages m i = Bound g ->
  exists n m1, cleanup m (of i) = Some m1 /\ users m g = S n /\
    minv hist slack t (set_stage m1 i (Over g)) /\ stages m1 = stages m /\
    next m1 = next m /\ users m1 = users (set_users m g n) /\ pairs m1 = pairs m /\
    (targets m1 = targets m \/
     (targets m1 = upd (targets m) (of i) None /\ n = 0 /\ queue (pairs m g) = [] /\ observers (pairs m g) = [])) /\
    (n = 0 -> queue (pairs m g) = [] -> observers (pairs m g) = [] -> targets m1 (of i) = None) /\ slack g <= n.
Proof.
  intros M B. pose proof (m_bound _ _ _ _ M i g B) as T. unfold cleanup, look_up. rewrite T.
  pose proof (m_target _ _ _ _ M _ _ T) as Lg. destruct (m_users _ _ _ _ M g Lg) as (l & Ll & U).
  pose proof (proj2 (proj2 Ll i) (proj2 (bound_to_spec m g i) B)) as Il.
  destruct l as [|y l0] eqn:El; [destruct Il|]. rewrite <- El in *. 
  assert (Sn : exists n, users m g = S n) by (exists (length l0 + slack g); rewrite U, El; reflexivity).
  destruct Sn as (n & Un). rewrite Un.
  assert (Sl : slack g <= n) by (rewrite Un, El in U; cbn in U; lia).
  assert (Base : minv hist slack t (set_stage (set_users m g n) i (Over g))).
  { destruct (lose_place hist slack t m i g (Over g) M B ltac:(auto)) as [M1 M2 M3 M4 M5 M6 M7 M8 M9].
    constructor; cbn in *; auto. intros h H. destruct (M9 h H) as (l' & L' & U'). exists l'. split; [exact L'|].
    destruct (Nat.eqb_spec h g) as [->|Ne]; [rewrite upd_eq in U'; lia|now rewrite upd_ne in U']. }
  assert (Drop : n = 0 -> minv hist slack t (set_stage (set_target (set_users m g n) (of i) None) i (Over g))).
  { intros ->. destruct Base as [M1 M2 M3 M4 M5 M6 M7 M8 M9]. constructor; cbn in *; auto.
    - intros u h. destruct (Nat.eqb_spec u (of i)); [discriminate|apply M4].
    - intros u v h. destruct (Nat.eqb_spec u (of i)), (Nat.eqb_spec v (of i)); try discriminate. apply M5.
    - intros j h X. destruct (Nat.eqb_spec (of j) (of i)) as [E|Ne]; [exfalso|now apply M6].
      pose proof (M6 j h X) as Y. rewrite E, T in Y. injection Y as <-.
      destruct (M9 g Lg) as (l' & L' & U'). rewrite Nat.eqb_refl in U'. destruct l'; [|discriminate].
      assert (Z : In j []) by (apply L'; apply bound_to_spec; exact X). destruct Z. }
  exists n. cbn [pairs set_users].
  destruct n as [|n]; [destruct (queue (pairs m g)) eqn:Q; [destruct (observers (pairs m g)) eqn:O|]|].
  - eexists. split; [reflexivity|]. split; [reflexivity|]. split; [now apply Drop|].
    cbn. split; [reflexivity|]. split; [reflexivity|]. split; [reflexivity|]. split; [reflexivity|].
    split; [right; auto|]. split; [intros _ _ _; now rewrite Nat.eqb_refl|exact Sl].
  - eexists. split; [reflexivity|]. split; [reflexivity|]. split; [exact Base|].
    cbn. split; [reflexivity|]. split; [reflexivity|]. split; [reflexivity|]. split; [reflexivity|].
    split; [left; reflexivity|]. split; [discriminate|exact Sl].
  - eexists. split; [reflexivity|]. split; [reflexivity|]. split; [exact Base|].
    cbn. split; [reflexivity|]. split; [reflexivity|]. split; [reflexivity|]. split; [reflexivity|].
    split; [left; reflexivity|]. split; [discriminate|exact Sl].
  - eexists. split; [reflexivity|]. split; [reflexivity|]. split; [exact Base|].
    cbn. split; [reflexivity|]. split; [reflexivity|]. split; [reflexivity|]. split; [reflexivity|].
    split; [left; reflexivity|]. split; [discriminate|exact Sl].
Qed.

Definition keeps (slack slack' : nat -> nat) (m m' : manager) : Prop :=
  forall u g, targets m u = Some g -> slack g <= slack' g /\ (targets m' u = Some g \/ slack g = 0).

Lemma look_up_keeps hist slack t m u : minv hist slack t m ->
  forall v h, targets m v = Some h -> (if targets m u then slack else upd slack (next m) 0) h = slack h.
Proof.
  intros M v h T. pose proof (m_target _ _ _ _ M v h T). destruct (targets m u); [reflexivity|]. rewrite upd_ne by lia. reflexivity.
Qed.

Lemma go_inv hist slack t m i : minv hist slack t m ->
  exists hist' slack', minv hist' slack' (t ++ fst (go i m)) (snd (go i m)) /\ keeps slack slack' m (snd (go i m)) /\
    ((forall g, slack g = 0) -> forall g, slack' g = 0).
Proof.
  intros M. unfold ManagerModel.go. destruct (stages m i) as [|g|g|g] eqn:B.
  - unfold add_user. pose proof (look_up_inv _ _ _ _ (of i) M) as L. pose proof (look_up_keeps _ _ _ _ (of i) M) as K.
    destruct (look_up m (of i)) as [g m1]. destruct L as (M1 & T & Lg & S & P & _). cbn [fst snd]. rewrite app_nil_r.
    exists hist, (if targets m (of i) then slack else upd slack (next m) 0). split; [|split].
    + apply take_place; [exact M1|now rewrite S|exact T].
    + intros v h X. rewrite (K v h X). split; [lia|]. left. apply (P v h X).
    + intros Z h. destruct (targets m (of i)); [apply Z|]. unfold upd. destruct (h =? next m)%nat; [reflexivity|apply Z].
  - destruct (ended (pcs (pairs m g) i)) eqn:E.
    + destruct (give_place _ _ _ _ _ _ M B) as (n & m1 & -> & U & M1 & S & Nx & Us & P & T & _ & Sl). cbn [fst snd]. rewrite app_nil_r.
      exists hist, slack. split; [exact M1|]. split; [|auto]. intros u h X. split; [lia|]. cbn.
      destruct T as [->|(-> & -> & _)]; [now left|]. unfold upd.
      destruct (Nat.eqb_spec u (of i)) as [->|Ne]; [right|now left].
      rewrite (m_bound _ _ _ _ M i g B) in X. injection X as <-. lia.
    + pose proof (pair_step _ _ _ _ i g (Step i) M B ltac:(auto)) as M1. cbn [act] in M1.
      destruct (step_guard exclusive automatic i (pairs m g)) as [ev s]. cbn [fst snd] in *.
      eexists _, slack. split; [exact M1|]. split; [|auto]. intros u h X. split; [lia|now left].
  - cbn. rewrite app_nil_r. exists hist, slack. split; [exact M|]. split; [|auto]. intros u h X. split; [lia|now left].
  - cbn. rewrite app_nil_r. exists hist, slack. split; [exact M|]. split; [|auto]. intros u h X. split; [lia|now left].
Qed.

Lemma again_inv hist slack t m i : minv hist slack t m ->
  exists slack', minv hist slack' t (snd (again i m)) /\ fst (again i m) = [] /\ keeps slack slack' m (snd (again i m)) /\
    (stages m i <> Fresh -> exists g, targets (snd (again i m)) (of i) = Some g /\ 1 <= slack' g).
Proof.
  intros M.
  assert (D : exists slack', minv hist slack' t (snd (add_user m (of i))) /\ keeps slack slack' m (snd (add_user m (of i))) /\
    exists g, targets (snd (add_user m (of i))) (of i) = Some g /\ 1 <= slack' g).
  { unfold add_user. pose proof (look_up_inv _ _ _ _ (of i) M) as L. pose proof (look_up_keeps _ _ _ _ (of i) M) as K.
    destruct (look_up m (of i)) as [g m1]. destruct L as (M1 & T & Lg & S & P & _). cbn [fst snd].
    rewrite <- Nat.add_1_r. eexists. split; [apply bump; eassumption|]. split.
    - intros u h X. split; [|left; apply (P u h X)]. unfold upd at 1. rewrite <- (K u h X).
      destruct (Nat.eqb_spec h g) as [->|Ne]; lia.
    - exists g. split; [exact T|]. rewrite upd_eq. lia. }
  unfold ManagerModel.again. destruct (stages m i) eqn:B.
  - cbn. exists slack. split; [exact M|]. split; [reflexivity|]. split; [|congruence]. intros u h X. split; [lia|now left].
  - destruct D as (slack' & D1 & D2 & D3). exists slack'. cbn. auto.
  - destruct D as (slack' & D1 & D2 & D3). exists slack'. cbn. auto.
  - destruct D as (slack' & D1 & D2 & D3). exists slack'. cbn. auto.
Qed.


Lemma abort_inv hist slack t m i : minv hist slack t m ->
  exists hist' slack', minv hist' slack' (t ++ fst (abort i m)) (snd (abort i m)) /\ keeps slack slack' m (snd (abort i m)) /\
    (forall g, stages m i = Bound g -> pcs (pairs m g) i = Waiting \/ pcs (pairs m g) i = Idle ->
       targets (snd (abort i m)) (of i) = Some g /\ 1 <= slack' g).
Proof.
  intros M. unfold ManagerModel.abort. destruct (stages m i) as [|g|g|g] eqn:B.
  - cbn. rewrite app_nil_r. exists hist, slack. split; [|split; [intros u h X; split; [lia|now left]|discriminate]].
    destruct M as [M1 M2 M3 M4 M5 M6 M7 M8 M9].
    constructor; cbn; auto.
    + intros h a Y. destruct (M2 h a Y) as (k & A & P). exists k. split; [exact A|].
      destruct (Nat.eqb_spec k i) as [->|Ne]; [rewrite B in P; discriminate|exact P].
    + intros j h. destruct (Nat.eqb_spec j i) as [->|Ne]; [discriminate|apply M6].
    + intros j h. destruct (Nat.eqb_spec j i) as [->|Ne]; [discriminate|apply M7].
    + intros j y W. rewrite (M8 j y W). destruct (Nat.eqb_spec j i) as [->|Ne]; [rewrite B|]; reflexivity.
    + intros h H. destruct (M9 h H) as (l & Ll & U). exists l. split; [|exact U]. revert Ll. apply listing_same. intros j. unfold bound_to. cbn.
      destruct (Nat.eqb_spec j i) as [->|Nj]; [|reflexivity]. now rewrite B.
  - pose proof (pair_step _ _ _ _ i g (Cancel i) M B ltac:(auto)) as M1.
    destruct (act exclusive automatic (Cancel i) (pairs m g)) as [ev s] eqn:A. cbn [fst snd] in M1.
    assert (B1 : stages (set_pair m g s) i = Bound g) by exact B.
    assert (Same : exists hist' slack', minv hist' slack' (t ++ []) m /\ keeps slack slack' m m /\
      (forall g0, Bound g = Bound g0 -> pcs (pairs m g0) i = Waiting \/ pcs (pairs m g0) i = Idle -> pcs (pairs m g) i = Waiting \/ pcs (pairs m g) i = Idle)).
    { rewrite app_nil_r. exists hist, slack. split; [exact M|]. split; [intros u h X; split; [lia|now left]|].
      intros g0 E. injection E as <-. auto. }
    assert (Lose : exists hist' slack', minv hist' slack' (t ++ ev) (set_stage (set_pair m g s) i (Lost (Some g))) /\
      keeps slack slack' m (set_stage (set_pair m g s) i (Lost (Some g))) /\
      (forall g0, Bound g = Bound g0 -> pcs (pairs m g0) i = Waiting \/ pcs (pairs m g0) i = Idle ->
        targets (set_stage (set_pair m g s) i (Lost (Some g))) (of i) = Some g0 /\ 1 <= slack' g0)).
    { eexists _, _. split; [apply (lose_place _ _ _ _ i g (Lost (Some g)) M1 B1); auto|]. split.
      - intros u h X. cbn. split; [|now left]. unfold upd. destruct (Nat.eqb_spec h g) as [->|]; lia.
      - intros g0 E _. injection E as <-. cbn. split; [apply (m_bound _ _ _ _ M i g B)|]. rewrite upd_eq. lia. }
    destruct (pcs (pairs m g) i) eqn:P; cbn [fst snd];
      try (destruct Same as (h' & s' & S1 & S2 & S3); exists h', s'; split; [exact S1|]; split; [exact S2|];
           intros g0 E W; destruct (S3 g0 E W); discriminate);
      try exact Lose.
    destruct (give_place _ _ _ _ _ _ M1 B1) as (n & m1 & -> & U & M2 & S & Nx & Us & Pr & T & _ & Sl). cbn [fst snd].
    eexists _, slack. split; [exact M2|]. split.
    + intros u h X. split; [lia|]. cbn. destruct T as [->|(-> & -> & _)]; [now left|]. unfold upd. cbn.
      destruct (Nat.eqb_spec u (of i)) as [->|Ne]; [right|now left].
      rewrite (m_bound _ _ _ _ M i g B) in X. injection X as <-. lia.
    + intros g0 E W. injection E as <-. rewrite P in W. destruct W; discriminate.
  - cbn. rewrite app_nil_r. exists hist, slack. split; [exact M|]. split; [intros u h X; split; [lia|now left]|discriminate].
  - cbn. rewrite app_nil_r. exists hist, slack. split; [exact M|]. split; [intros u h X; split; [lia|now left]|discriminate].
Qed.

Lemma obey_inv hist slack t m c : minv hist slack t m ->
  exists hist' slack', minv hist' slack' (t ++ fst (obey c m)) (snd (obey c m)) /\ keeps slack slack' m (snd (obey c m)).
Proof.
  intros M. destruct c as [i|i|i]; cbn [ManagerModel.obey].
  - destruct (go_inv _ _ _ _ i M) as (h' & s' & A & B & _). eauto.
  - destruct (again_inv _ _ _ _ i M) as (s' & A & B & C & _). exists hist, s'. rewrite B, app_nil_r. auto.
  - destruct (abort_inv _ _ _ _ i M) as (h' & s' & A & B & _). eauto.
Qed.

Lemma manage_snoc l c m : manage (l ++ [c]) m =
  (fst (manage l m) ++ fst (obey c (snd (manage l m))), snd (obey c (snd (manage l m)))).
Proof.
  revert m. induction l as [|a l IH]; intros m; cbn.
  - destruct (obey c m). cbn. now rewrite app_nil_r.
  - destruct (obey a m) as [e1 m1]. rewrite IH. destruct (manage l m1) as [e2 m2]. cbn. now rewrite app_assoc.
Qed.
Lemma manage_app l l' m : manage (l ++ l') m =
  (fst (manage l m) ++ fst (manage l' (snd (manage l m))), snd (manage l' (snd (manage l m)))).
Proof.
  revert m. induction l as [|a l IH]; intros m; cbn.
  - now destruct (manage l' m).
  - destruct (obey a m) as [e1 m1]. rewrite IH. destruct (manage l m1) as [e2 m2]. cbn. now rewrite app_assoc.
Qed.

Lemma manage_inv l : exists hist slack, minv hist slack (fst (manage l nobody)) (snd (manage l nobody)).
Proof.
  induction l as [|c l (h & s & M)] using rev_ind; [exists (fun _ => []), (fun _ => 0); apply minv_start|].
  rewrite manage_snoc. cbn [fst snd]. destruct (obey_inv _ _ _ _ c M) as (h' & s' & M' & _). eauto.
Qed.

(** A target with a lost user stays. *)
Lemma leak_stays : forall l hist slack t m u g, minv hist slack t m -> targets m u = Some g -> 1 <= slack g ->
  targets (snd (manage l m)) u = Some g.
Proof.
  intros l hist slack t m u g M T S.
  assert (X : exists hist' slack' t', minv hist' slack' t' (snd (manage l m)) /\ targets (snd (manage l m)) u = Some g /\ 1 <= slack' g).
  { induction l as [|c l IH] using rev_ind; [eauto 6|]. destruct IH as (h' & s' & t' & M' & T' & S').
    rewrite manage_snoc. cbn [fst snd]. destruct (obey_inv _ _ _ _ c M') as (h2 & s2 & M2 & K).
    destruct (K u g T') as [K1 K2]. exists h2, s2. eexists. split; [exact M2|]. split; [|lia]. destruct K2; [assumption|lia]. }
  destruct X as (_ & _ & _ & _ & X & _). exact X.
Qed.

(** ** Correct use only *)
Record mclean (m : manager) : Prop := {
  mc_used : forall u g, targets m u = Some g -> exists i, stages m i = Bound g;
  mc_over : forall i g, stages m i = Over g -> ended (pcs (pairs m g) i) = true;
  mc_lost : forall i g, stages m i <> Lost g;
  mc_gone : forall g i q o, pcs (pairs m g) i <> Gone q o;
}.

Lemma untouched hist slack t m g j : minv hist slack t m -> pair_of (stages m j) <> Some g -> pcs (pairs m g) j = Idle.
Proof.
  intros M P. rewrite (m_pairs _ _ _ _ M g).
  assert (N : forall a, In a (hist g) -> exists k, (a = Step k \/ a = Cancel k) /\ j <> k).
  { intros a X. destruct (m_hist _ _ _ _ M g a X) as (k & A & P'). exists k. split; [exact A|]. intros ->. contradiction. }
  revert N. generalize (hist g) as l. clear. induction l as [|a l IH] using rev_ind; intros N; [reflexivity|].
  rewrite after_snoc. specialize (IH ltac:(intros; apply N, in_or_app; auto)).
  assert (Xa : In a (l ++ [a])) by (apply in_or_app; cbn; auto). destruct (N a Xa) as (k & [->| ->] & Ne); cbn [act snd].
  - rewrite (proj1 (step_other exclusive automatic k _ j Ne)). exact IH.
  - unfold cancel_guard. apply Nat.eqb_neq in Ne. destruct (pcs (after l) k); cbn; rewrite ?Ne; exact IH.
Qed.

Lemma quiet_pair hist slack t m g i : minv hist slack t m -> mclean m -> stages m i = Bound g -> ended (pcs (pairs m g) i) = true ->
  (forall j, stages m j = Bound g -> j = i) -> queue (pairs m g) = [] /\ observers (pairs m g) = [].
Proof.
  intros M C B E O. 
  assert (A : forall j, pcs (pairs m g) j = Idle \/ ended (pcs (pairs m g) j) = true).
  { intros j. assert (D : pair_of (stages m j) = Some g \/ pair_of (stages m j) <> Some g).
    { destruct (pair_of (stages m j)) as [h|]; [destruct (Nat.eq_dec h g); [left|right]; congruence|right; discriminate]. }
    destruct D as [D|D]; [right|left; apply (untouched _ _ _ _ _ _ M D)].
    destruct (stages m j) as [|h|h|h] eqn:Sj; cbn in D; try discriminate.
    - injection D as ->. now rewrite (O j Sj).
    - injection D as ->. apply (mc_over m C j g Sj).
    - now destruct (mc_lost m C j h). }
  assert (I : inv exclusive automatic (pairs m g)) by (rewrite (m_pairs _ _ _ _ M g); apply after_inv).
  assert (Z : forall j, in_queue exclusive automatic j (pcs (pairs m g) j) = false /\ in_obs exclusive j (pcs (pairs m g) j) = false).
  { intros j. destruct (A j) as [-> |Ej]; [auto|]. destruct (pcs (pairs m g) j); try discriminate; auto. }
  split.
  - destruct (queue (pairs m g)) as [|h q] eqn:Q; [reflexivity|exfalso].
    assert (X : In h (queue (pairs m g))) by (rewrite Q; cbn; auto). apply (inv_queue _ _ _ I) in X. destruct (Z h). congruence.
  - apply (obs_zero exclusive automatic _ I). intros j. apply Z.
Qed.

Lemma go_clean hist slack t m i : minv hist slack t m -> (forall g, slack g = 0) -> mclean m -> mclean (snd (go i m)).
Proof.
  intros M Sl C. pose proof C as [C1 C2 C3 C4]. unfold ManagerModel.go. destruct (stages m i) as [|g|g|g] eqn:B.
  - unfold add_user, look_up. destruct (targets m (of i)) as [g|] eqn:T; cbn [fst snd]; constructor; cbn.
    + intros u h X. destruct (C1 u h X) as (j & J). exists j. destruct (Nat.eqb_spec j i); [congruence|exact J].
    + intros j h. destruct (Nat.eqb_spec j i); [discriminate|apply C2].
    + intros j h. destruct (Nat.eqb_spec j i); [discriminate|apply C3].
    + exact C4.
    + intros u h. destruct (Nat.eqb_spec u (of i)) as [->|Ne].
      * intros X. injection X as <-. exists i. now rewrite Nat.eqb_refl.
      * intros X. destruct (C1 u h X) as (j & J). exists j. destruct (Nat.eqb_spec j i); [congruence|exact J].
    + intros j h. destruct (Nat.eqb_spec j i); [discriminate|]. intros X. pose proof (m_stage _ _ _ _ M j h) as L. rewrite X in L. specialize (L eq_refl).
      rewrite (proj2 (Nat.eqb_neq h (next m))) by lia. now apply C2.
    + intros j h. destruct (Nat.eqb_spec j i); [discriminate|apply C3].
    + intros h j q o. destruct (Nat.eqb_spec h (next m)); [discriminate|apply C4].
  - destruct (ended (pcs (pairs m g) i)) eqn:E.
    + destruct (give_place _ _ _ _ _ _ M B) as (n & m1 & -> & U & M1 & S & Nx & Us & P & T & F & _). cbn [snd].
      assert (Own : n = 0 -> targets m1 (of i) = None).
      { intros N. pose proof (m_bound _ _ _ _ M i g B) as Tg. pose proof (m_target _ _ _ _ M _ _ Tg) as Lg.
        destruct (m_users _ _ _ _ M g Lg) as (l & Ll & Ul). rewrite Sl, U, N in Ul.
        assert (One : forall j, stages m j = Bound g -> j = i).
        { intros j J. destruct l as [|x [|y l]]; cbn in Ul; try lia.
          assert (Xi : In i [x]) by (apply Ll, bound_to_spec, B). assert (Xj : In j [x]) by (apply Ll, bound_to_spec, J).
          destruct Xi as [<-|[]], Xj as [<-|[]]. reflexivity. }
        destruct (quiet_pair _ _ _ _ _ _ M C B E One) as [Q O]. auto. }
      constructor; cbn.
      * intros u h X. rewrite S.
        assert (Tm : targets m u = Some h).
        { destruct T as [T|(T & _)]; rewrite T in X; [exact X|]. unfold upd in X. destruct (u =? of i)%nat; [discriminate|exact X]. }
        destruct (Nat.eq_dec h g) as [->|Ne].
        -- pose proof (m_bound _ _ _ _ M i g B) as Tg. assert (u = of i) as -> by (apply (m_inj _ _ _ _ M u (of i) g); assumption).
           destruct n as [|n]; [rewrite (Own eq_refl) in X; discriminate|].
           pose proof (m_target _ _ _ _ M _ _ Tg) as Lg. destruct (m_users _ _ _ _ M g Lg) as (l & Ll & Ul). rewrite Sl, U in Ul.
           destruct l as [|x [|y l]]; cbn in Ul; try lia.
           assert (Xx : stages m x = Bound g) by (apply bound_to_spec, Ll; cbn; auto).
           assert (Xy : stages m y = Bound g) by (apply bound_to_spec, Ll; cbn; auto).
           assert (x <> y). { destruct Ll as [Nd _]. inversion Nd as [|? ? Nx1 _]. intros ->. apply Nx1. cbn. auto. }
           destruct (Nat.eq_dec x i) as [->|Nxi]; [exists y|exists x]; rewrite (proj2 (Nat.eqb_neq _ i)) by congruence; assumption.
        -- destruct (C1 u h Tm) as (j & J). exists j. destruct (Nat.eqb_spec j i) as [->|Nj]; [congruence|exact J].
      * intros j h. rewrite S, P. destruct (Nat.eqb_spec j i) as [->|Nj]; [intros X; injection X as <-; exact E|apply C2].
      * intros j h. rewrite S. destruct (Nat.eqb_spec j i) as [->|Nj]; [discriminate|apply C3].
      * rewrite P. exact C4.
    + destruct (step_guard exclusive automatic i (pairs m g)) as [ev s] eqn:G. cbn [snd]. constructor; cbn; auto.
      * intros j h X. destruct (Nat.eqb_spec h g) as [->|Ne]; [|now apply C2].
        destruct (Nat.eq_dec j i) as [->|Nj]; [congruence|].
        pose proof (step_other exclusive automatic i (pairs m g) j Nj) as [St _]. rewrite G in St. cbn in St. rewrite St. now apply C2.
      * intros h j q o. destruct (Nat.eqb_spec h g) as [->|Ne]; [|apply C4].
        destruct (Nat.eq_dec j i) as [->|Nj].
        -- assert (I : inv exclusive automatic (pairs m g)) by (rewrite (m_pairs _ _ _ _ M g); apply after_inv).
           destruct (step_edge exclusive automatic i _ I) as [Ed _]. rewrite G in Ed. cbn in Ed. intros Z. rewrite Z in Ed.
           inversion Ed. apply (C4 g i q o). congruence.
        -- pose proof (step_other exclusive automatic i (pairs m g) j Nj) as [St _]. rewrite G in St. cbn in St. rewrite St. apply C4.
  - exact C.
  - exact C.
Qed.

Lemma manage_clean l : (forall c, In c l -> exists i, c = Go i) ->
  exists hist slack, minv hist slack (fst (manage l nobody)) (snd (manage l nobody)) /\ (forall g, slack g = 0) /\ mclean (snd (manage l nobody)).
Proof.
  induction l as [|c l IH] using rev_ind; intros G.
  - exists (fun _ => []), (fun _ => 0). split; [apply minv_start|]. split; [auto|]. constructor; cbn; discriminate.
  - destruct IH as (h & s & M & S & C); [intros; apply G, in_or_app; auto|].
    destruct (G c) as (i & ->); [apply in_or_app; cbn; auto|]. rewrite manage_snoc. cbn [fst snd ManagerModel.obey].
    destruct (go_inv _ _ _ _ i M) as (h' & s' & M' & _ & S'). exists h', s'. split; [exact M'|]. split; [auto|]. apply (go_clean _ _ _ _ _ M S C).
Qed.

(** ** Everyone gets through *)

(** Correct use by the guards of a list. *)
Record mwell (gs : list nat) (m : manager) (t : list event) : Prop := {
  mw_inv : exists hist slack, minv hist slack t m /\ (forall g, slack g = 0);
  mw_clean : mclean m;
  mw_rest : forall i, ~ In i gs -> stages m i = Fresh;
}.
Lemma mwell_start gs : mwell gs nobody [].
Proof.
  constructor; [exists (fun _ => []), (fun _ => 0); split; [apply minv_start|auto]|constructor; cbn; discriminate|reflexivity].
Qed.
Lemma look_up_stages m u : stages (snd (look_up m u)) = stages m.
Proof. unfold look_up. now destruct (targets m u). Qed.
Lemma add_user_stages m u : stages (snd (add_user m u)) = stages m.
Proof. unfold add_user. rewrite <- (look_up_stages m u). now destruct (look_up m u). Qed.
Lemma cleanup_stages m u m' : cleanup m u = Some m' -> stages m' = stages m.
Proof.
  unfold cleanup. rewrite <- (look_up_stages m u). destruct (look_up m u) as [g m1]. cbn [snd]. destruct (users m1 g) as [|n]; [discriminate|].
  cbn. destruct n, (queue (pairs m1 g)), (observers (pairs m1 g)); intros X; injection X as <-; reflexivity.
Qed.
Lemma go_stages i m j : j <> i -> stages (snd (go i m)) j = stages m j.
Proof.
  intros N. unfold ManagerModel.go. destruct (stages m i) as [|g|g|g] eqn:E; try reflexivity.
  - pose proof (add_user_stages m (of i)) as A. destruct (add_user m (of i)) as [g m1]. cbn in *. rewrite <- A. now rewrite (proj2 (Nat.eqb_neq j i) N).
  - destruct (ended (pcs (pairs m g) i)).
    + destruct (cleanup m (of i)) as [m1|] eqn:C; cbn; rewrite (proj2 (Nat.eqb_neq j i) N); [now rewrite (cleanup_stages _ _ _ C)|now rewrite look_up_stages].
    + destruct (step_guard exclusive automatic i (pairs m g)). reflexivity.
Qed.
Lemma mwell_go gs m t i : mwell gs m t -> In i gs -> mwell gs (snd (go i m)) (t ++ fst (go i m)).
Proof.
  intros [(h & s & M & S) C R] X. destruct (go_inv _ _ _ _ i M) as (h' & s' & M' & _ & S'). constructor.
  - exists h', s'. auto.
  - apply (go_clean _ _ _ _ _ M S C).
  - intros j N. rewrite go_stages by (intros ->; contradiction). auto.
Qed.
Lemma mwell_manage gs b m t : mwell gs m t -> (forall c, In c b -> exists i, c = Go i /\ In i gs) ->
  mwell gs (snd (manage b m)) (t ++ fst (manage b m)).
Proof.
  intros W B. induction b as [|c b IH] using rev_ind; [cbn; now rewrite app_nil_r|].
  rewrite manage_snoc. cbn [fst snd]. rewrite app_assoc. destruct (B c) as (i & -> & X); [apply in_or_app; cbn; auto|].
  apply mwell_go; [|exact X]. apply IH. intros; apply B, in_or_app; auto.
Qed.

Lemma ended_step i s : ended (pcs s i) = true -> step_guard exclusive automatic i s = ([], s).
Proof. unfold step_guard. destruct (pcs s i); try discriminate; reflexivity. Qed.

(** One command, for a guard that has its pair. *)
Lemma go_pair gs m t i h : mwell gs m t -> pair_of (stages m i) = Some h ->
  pair_of (stages (snd (go i m)) i) = Some h /\
  (forall g, g <> h -> pairs (snd (go i m)) g = pairs m g) /\
  pairs (snd (go i m)) h = snd (step_guard exclusive automatic i (pairs m h)) /\
  (ended (pcs (pairs m h) i) = true -> stages (snd (go i m)) i = Over h).
Proof.
  intros [(hi & s & M & S) C R] P. unfold ManagerModel.go. destruct (stages m i) as [|g|g|g] eqn:B; cbn in P; try discriminate.
  - injection P as ->. destruct (ended (pcs (pairs m h) i)) eqn:E.
    + destruct (give_place _ _ _ _ _ _ M B) as (n & m1 & -> & _ & _ & _ & _ & _ & Pr & _). cbn. rewrite Nat.eqb_refl, Pr. cbn.
      rewrite (ended_step i _ E). cbn. auto.
    + destruct (step_guard exclusive automatic i (pairs m h)) as [ev s']. cbn. rewrite B, Nat.eqb_refl. cbn.
      split; [reflexivity|]. split; [|split; [reflexivity|discriminate]]. intros g Ne. now rewrite (proj2 (Nat.eqb_neq g h)).
  - injection P as ->. pose proof (mc_over m C i h B) as E. cbn. rewrite (ended_step i _ E), B. cbn. auto.
  - now destruct (mc_lost m C i g).
Qed.

Definition mine (m : manager) (g i : nat) : bool :=
  match pair_of (stages m i) with Some h => Nat.eqb h g | None => false end.
Definition toward (m : manager) (g : nat) (c : command) : list action :=
  match c with Go i => if mine m g i then [Step i] else [] | _ => [] end.

Lemma manage_pairs gs : forall b m t, mwell gs m t -> (forall i, In i gs -> stages m i <> Fresh) ->
  (forall c, In c b -> exists i, c = Go i /\ In i gs) ->
  (forall i, pair_of (stages (snd (manage b m)) i) = pair_of (stages m i)) /\
  forall g, pairs (snd (manage b m)) g = snd (run exclusive automatic (flat_map (toward m g) b) (pairs m g)).
Proof.
  induction b as [|c b IH] using rev_ind; intros m t W F B; [cbn; auto|].
  assert (B' : forall c, In c b -> exists i, c = Go i /\ In i gs) by (intros; apply B, in_or_app; auto).
  destruct (IH m t W F B') as [P1 P2]. pose proof (mwell_manage gs b m t W B') as W'.
  rewrite manage_snoc. cbn [snd]. destruct (B c) as (i & -> & X); [apply in_or_app; cbn; auto|]. cbn [ManagerModel.obey].
  assert (Pi : exists h, pair_of (stages m i) = Some h).
  { destruct W as [_ C R]. specialize (F i X). destruct (stages m i) as [|h|h|h] eqn:E; cbn; eauto; [congruence|]. now destruct (mc_lost m C i h). }
  destruct Pi as (h & Pi).
  destruct (go_pair gs _ _ i h W' ltac:(now rewrite P1)) as (Q1 & Q2 & Q3 & _). split.
  - intros j. destruct (Nat.eq_dec j i) as [->|Ne]; [now rewrite Q1, Pi|]. rewrite go_stages by exact Ne. apply P1.
  - intros g. rewrite flat_map_app, run_app. cbn [snd flat_map toward]. rewrite <- P2, app_nil_r. unfold mine. rewrite Pi.
    destruct (Nat.eqb_spec h g) as [->|Ne].
    + rewrite Q3. cbn [run act]. now destruct (step_guard exclusive automatic i _).
    + cbn. apply Q2. congruence.
Qed.

Lemma fresh_gone gs b m t i : mwell gs m t -> (forall c, In c b -> exists i, c = Go i /\ In i gs) -> In (Go i) b ->
  stages (snd (manage b m)) i <> Fresh.
Proof.
  intros W B X. apply in_split in X as (b1 & b2 & ->).
  assert (St : forall l m', stages m' i <> Fresh -> stages (snd (manage l m')) i <> Fresh).
  { clear. induction l as [|c l IH] using rev_ind; intros m' N; [exact N|]. rewrite manage_snoc. cbn [snd]. specialize (IH m' N).
    set (m := snd (manage l m')) in *. destruct c as [k|k|k]; cbn [ManagerModel.obey].
    - destruct (Nat.eq_dec i k) as [<-|Ne]; [|now rewrite go_stages].
      unfold ManagerModel.go. destruct (stages m i) as [|g|g|g] eqn:E; cbn; try congruence.
      destruct (ended (pcs (pairs m g) i)).
      + destruct (cleanup m (of i)); cbn; rewrite Nat.eqb_refl; discriminate.
      + destruct (step_guard exclusive automatic i (pairs m g)). cbn. congruence.
    - unfold ManagerModel.again. destruct (stages m k); cbn [snd]; rewrite ?add_user_stages; exact IH.
    - unfold ManagerModel.abort. destruct (stages m k) as [|g|g|g] eqn:E; try exact IH.
      + cbn. destruct (Nat.eqb_spec i k); [discriminate|exact IH].
      + destruct (act exclusive automatic (Cancel k) (pairs m g)) as [ev s]. destruct (pcs (pairs m g) k) eqn:Pc; try exact IH.
        * cbn. destruct (Nat.eqb i k); [discriminate|exact IH].
        * cbn. destruct (Nat.eqb i k); [discriminate|exact IH].
        * destruct (cleanup (set_pair m g s) (of k)) as [m1|] eqn:C; cbn.
          -- rewrite (cleanup_stages _ _ _ C). destruct (Nat.eqb i k); [discriminate|exact IH].
          -- destruct (Nat.eqb i k); [discriminate|exact IH]. }
  rewrite manage_app. change (Go i :: b2) with ([Go i] ++ b2). cbn [snd]. rewrite manage_app. cbn [snd]. apply St.
  change [Go i] with ([] ++ [Go i]). rewrite manage_snoc. cbn [snd fst ManagerModel.obey ManagerModel.manage].
  set (m' := snd (manage b1 m)). destruct (stages m' i) as [|h|h|h] eqn:E.
  - unfold ManagerModel.go. rewrite E. unfold add_user. destruct (look_up m' (of i)). cbn. rewrite Nat.eqb_refl. discriminate.
  - assert (W' : mwell gs m' (t ++ fst (manage b1 m))) by (apply mwell_manage; [exact W|intros; apply B, in_or_app; auto]).
    destruct (go_pair gs m' _ i h W' ltac:(now rewrite E)) as (Q & _). intros Z. rewrite Z in Q. discriminate.
  - unfold ManagerModel.go. rewrite E. cbn. congruence.
  - unfold ManagerModel.go. rewrite E. cbn. congruence.
Qed.

Lemma all_over gs b m t : mwell gs m t -> mround gs b ->
  (forall i h, In i gs -> pair_of (stages m i) = Some h -> ended (pcs (pairs m h) i) = true) ->
  (forall i, In i gs -> stages m i <> Fresh) ->
  forall i, In i gs -> exists h, stages (snd (manage b m)) i = Over h /\ pair_of (stages m i) = Some h.
Proof.
  intros W [B1 B2] E F i X.
  assert (Pi : exists h, pair_of (stages m i) = Some h).
  { destruct W as [_ C R]. specialize (F i X). destruct (stages m i) as [|h|h|h] eqn:Z; cbn; eauto; [congruence|]. now destruct (mc_lost m C i h). }
  destruct Pi as (h & Pi). exists h. split; [|exact Pi].
  pose proof (B2 i X) as Xi. apply in_split in Xi as (b1 & b2 & ->).
  assert (Bb1 : forall c, In c b1 -> exists i, c = Go i /\ In i gs) by (intros; apply B1, in_or_app; auto).
  destruct (manage_pairs gs b1 m t W F Bb1) as [P1 P2]. pose proof (mwell_manage gs b1 m t W Bb1) as W1.
  rewrite manage_app. change (Go i :: b2) with ([Go i] ++ b2). cbn [snd]. rewrite manage_app. cbn [snd].
  set (m1 := snd (manage b1 m)) in *.
  assert (Em : ended (pcs (pairs m1 h) i) = true).
  { rewrite P2. specialize (E i h X Pi).
    assert (G : forall c, In c (flat_map (toward m h) b1) -> exists k, c = Step k).
    { intros c Y. apply in_flat_map in Y as (d & Yd & Y). destruct (Bb1 d Yd) as (k & -> & _). cbn in Y. destruct (mine m h k); [destruct Y as [<-|[]]; eauto|destruct Y]. }
    revert G E. generalize (flat_map (toward m h) b1) as l, (pairs m h) as s. clear.
    induction l as [|a l IH] using rev_ind; intros s G E; [exact E|]. rewrite run_snoc. cbn [snd].
    specialize (IH s ltac:(intros; apply G, in_or_app; auto) E). destruct (G a) as (k & ->); [apply in_or_app; cbn; auto|]. cbn [act].
    destruct (Nat.eq_dec i k) as [<-|Ne]; [rewrite (ended_step i _ IH); exact IH|]. now rewrite (proj1 (step_other exclusive automatic k _ i Ne)). }
  destruct (go_pair gs m1 _ i h W1 ltac:(now rewrite P1)) as (_ & _ & _ & Q).
  assert (O : stages (snd (manage [Go i] m1)) i = Over h).
  { change [Go i] with ([] ++ [Go i]). rewrite manage_snoc. cbn [snd fst ManagerModel.obey ManagerModel.manage]. auto. }
  assert (Bb2 : forall c, In c b2 -> exists i, c = Go i) by (intros c Y; destruct (B1 c) as (k & -> & _); [apply in_or_app; cbn; auto|eauto]).
  revert O. generalize (snd (manage [Go i] m1)) as m2. revert Bb2. clear.
  induction b2 as [|c b2 IH] using rev_ind; intros B m2 O; [exact O|]. rewrite manage_snoc. cbn [snd].
  specialize (IH ltac:(intros; apply B, in_or_app; auto) m2 O). destruct (B c) as (k & ->); [apply in_or_app; cbn; auto|]. cbn [ManagerModel.obey].
  destruct (Nat.eq_dec i k) as [<-|Ne]; [|now rewrite go_stages]. unfold ManagerModel.go. rewrite IH. exact IH.
Qed.

Lemma concat_flat_map {A B} (f : A -> list B) (l : list (list A)) : flat_map f (concat l) = concat (map (flat_map f) l).
Proof. induction l as [|x l IH]; [reflexivity|]. cbn. now rewrite flat_map_app, IH. Qed.

Lemma everyone gs l rounds : NoDup gs ->
  (forall c, In c l -> exists i, c = Go i /\ In i gs) ->
  (forall b, In b rounds -> mround gs b) -> 30 * length gs + 2 <= length rounds ->
  let r := manage (l ++ concat rounds) nobody in
  (forall i, In i gs -> In (Entered i) (fst r) /\ In (Left i) (fst r) /\ exists h, stages (snd r) i = Over h) /\
  (forall u, targets (snd r) u = None).
Proof.
  intros N Al R L r.
  destruct rounds as [|b0 rounds]; [cbn in L; lia|].
  destruct rounds as [|bn rounds _] using rev_ind; [cbn in L; lia|].
  pose proof (R b0 ltac:(cbn; auto)) as [R01 R02].
  assert (Rn : mround gs bn) by (apply R; cbn; right; apply in_or_app; cbn; auto).
  assert (Rm : forall b, In b rounds -> mround gs b) by (intros; apply R; cbn; right; apply in_or_app; auto).
  cbn [length] in L. rewrite app_length in L. cbn in L.
  assert (Ec : l ++ concat (b0 :: rounds ++ [bn]) = ((l ++ b0) ++ concat rounds) ++ bn).
  { cbn [concat]. rewrite concat_app. cbn [concat]. rewrite app_nil_r, !app_assoc. reflexivity. }
  unfold r. rewrite Ec. clear Ec r.
  assert (W1 : mwell gs (snd (manage (l ++ b0) nobody)) (fst (manage (l ++ b0) nobody))).
  { apply (mwell_manage gs (l ++ b0) nobody [] (mwell_start gs)). intros c X. apply in_app_iff in X as [X|X]; auto. }
  assert (F1 : forall i, In i gs -> stages (snd (manage (l ++ b0) nobody)) i <> Fresh).
  { intros i X. apply (fresh_gone gs (l ++ b0) nobody [] i (mwell_start gs)).
    - intros c Xc. apply in_app_iff in Xc as [Xc|Xc]; auto.
    - apply in_or_app. right. auto. }
  set (m1 := snd (manage (l ++ b0) nobody)) in *. set (t1 := fst (manage (l ++ b0) nobody)) in *.
  assert (Bm : forall c, In c (concat rounds) -> exists i, c = Go i /\ In i gs).
  { intros c X. apply in_concat in X as (b & Xb & X). destruct (Rm b Xb) as [Z _]. auto. }
  destruct (manage_pairs gs (concat rounds) m1 t1 W1 F1 Bm) as [P1 P2].
  pose proof (mwell_manage gs (concat rounds) m1 t1 W1 Bm) as W2.
  set (m2 := snd (manage (concat rounds) m1)) in *. set (t2 := t1 ++ fst (manage (concat rounds) m1)) in *.
  assert (Em2 : snd (manage ((l ++ b0) ++ concat rounds) nobody) = m2) by (rewrite manage_app; reflexivity).
  assert (F2 : forall i, In i gs -> stages m2 i <> Fresh).
  { intros i X Z. specialize (P1 i). rewrite Z in P1. cbn in P1. specialize (F1 i X).
    destruct (stages m1 i) as [|h|h|h] eqn:E; cbn in P1; try discriminate; [congruence|]. subst h.
    destruct W1 as [_ C _]. now destruct (mc_lost m1 C i None). }
  assert (E2 : forall i h, In i gs -> pair_of (stages m2 i) = Some h -> ended (pcs (pairs m2 h) i) = true).
  { intros i h X Ph. rewrite P1 in Ph. rewrite P2. rewrite concat_flat_map.
    set (gh := filter (mine m1 h) gs).
    assert (Wh : well exclusive automatic gh (pairs m1 h)).
    { destruct W1 as [(hi & sl & M & S) C Rs]. constructor.
      - rewrite (m_pairs _ _ _ _ M h). apply after_inv.
      - intros k q o Z. now destruct (mc_gone m1 C h k q o).
      - intros k Nk. left. apply (untouched _ _ _ _ _ _ M). intros Z. apply Nk. unfold gh. apply filter_In. unfold mine. rewrite Z, Nat.eqb_refl.
        split; [|reflexivity]. destruct (in_dec Nat.eq_dec k gs) as [Y|Y]; [exact Y|]. rewrite (Rs k Y) in Z. discriminate. }
    assert (Lh : length gh <= length gs).
    { unfold gh. clearbody m1. clear. induction gs as [|x xs IH]; cbn; [lia|]. destruct (mine m1 h x); cbn; lia. }
    destruct (all_through exclusive automatic gh ltac:(now apply NoDup_filter) (10 * length gh) (map (flat_map (toward m1 h)) rounds) (pairs m1 h) Wh) as [Wf Sf].
    - apply total_bound.
    - rewrite map_length. lia.
    - intros b Xb. apply in_map_iff in Xb as (b' & <- & Xb). destruct (Rm b' Xb) as [Z1 Z2]. split.
      + intros a Xa. apply in_flat_map in Xa as (c & Xc & Xa). destruct (Z1 c Xc) as (k & -> & Xk). cbn in Xa.
        destruct (mine m1 h k) eqn:Mk; [|destruct Xa]. destruct Xa as [<-|[]]. exists k. split; [reflexivity|]. apply filter_In. auto.
      + intros k Xk. apply filter_In in Xk as [Xk Mk]. apply in_flat_map. exists (Go k). split; [auto|]. cbn. rewrite Mk. cbn. auto.
    - assert (Xi : In i gh) by (apply filter_In; unfold mine; rewrite Ph, Nat.eqb_refl; auto).
      destruct (Sf i Xi) as [-> |[[e ->]|G]]; [reflexivity|reflexivity|exfalso].
      rewrite <- concat_flat_map, <- P2 in G. destruct W2 as [_ C _]. now apply (mc_gone m2 C h i false false). }
  pose proof (all_over gs bn m2 t2 W2 Rn E2 F2) as Ov.
  assert (Bn : forall c, In c bn -> exists i, c = Go i /\ In i gs) by apply Rn.
  pose proof (mwell_manage gs bn m2 t2 W2 Bn) as W3.
  assert (Er : manage (((l ++ b0) ++ concat rounds) ++ bn) nobody = (t2 ++ fst (manage bn m2), snd (manage bn m2))).
  { rewrite manage_app, Em2. rewrite (manage_app (l ++ b0)). reflexivity. }
  rewrite Er. cbn [fst snd]. set (m3 := snd (manage bn m2)) in *. set (t3 := t2 ++ fst (manage bn m2)) in *.
  split.
  - intros i X. destruct (Ov i X) as (h & O & Ph). destruct W3 as [(hi & sl & M & S) C _].
    pose proof (mc_over m3 C i h O) as E.
    assert (Cm : pcs (after (hi h)) i = Complete).
    { rewrite <- (m_pairs _ _ _ _ M h). destruct (pcs (pairs m3 h) i) eqn:Pc; cbn in E; try discriminate; [reflexivity|exfalso].
      rewrite (m_pairs _ _ _ _ M h) in Pc. destruct (t_raised _ _ _ _ (tinv_run exclusive automatic (hi h)) i e) as (e' & Ra); [left; exact Pc|].
      apply raised_reuse in Ra as [_ Ra]. destruct (m_hist _ _ _ _ M h _ Ra) as (k & [Z|Z] & _); discriminate. }
    assert (Lf : In (Left i) (trace (hi h))) by (apply (t_left _ _ _ _ (tinv_run exclusive automatic (hi h))); right; exact Cm).
    assert (En : In (Entered i) (trace (hi h))) by (apply (t_ent _ _ _ _ (tinv_run exclusive automatic (hi h))); exact Lf).
    split; [apply (m_trace _ _ _ _ M i); [reflexivity|]; exists h; rewrite O; auto|].
    split; [apply (m_trace _ _ _ _ M i); [reflexivity|]; exists h; rewrite O; auto|]. eauto.
  - intros u. destruct (targets m3 u) as [g|] eqn:T; [exfalso|reflexivity].
    destruct W3 as [_ C Rs]. destruct (mc_used m3 C u g T) as (i & B).
    destruct (in_dec Nat.eq_dec i gs) as [Y|Y]; [destruct (Ov i Y) as (h & O & _); congruence|rewrite (Rs i Y) in B; discriminate].
Qed.

(** Nobody is in a block after its end. *)
Definition outside (m : manager) : Prop :=
  forall i g, stages m i = Over g \/ stages m i = Lost (Some g) -> pcs (pairs m g) i <> Inside.
Lemma look_up_outside hist slack t m u : minv hist slack t m -> outside m -> outside (snd (look_up m u)).
Proof.
  intros M O i g. unfold look_up. destruct (targets m u); [apply O|]. cbn. intros X.
  destruct (Nat.eqb_spec g (next m)) as [->|]; [cbn; discriminate|now apply O].
Qed.
Lemma add_user_outside hist slack t m u : minv hist slack t m -> outside m -> outside (snd (add_user m u)).
Proof.
  intros M O. pose proof (look_up_outside _ _ _ _ u M O) as L. unfold add_user. destruct (look_up m u). exact L.
Qed.
Lemma cancel_pc i s j : pcs (cancel_guard exclusive i s) j = Inside -> j <> i /\ pcs s j = Inside.
Proof.
  unfold cancel_guard. destruct (Nat.eqb_spec j i) as [->|Ne].
  - destruct (pcs s i) eqn:E; cbn; rewrite ?Nat.eqb_refl; rewrite ?E; try discriminate.
  - intros X. split; [exact Ne|]. rewrite <- X. destruct (pcs s i) eqn:E; cbn; rewrite ?(proj2 (Nat.eqb_neq j i) Ne); reflexivity.
Qed.
Lemma obey_outside hist slack t m c : minv hist slack t m -> outside m -> outside (snd (obey c m)).
Proof.
  intros M O. destruct c as [i|i|i]; cbn [ManagerModel.obey].
  - unfold ManagerModel.go. destruct (stages m i) as [|g|g|g] eqn:B; try exact O.
    + pose proof (add_user_outside _ _ _ _ (of i) M O) as A. destruct (add_user m (of i)) as [g m1]. cbn in *.
      intros j h. cbn. destruct (Nat.eqb_spec j i); [intros [X|X]; discriminate|apply A].
    + destruct (ended (pcs (pairs m g) i)) eqn:E.
      * destruct (give_place _ _ _ _ _ _ M B) as (n & m1 & -> & _ & _ & S & _ & _ & P & _). cbn. intros j h. cbn. rewrite P, S.
        destruct (Nat.eqb_spec j i) as [->|]; [|apply O]. intros [X|X]; [|discriminate]. injection X as <-. intros Z. rewrite Z in E. discriminate.
      * destruct (step_guard exclusive automatic i (pairs m g)) as [ev s] eqn:G. cbn. intros j h X. cbn in *.
        destruct (Nat.eqb_spec h g) as [->|]; [|now apply O].
        destruct (Nat.eq_dec j i) as [->|Ne]; [rewrite B in X; destruct X; discriminate|].
        pose proof (step_other exclusive automatic i (pairs m g) j Ne) as [St _]. rewrite G in St. cbn in St. rewrite St. now apply O.
  - unfold ManagerModel.again. pose proof (add_user_outside _ _ _ _ (of i) M O) as A. destruct (stages m i); [exact O|exact A..].
  - unfold ManagerModel.abort. destruct (stages m i) as [|g|g|g] eqn:B; try exact O.
    + intros j h. cbn. destruct (Nat.eqb_spec j i); [intros [X|X]; discriminate|apply O].
    + pose proof (pair_step _ _ _ _ i g (Cancel i) M B (or_intror eq_refl)) as M1.
      destruct (act exclusive automatic (Cancel i) (pairs m g)) as [ev s] eqn:A. cbn [fst snd] in M1.
      assert (Es : s = cancel_guard exclusive i (pairs m g)) by (cbn in A; congruence).
      assert (Os : forall x, x = Over g \/ x = Lost (Some g) -> outside (set_stage (set_pair m g s) i x)).
      { intros x Ex j h X Z. cbn in *. destruct (Nat.eqb_spec h g) as [->|Ng].
        - rewrite Es in Z. apply cancel_pc in Z as [Nj Z]. rewrite (proj2 (Nat.eqb_neq j i) Nj) in X. now apply (O j g).
        - destruct (Nat.eqb_spec j i) as [->|]; [destruct Ex as [-> | ->], X as [X|X]; try discriminate; injection X as X; congruence|now apply (O j h)]. }
      destruct (pcs (pairs m g) i); try exact O; cbn [snd]; try (apply Os; auto).
      destruct (give_place _ _ _ _ i g M1 B) as (n & m1 & -> & _ & _ & S & _ & _ & P & _). cbn [snd].
      intros j h. specialize (Os (Over g) (or_introl eq_refl) j h). cbn in *. rewrite P, S. exact Os.
Qed.
Lemma manage_outside l : outside (snd (manage l nobody)).
Proof.
  induction l as [|c l IH] using rev_ind; [intros i g [X|X]; discriminate|]. rewrite manage_snoc. cbn [snd].
  destruct (manage_inv l) as (h & s & M). apply (obey_outside _ _ _ _ _ M IH).
Qed.
Lemma busy_stage l k g : pair_of (stages (snd (manage l nobody)) k) = Some g -> pcs (pairs (snd (manage l nobody)) g) k = Inside ->
  stages (snd (manage l nobody)) k = Bound g.
Proof.
  intros P I. pose proof (manage_outside l k g) as O. destruct (stages (snd (manage l nobody)) k) as [|h|h|h]; cbn in P; try discriminate; try congruence.
  - injection P as ->. now destruct O; auto.
  - subst. now destruct O; auto.
Qed.

End M.
