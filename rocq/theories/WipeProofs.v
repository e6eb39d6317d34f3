(** * Proofs about deleting a database that is in use *)
From Coq Require Import Lia.
From Verif Require Import Base BaseFacts WipeModel WipeSpec.

Section Wipe.
Variable V : Type.
Variable b0 : base V.
Variable ts0 : list (task V).
Variable d : nat.
Hypothesis A0 : alive V b0 = true.
Hypothesis C0 : complete b0.
Hypothesis R0 : ready ts0 d.
Notation saves := (saves ts0).
Notation adds := (adds b0 ts0).
Notation had := (had b0 ts0).
Notation base := (base V).
Notation task := (task V).

Lemma nth_replace {A} i j (x : A) l : nth_error (replace i x l) j = if Nat.eqb i j then match nth_error l j with Some _ => Some x | None => None end else nth_error l j.
Proof.
  unfold replace. revert j l. induction i as [|i IH]; intros [|j] [|y l]; cbn; try reflexivity; try (now destruct j); try (now destruct (Nat.eqb i j)).
Qed.

(** Where a task of the others may be, by its call. *)
Definition fits (t0 t : task) : Prop :=
  match t0 with
  | Set0 _ n v => t = Set0 V n v \/ t = Set1 V n v \/ exists r, t = Done V r /\ answer b0 ts0 t0 r
  | Query0 _ n s k => t = Query0 V n s k \/ t = Query1 V n s k \/ t = Query2 V n s k \/
      (exists v, (t = Query3 V n k v \/ t = Query4 V n k v) /\ had n v) \/ exists r, t = Done V r /\ answer b0 ts0 t0 r
  | Save0 _ n p => t = Save0 V n p \/ t = Save1 V n p \/ (exists v, (t = Save2 V n p v \/ t = Save3 V n p v) /\ had n v) \/
      t = Save4 V n p \/ exists r, t = Done V r /\ answer b0 ts0 t0 r
  | _ => False
  end.
Definition values (b : base) : Prop := forall n v, cache V b n = Some v \/ files V b n = Some v -> had n v.
Definition grown (b : base) (l : list nat) : Prop := exists ex, manifest V b = l ++ ex /\ forall n, In n ex -> adds n.
Definition left (b : base) (l : list nat) : Prop := forall n, files V b n <> None -> In n l \/ saves n.

(** There is no other task; then nothing is left in memory. *)
Definition lonely : Prop := forall i, nth_error ts0 i <> None -> i = d.
Definition empty (b : base) : Prop := lonely -> manifest V b = [] /\ forall n, cache V b n = None.

(** How the deletion stands. *)
Definition stage (b : base) (t : task) : Prop :=
  match t with
  | Wipe0 _ => alive V b = true /\ grown b (manifest V b0) /\ left b (manifest V b0)
  | Next _ i size => alive V b = true /\ exists l, size = length l /\ grown b (manifest V b0) /\ grown b l /\ left b (skipn i l)
  | Removing _ i size n => alive V b = true /\ exists l, size = length l /\ nth_error l i = Some n /\ grown b (manifest V b0) /\ grown b l /\ left b (skipn i l)
  | RemovingRoot _ => alive V b = true /\ left b []
  | Null1 _ | Null2 _ => alive V b = true /\ root V b = false /\ left b [] /\ empty b
  | Null3 _ => alive V b = false /\ root V b = false /\ left b [] /\ empty b
  | Done _ (Nothing _) => alive V b = false /\ root V b = false /\ left b [] /\ empty b
  | Done _ (Raised _ e) => e = RuntimeErr /\ exists n, adds n
  | _ => False
  end.
Definition inv (y : system V) : Prop :=
  values (data V y) /\
  (exists t, nth_error (tasks V y) d = Some t /\ stage (data V y) t) /\
  (forall i t0, i <> d -> nth_error ts0 i = Some t0 -> exists t, nth_error (tasks V y) i = Some t /\ fits t0 t) /\
  length (tasks V y) = length ts0.

Lemma left_start : left b0 (manifest V b0).
Proof. intros n N. left. now apply C0. Qed.
Lemma inv_start : inv {| data := b0; tasks := ts0 |}.
Proof.
  destruct R0 as [R1 R2]. split; [|split; [|split; [|reflexivity]]]; cbn [data tasks].
  - intros n v [E|E]; [now left|right; now left].
  - exists (Wipe0 V). split; [exact R1|]. cbn. split; [exact A0|]. split; [|exact left_start]. exists []. rewrite app_nil_r. split; [reflexivity|intros n []].
  - intros i t0 N E. exists t0. split; [exact E|]. destruct (R2 i t0 N E) as [(n & v & ->)|[(n & s & k & ->)|(n & p & ->)]]; now left.
Qed.

(** What a step of another task does to the deletion: files appear only by saves, the manifest
    grows only by tasks that add, and so on. *)
Definition harmless (b b' : base) : Prop :=
  alive V b' = alive V b /\ root V b' = root V b /\ (forall n, files V b' n <> None -> files V b n <> None \/ saves n) /\
  (manifest V b' = manifest V b \/ exists n, manifest V b' = manifest V b ++ [n] /\ (~ In n (manifest V b)) /\ exists v, In (Set0 V n v) ts0).
Lemma grown_harmless b b' l : harmless b b' -> grown b (manifest V b0) -> grown b l -> grown b' l.
Proof.
  intros (_ & _ & _ & [M|(n & M & N & v & I)]) (ex0 & E0 & _) (ex & E & F).
  - exists ex. now rewrite M.
  - exists (ex ++ [n]). rewrite M, E, app_assoc. split; [reflexivity|]. intros m J. apply in_app_or in J as [J|[<-|[]]]; [now apply F|].
    split; [|now exists v]. intros K. apply N. rewrite E0. apply in_or_app. now left.
Qed.
Lemma left_harmless b b' l : harmless b b' -> left b l -> left b' l.
Proof. intros (_ & _ & F & _) L n N. destruct (F n N) as [G|G]; [now apply L|now right]. Qed.
Lemma stage_harmless b b' t : ~ lonely -> harmless b b' -> stage b t -> stage b' t.
Proof.
  intros Lo Hm. assert (Em : forall x, empty x) by (intros x K; contradiction). pose proof Hm as (A & R & _). assert (G : forall l, grown b (manifest V b0) -> grown b l -> grown b' l) by (intros l; now apply grown_harmless).
  assert (L : forall l, left b l -> left b' l) by (intros l; now apply left_harmless).
  destruct t as [| | | | | | | | | | | | |i size|i size n| | | | |[ | | | ]]; cbn; rewrite ?A, ?R; try tauto.
  - intros (B1 & B2 & B3). auto.
  - intros (B1 & l & B2 & B3 & B4 & B5). split; [exact B1|]. exists l. auto.
  - intros (B1 & l & B2 & B3 & B4 & B5 & B6). split; [exact B1|]. exists l. repeat split; auto.
  - intros (B1 & B2). auto.
  - intros (B1 & B2 & B3 & _). auto.
  - intros (B1 & B2 & B3 & _). auto.
  - intros (B1 & B2 & B3 & _). auto.
  - intros (B1 & B2 & B3 & _). auto.
Qed.

Lemma same_harmless b : harmless b b.
Proof. repeat split; auto. Qed.
Lemma cache_harmless b n x : harmless b (with_cache V n x b).
Proof. repeat split; auto. Qed.

Lemma other_step i t0 t b t' b' : i <> d -> nth_error ts0 i = Some t0 -> fits t0 t -> values b -> step V t b = (t', b') ->
  fits t0 t' /\ values b' /\ harmless b b'.
Proof.
  intros N E F Va S. pose proof (nth_error_In _ _ E) as I.
  assert (Same : forall t'', fits t0 t'' -> fits t0 t'' /\ values b /\ harmless b b) by (intros; split; [assumption|]; split; [exact Va|apply same_harmless]).
  assert (Cache : forall t'' n x, (forall v, x = Some v -> had n v) -> fits t0 t'' -> fits t0 t'' /\ values (with_cache V n x b) /\ harmless b (with_cache V n x b)).
  { intros t'' n x Hx Ft. split; [assumption|]. split; [|apply cache_harmless]. intros m v [Q|Q]; [|apply Va; now right].
    cbn in Q. unfold upd in Q. destruct (Nat.eqb_spec m n) as [->|]; [now apply Hx|]. apply Va. now left. }
  assert (End : forall n p r, t0 = Save0 V n p -> answer b0 ts0 t0 r -> save_end V n p r b = (t', b') -> fits t0 t' /\ values b' /\ harmless b b').
  { intros n p r -> An Q. unfold save_end in Q.
    destruct p; [destruct (alive V b)|]; apply pair_equal_spec in Q as [<- <-].
    - apply Cache; [discriminate|]. do 4 right. now exists r.
    - apply Same. do 4 right. exists (Raised V AttributeErr). split; [reflexivity|]. cbn. auto.
    - apply Same. do 4 right. now exists r. }
  destruct t0; cbn [fits] in F; try contradiction.
  - (* set *)
    destruct F as [->|[->|(r & -> & An)]]; cbn [step] in S.
    + destruct (alive V b); apply pair_equal_spec in S as [<- <-]; apply Same; cbn; [auto|].
      right. right. exists (Raised V AttributeErr). auto.
    + destruct (alive V b); apply pair_equal_spec in S as [<- <-].
      2:{ apply Same. cbn. right. right. exists (Raised V AttributeErr). auto. }
      split; [cbn; right; right; exists (Fine V); auto|]. split.
      * intros m w [Q|Q]; [|apply Va; now right]. cbn in Q. unfold upd in Q.
        destruct (Nat.eqb_spec m n) as [->|]; [|apply Va; now left]. injection Q as <-. right. now right.
      * split; [reflexivity|]. split; [reflexivity|]. split; [auto|]. cbn [store manifest]. unfold list_name.
        destruct (existsb (Nat.eqb n) (manifest V b)) eqn:X; [now left|]. right. exists n. split; [reflexivity|].
        split; [|now exists v]. intros K. assert (existsb (Nat.eqb n) (manifest V b) = true); [|congruence].
        apply existsb_exists. exists n. split; [exact K|apply Nat.eqb_refl].
    + apply pair_equal_spec in S as [<- <-]. apply Same. cbn. right. right. now exists r.
  - (* query *)
    destruct F as [->|[->|[->|[(v & [->| ->] & Hv)|(r & -> & An)]]]]; cbn [step] in S.
    + destruct (alive V b); apply pair_equal_spec in S as [<- <-]; apply Same; cbn; [auto|].
      do 4 right. exists (Raised V AttributeErr). auto.
    + destruct (alive V b); [destruct (cache V b n) as [v|] eqn:Q|]; apply pair_equal_spec in S as [<- <-]; apply Same; cbn.
      * do 4 right. exists (Found V v). split; [reflexivity|]. left. exists v. split; [reflexivity|]. apply Va. now left.
      * auto.
      * do 4 right. exists (Raised V AttributeErr). auto.
    + destruct (files V b n) as [v|] eqn:Q; apply pair_equal_spec in S as [<- <-]; apply Same; cbn.
      * do 3 right. left. exists v. split; [now left|]. apply Va. now right.
      * do 4 right. eexists. split; [reflexivity|]. auto.
    + destruct (alive V b); apply pair_equal_spec in S as [<- <-]; apply Same; cbn.
      * do 3 right. left. exists v. split; [now right|exact Hv].
      * do 4 right. exists (Raised V AttributeErr). auto.
    + assert (An : answer b0 ts0 (Query0 V n silent keep) (Found V v)) by (left; now exists v).
      destruct keep; [destruct (alive V b)|]; apply pair_equal_spec in S as [<- <-].
      * apply Cache; [intros w Q; injection Q as <-; exact Hv|]. cbn. do 4 right. now exists (Found V v).
      * apply Same. cbn. do 4 right. exists (Raised V AttributeErr). auto.
      * apply Same. cbn. do 4 right. now exists (Found V v).
    + apply pair_equal_spec in S as [<- <-]. apply Same. cbn. do 4 right. now exists r.
  - (* save *)
    destruct F as [->|[->|[(v & [->| ->] & Hv)|[->|(r & -> & An)]]]]; cbn [step] in S.
    + destruct (alive V b); apply pair_equal_spec in S as [<- <-]; apply Same; cbn; [auto|].
      do 4 right. exists (Raised V AttributeErr). auto.
    + assert (An : answer b0 ts0 (Save0 V n drop) (Raised V LookupErr)) by (cbn; auto).
      destruct (alive V b) eqn:Al; [|now apply (End n drop (Raised V LookupErr))].
      destruct (cache V b n) as [v|] eqn:Q; [|now apply (End n drop (Raised V LookupErr))].
      apply pair_equal_spec in S as [<- <-]. apply Same. cbn. do 2 right. left. exists v. split; [now left|]. apply Va. now left.
    + assert (An : answer b0 ts0 (Save0 V n drop) (Raised V LookupErr)) by (cbn; auto).
      destruct (alive V b) eqn:Al; [|now apply (End n drop (Raised V LookupErr))].
      apply pair_equal_spec in S as [<- <-]. apply Same. cbn. do 2 right. left. exists v. split; [now right|exact Hv].
    + apply pair_equal_spec in S as [<- <-]. split; [cbn; auto|]. split.
      * intros m w [Q|Q]; [apply Va; now left|]. cbn in Q. unfold upd in Q.
        destruct (Nat.eqb_spec m n) as [->|]; [injection Q as <-; exact Hv|]. apply Va. now right.
      * split; [reflexivity|]. split; [reflexivity|]. split; [|now left]. intros m Q. cbn in Q. unfold upd in Q.
        destruct (Nat.eqb_spec m n) as [E1|]; [rewrite E1; right; now exists drop|now left].
    + apply (End n drop (Fine V)); [reflexivity|cbn; auto|exact S].
    + apply pair_equal_spec in S as [<- <-]. apply Same. cbn. do 4 right. now exists r.
Qed.

Lemma next_ok i l b t' b' : alive V b = true -> grown b (manifest V b0) -> grown b l -> left b (skipn i l) ->
  next_step V i (length l) b = (t', b') -> b' = b /\ stage b t'.
Proof.
  intros A G0 (ex & E & F) L S. unfold next_step in S. rewrite E, app_length in S.
  destruct (Nat.eqb_spec (length l + length ex) (length l)) as [K|K].
  - assert (ex = []) by (destruct ex; [reflexivity|cbn in K; lia]). subst ex. rewrite app_nil_r in S, E. rewrite A in S.
    destruct (nth_error l i) as [n|] eqn:Q; apply pair_equal_spec in S as [<- <-]; (split; [reflexivity|]); cbn; (split; [exact A|]).
    + exists l. repeat split; auto. exists []. now rewrite app_nil_r.
    + apply nth_error_None in Q. intros n N. apply L in N as [N|N]; [|now right]. now rewrite skipn_all2 in N by lia.
  - apply pair_equal_spec in S as [<- <-]. split; [reflexivity|]. cbn. split; [reflexivity|].
    destruct ex as [|n ex]; [cbn in K; lia|]. exists n. apply F. now left.
Qed.
Lemma skipn_nth {A} i (l : list A) x : nth_error l i = Some x -> skipn i l = x :: skipn (S i) l.
Proof. revert l. induction i as [|i IH]; intros [|y l] E; try discriminate; [injection E as ->; reflexivity|]. now apply IH. Qed.

Lemma wipe_step t b t' b' : values b -> stage b t -> step V t b = (t', b') -> values b' /\ stage b' t'.
Proof.
  intros Va St S. destruct t as [| | | | | | | | | | | | |i size|i size n| | | | |r]; cbn [stage] in St; try contradiction; cbn [step] in S.
  - destruct St as (A & G & L). rewrite A in S.
    assert (exists l, manifest V b = l /\ grown b l) as (l & El & Gl). { exists (manifest V b). split; [reflexivity|]. exists []. split; [now rewrite app_nil_r|intros n []]. }
    rewrite El in S. apply (next_ok 0 l) in S as [-> St]; auto. intros n N. cbn [skipn].
    destruct (L n N) as [K|K]; [left|now right]. destruct G as (ex & E & _). rewrite <- El, E. apply in_or_app. now left.
  - destruct St as (A & l & -> & G0 & Gl & L). apply (next_ok i l) in S as [-> St]; auto.
  - destruct St as (A & l & -> & Q & G0 & Gl & L). apply pair_equal_spec in S as [<- <-]. split.
    + intros m v [K|K]; [apply Va; now left|]. cbn in K. unfold upd in K. destruct (Nat.eqb m n); [discriminate|]. apply Va. now right.
    + cbn. split; [exact A|]. exists l. repeat split; auto. intros m K. cbn in K. unfold upd in K. destruct (Nat.eqb_spec m n) as [E1|NE]; [now destruct K|].
      apply L in K as [K|K]; [|now right]. rewrite (skipn_nth _ _ _ Q) in K. destruct K as [K|K]; [congruence|now left].
  - destruct St as (A & L). apply pair_equal_spec in S as [<- <-]. split; [|cbn; repeat split; auto]. intros m v [K|K]; [discriminate|]. apply Va. now right.
  - apply pair_equal_spec in S as [<- <-]. auto.
  - apply pair_equal_spec in S as [<- <-]. split; [exact Va|]. destruct St as (A & R & L & Em). cbn. auto.
  - apply pair_equal_spec in S as [<- <-]. auto.
  - apply pair_equal_spec in S as [<- <-]. auto.
Qed.

Lemma inv_step y i : inv y -> inv (proceed V y i).
Proof.
  intros (Va & (t & Q & St) & Ot & Ln). unfold proceed. destruct (nth_error (tasks V y) i) as [u|] eqn:E; [|now repeat split; eauto].
  destruct (step V u (data V y)) as [u' b'] eqn:S. assert (Lr : forall A k (x : A) l, length (replace k x l) = length l).
  { intros A k x l. unfold replace. rewrite <- (firstn_skipn k l) at 3. rewrite !app_length. f_equal. now destruct (skipn k l). }
  destruct (Nat.eq_dec i d) as [->|N].
  - assert (u = t) by congruence. subst u. destruct (wipe_step t (data V y) u' b' Va St S) as [Va' St'].
    split; [exact Va'|]. split; [exists u'; cbn [tasks]; rewrite nth_replace, Nat.eqb_refl, Q; auto|]. split; [|cbn [tasks]; now rewrite Lr].
    intros k t0 K Ek. destruct (Ot k t0 K Ek) as (w & Ew & Fw). exists w. cbn [tasks]. rewrite nth_replace. destruct (Nat.eqb_spec d k); [congruence|auto].
  - destruct (nth_error ts0 i) as [t0|] eqn:E0.
    2:{ exfalso. apply nth_error_None in E0. assert (nth_error (tasks V y) i <> None) as K by congruence. apply nth_error_Some in K. lia. }
    destruct (Ot i t0 N E0) as (w & Ew & Fw). assert (w = u) by congruence. subst w.
    destruct (other_step i t0 u (data V y) u' b' N E0 Fw Va S) as (Fu & Va' & Hm).
    split; [exact Va'|]. split; [|split; [|cbn [tasks]; now rewrite Lr]].
    + exists t. cbn [tasks data]. rewrite nth_replace. destruct (Nat.eqb_spec i d); [congruence|]. split; [exact Q|]. apply (stage_harmless (data V y)); try assumption.
      intros Lo. apply N, Lo. congruence.
    + intros k t1 K Ek. cbn [tasks]. rewrite nth_replace. destruct (Nat.eqb_spec i k) as [->|NE]; [|now apply Ot].
      rewrite E. exists u'. split; [reflexivity|]. congruence.
Qed.
Lemma inv_run es : forall y, inv y -> inv (run V es y).
Proof. induction es as [|e es IH]; intros y I; [exact I|]. apply (IH (proceed V y e)). now apply inv_step. Qed.

(** The turns that the deletion still needs. *)
Definition rank (b : base) (t : task) : nat :=
  match t with
  | Wipe0 _ => 2 * length (manifest V b) + 6
  | Next _ i size => 2 * (size - i) + 5
  | Removing _ i size _ => 2 * (size - i) + 4
  | RemovingRoot _ => 4
  | Null1 _ => 3
  | Null2 _ => 2
  | Null3 _ => 1
  | _ => 0
  end.
Lemma rank_step t b t' b' : stage b t -> step V t b = (t', b') -> rank b t <> 0 -> rank b' t' < rank b t.
Proof.
  intros St S R. destruct t as [| | | | | | | | | | | | |i size|i size n| | | | |r]; cbn [stage] in St; try contradiction; cbn [step] in S.
  - destruct St as (A & G & L). rewrite A in S. unfold next_step in S. rewrite Nat.eqb_refl, A in S.
    destruct (nth_error (manifest V b) 0); apply pair_equal_spec in S as [<- <-]; cbn [rank]; lia.
  - unfold next_step in S. destruct St as (A & l & -> & G0 & (ex & E & _) & L). rewrite A, E in S. destruct (Nat.eqb_spec (length (l ++ ex)) (length l)) as [K|].
    + rewrite app_length in K. assert (ex = []) by (destruct ex; [reflexivity|cbn in K; lia]). subst ex. rewrite app_nil_r in S.
      destruct (nth_error l i) eqn:Q; apply pair_equal_spec in S as [<- <-]; cbn [rank]; [|lia].
      assert (i < length l) by (apply nth_error_Some; congruence). lia.
    + apply pair_equal_spec in S as [<- <-]. cbn [rank]. lia.
  - destruct St as (A & l & -> & Q & _). assert (i < length l) by (apply nth_error_Some; congruence).
    apply pair_equal_spec in S as [<- <-]. cbn [rank]. lia.
  - apply pair_equal_spec in S as [<- <-]. cbn [rank]. lia.
  - apply pair_equal_spec in S as [<- <-]. cbn [rank]. lia.
  - apply pair_equal_spec in S as [<- <-]. cbn [rank]. lia.
  - apply pair_equal_spec in S as [<- <-]. cbn [rank]. lia.
Qed.
Lemma ends k : forall y t, inv y -> nth_error (tasks V y) d = Some t -> rank (data V y) t <= k ->
  exists r, nth_error (tasks V (run V (repeat d k) y)) d = Some (Done V r).
Proof.
  induction k as [|k IH]; intros y t I Q R.
  - destruct I as (_ & (u & Qu & St) & _). assert (u = t) by congruence. subst u. cbn [repeat run fold_left].
    destruct t; cbn in St, R; try contradiction; try lia. now exists r.
  - cbn [repeat]. change (run V (d :: repeat d k) y) with (run V (repeat d k) (proceed V y d)). pose proof (inv_step y d I) as I'.
    destruct I as (_ & (u & Qu & St) & _). assert (u = t) by congruence. subst u.
    unfold proceed in *. rewrite Q in *. destruct (step V t (data V y)) as [t' b'] eqn:S.
    apply (IH _ t'); [exact I'|cbn [tasks]; now rewrite nth_replace, Nat.eqb_refl, Q|]. cbn [data].
    destruct (Nat.eq_dec (rank (data V y) t) 0) as [Z|Z]; [|pose proof (rank_step t _ _ _ St S Z); lia].
    destruct t; cbn in St, Z; try contradiction; try lia. cbn in S. apply pair_equal_spec in S as [<- <-]. cbn. lia.
Qed.
End Wipe.

(** ** A database without attributes *)
Lemma dead_step V t (b : base V) : alive V b = false ->
  let '(t', b') := step V t b in
  alive V b' = false /\ ((forall n p v, t <> Save3 V n p v) -> forall n p v, t' <> Save3 V n p v) /\
  ((forall n p v, t <> Save3 V n p v) -> forall n, files V b' n <> None -> files V b n <> None).
Proof.
  intros A. destruct (step V t b) as [t' b'] eqn:S.
  assert (Same : (forall n p v, t' <> Save3 V n p v) -> b' = b -> alive V b' = false /\ ((forall n p v, t <> Save3 V n p v) -> forall n p v, t' <> Save3 V n p v) /\
    ((forall n p v, t <> Save3 V n p v) -> forall n, files V b' n <> None -> files V b n <> None)) by (intros N ->; auto).
  destruct t; cbn [step] in S; unfold save_end in S; rewrite ?A in S;
    try (apply pair_equal_spec in S as [<- <-]; apply Same; [discriminate|reflexivity]).
  - destruct (files V b n); apply pair_equal_spec in S as [<- <-]; apply Same; congruence.
  - destruct keep; apply pair_equal_spec in S as [<- <-]; apply Same; congruence.
  - destruct drop; apply pair_equal_spec in S as [<- <-]; apply Same; congruence.
  - destruct drop; apply pair_equal_spec in S as [<- <-]; apply Same; congruence.
  - apply pair_equal_spec in S as [<- <-]. split; [exact A|]. split; [discriminate|]. intros K. now destruct (K n drop v).
  - destruct drop; apply pair_equal_spec in S as [<- <-]; apply Same; congruence.
  - unfold next_step in S. rewrite A in S. destruct (Nat.eqb _ _); apply pair_equal_spec in S as [<- <-]; apply Same; congruence.
  - apply pair_equal_spec in S as [<- <-]. split; [exact A|]. split; [discriminate|]. intros _ m. cbn. unfold upd. destruct (Nat.eqb m n); [congruence|auto].
  - apply pair_equal_spec in S as [<- <-]. split; [exact A|]. split; [discriminate|auto].
  - apply pair_equal_spec in S as [<- <-]. split; [reflexivity|]. split; [discriminate|auto].
Qed.
Lemma dead_run V es : forall y, alive V (data V y) = false -> (forall n p v, ~ In (Save3 V n p v) (tasks V y)) ->
  forall n, files V (data V (run V es y)) n <> None -> files V (data V y) n <> None.
Proof.
  induction es as [|e es IH]; intros y A N n F; [exact F|]. change (run V (e :: es) y) with (run V es (proceed V y e)) in F.
  unfold proceed in F. destruct (nth_error (tasks V y) e) as [t|] eqn:Q; [|now apply (IH y)].
  pose proof (dead_step V t (data V y) A) as D. destruct (step V t (data V y)) as [t' b'] eqn:S. destruct D as (D1 & D2 & D3).
  assert (Nt : forall n p v, t <> Save3 V n p v). { intros m p v ->. apply (N m p v). now apply nth_error_In in Q. }
  apply (D3 Nt). apply IH in F; [exact F|exact D1|]. cbn [tasks]. intros m p v I. apply In_nth_error in I as [k K].
  rewrite (nth_replace) in K. destruct (Nat.eqb e k).
  - destruct (nth_error (tasks V y) k); [|discriminate]. injection K as K. now apply (D2 Nt m p v).
  - apply (N m p v). now apply nth_error_In in K.
Qed.
