(** * Proofs about concurrency guards *)
From Coq Require Import Lia Permutation.
From Verif Require Import Base GuardModel GuardSpec.

Section Inv.
Variable exclusive : nat -> bool.
Variable manual : nat -> bool.

(** Whether a guard at this point is in the order queue, among the observers,
    known to be first in the queue, known to have the deques for itself. *)
Definition in_queue (i : nat) (p : pc) : bool :=
  match p with
  | Idle | Complete | Failed _ => false
  | Queued | Waiting | Checked _ | Head | Prepended => true
  | Used | Notified => manual i
  | Free | Inside | Off | Fault1 _ | Fault2 _ => exclusive i
  | Gone q _ => q
  end.
Definition in_obs (i : nat) (p : pc) : bool :=
  match p with
  | Idle | Queued | Used | Head | Off | Complete | Fault2 _ | Failed _ => false
  | Notified | Waiting | Checked _ => exclusive i
  | Prepended | Free | Inside | Fault1 _ => true
  | Gone _ o => o
  end.
Definition front (i : nat) (p : pc) : bool :=
  match p with
  | Checked true | Head | Prepended => true
  | Free | Inside | Off | Fault1 _ | Fault2 _ => exclusive i
  | _ => false
  end.
Definition sole (i : nat) (p : pc) : bool :=
  match p with
  | Free | Inside | Off | Fault1 _ | Fault2 _ => exclusive i
  | _ => false
  end.
Definition shape (i : nat) (p : pc) : Prop :=
  match p with
  | Queued => manual i = true
  | Checked _ | Fault2 _ => exclusive i = true
  | Head | Prepended => exclusive i = false
  | _ => True
  end /\
  match p with
  | Fault1 e | Fault2 e | Failed e => e = InvalidStateTransition
  | _ => True
  end.
Definition expected (p : pc) : use :=
  match p with
  | Idle | Queued => Unused
  | Used | Notified | Waiting | Checked _ | Head | Prepended | Free => Pending
  | Inside | Off => Running
  | _ => Finished
  end.
Definition use_ok (p : pc) (t : tracker) : Prop :=
  match p with
  | Idle | Queued => t = Some Unused
  | Complete | Fault1 _ | Fault2 _ | Failed _ | Gone _ _ => True
  | _ => t = Some (expected p) \/ t = None
  end.

(** The observers: the non-exclusive ones on the left, the exclusive ones on the
    right, as many of each as there are guards that put one there. *)
Definition listing (f : nat -> bool) (l : list nat) : Prop :=
  NoDup l /\ forall i, In i l <-> f i = true.
Record obs_ok (s : state) : Prop := {
  ob : exists a b ln le, observers s = a ++ b /\
    Forall (fun i => exclusive i = false) a /\ Forall (fun i => exclusive i = true) b /\
    listing (fun i => negb (exclusive i) && in_obs i (pcs s i)) ln /\
    listing (fun i => exclusive i && in_obs i (pcs s i)) le /\
    length a = length ln /\ length b = length le
}.

Record inv (s : state) : Prop := {
  inv_nodup : NoDup (queue s);
  inv_queue : forall i, In i (queue s) <-> in_queue i (pcs s i) = true;
  inv_front : forall i, front i (pcs s i) = true -> exists q, queue s = i :: q;
  inv_obs : obs_ok s;
  inv_sole : forall i j, sole i (pcs s i) = true -> exclusive j = false -> in_obs j (pcs s j) = false;
  inv_shape : forall i, shape i (pcs s i);
  inv_use : forall i, use_ok (pcs s i) (uses s i);
}.

Lemma inv_start : inv start.
Proof.
  constructor; cbn; try discriminate; try tauto.
  - constructor.
  - intros i. split; [tauto|discriminate].
  - constructor. exists [], [], [], []. cbn. repeat split; auto; try constructor; try tauto;
      rewrite Bool.andb_false_r; discriminate.
  - intros i. unfold shape. auto.
Qed.

Lemma listing_same (f g : nat -> bool) l : (forall i, f i = g i) -> listing f l -> listing g l.
Proof. intros E [N L]. split; [exact N|]. intros i. now rewrite <- E. Qed.
Lemma listing_add (f g : nat -> bool) l k : (forall i, i <> k -> g i = f i) -> f k = false -> g k = true ->
  listing f l -> listing g (k :: l).
Proof.
  intros E Fk Gk [N L]. split.
  - constructor; [|exact N]. intros I. apply L in I. congruence.
  - intros i. cbn. destruct (Nat.eq_dec k i) as [<-|Ne]; [rewrite Gk; split; auto|].
    rewrite (E i) by auto. rewrite <- L. split; [intros [X|X]; [congruence|exact X]|auto].
Qed.
Lemma listing_del (f g : nat -> bool) l k : (forall i, i <> k -> g i = f i) -> f k = true -> g k = false ->
  listing f l -> exists l', listing g l' /\ length l = S (length l').
Proof.
  intros E Fk Gk [N L]. assert (I : In k l) by now apply L.
  apply in_split in I as (l1 & l2 & ->). exists (l1 ++ l2).
  apply NoDup_remove in N as [N Nk]. split; [split; [exact N|]|].
  - intros i. destruct (Nat.eq_dec i k) as [->|Ne].
    + rewrite Gk. split; [intros X; now destruct Nk|discriminate].
    + rewrite (E i) by auto. rewrite <- L. rewrite !in_app_iff. cbn. split; [intros [X|X]; auto|].
      intros [X|[X|X]]; auto. congruence.
  - rewrite !app_length. cbn. lia.
Qed.

Lemma upd_same {A} (f : nat -> A) i x : (fun j => if Nat.eqb j i then x else f j) i = x.
Proof. cbn. now rewrite Nat.eqb_refl. Qed.
Lemma upd_other {A} (f : nat -> A) i x j : j <> i -> (fun k => if Nat.eqb k i then x else f k) j = f j.
Proof. intros N. cbn. now rewrite (proj2 (Nat.eqb_neq j i)). Qed.

(** ** How a guard's step changes the deques *)
Inductive queue_change (i : nat) (p p' : pc) : list nat -> list nat -> Prop :=
| q_same q : in_queue i p' = in_queue i p -> queue_change i p p' q q
| q_join q : in_queue i p = false -> in_queue i p' = true -> queue_change i p p' q (q ++ [i])
| q_leave q : in_queue i p' = false -> queue_change i p p' (i :: q) q.

Inductive obs_change (i : nat) (p p' : pc) : list nat -> list nat -> Prop :=
| o_same o : in_obs i p' = in_obs i p -> obs_change i p p' o o
| o_append o : exclusive i = true -> in_obs i p = false -> in_obs i p' = true -> obs_change i p p' o (o ++ [i])
| o_prepend o : exclusive i = false -> in_obs i p = false -> in_obs i p' = true -> obs_change i p p' o (i :: o)
| o_pop o : exclusive i = true -> in_obs i p = true -> in_obs i p' = false -> obs_change i p p' o (removelast o)
| o_popleft o : exclusive i = false -> in_obs i p = true -> in_obs i p' = false -> obs_change i p p' o (tl o).

Lemma obs_kept s i p' (o' : list nat) t : obs_ok s -> obs_change i (pcs s i) p' (observers s) o' ->
  obs_ok {| queue := t; observers := o'; pcs := fun j => if Nat.eqb j i then p' else pcs s j; uses := uses s |}.
Proof.
  intros [(a & b & ln & le & O & A & B & N & E & La & Lb)] C. constructor. cbn [observers pcs].
  pose (g := fun j => if Nat.eqb j i then p' else pcs s j).
  change (exists a b ln le, o' = a ++ b /\
    Forall (fun i => exclusive i = false) a /\ Forall (fun i => exclusive i = true) b /\
    listing (fun i => negb (exclusive i) && in_obs i (g i)) ln /\
    listing (fun i => exclusive i && in_obs i (g i)) le /\
    length a = length ln /\ length b = length le).
  assert (Oth : forall j, j <> i -> g j = pcs s j) by (intros j Ne; unfold g; now apply (upd_other (pcs s) i p')).
  assert (Own : g i = p') by (unfold g; now rewrite Nat.eqb_refl).
  assert (Same : forall h : bool -> bool, in_obs i p' = in_obs i (pcs s i) ->
    forall j, h (exclusive j) && in_obs j (pcs s j) = h (exclusive j) && in_obs j (g j)).
  { intros h X j. destruct (Nat.eq_dec j i) as [->|Ne]; [rewrite Own, X|rewrite Oth by auto]; reflexivity. }
  assert (SameE : exclusive i = false -> forall j, exclusive j && in_obs j (pcs s j) = exclusive j && in_obs j (g j)).
  { intros X j. destruct (Nat.eq_dec j i) as [->|Ne]; [now rewrite X|now rewrite Oth by auto]. }
  assert (SameN : exclusive i = true -> forall j, negb (exclusive j) && in_obs j (pcs s j) = negb (exclusive j) && in_obs j (g j)).
  { intros X j. destruct (Nat.eq_dec j i) as [->|Ne]; [now rewrite X|now rewrite Oth by auto]. }
  assert (Others : forall (h : bool -> bool) j, j <> i -> h (exclusive j) && in_obs j (g j) = h (exclusive j) && in_obs j (pcs s j)).
  { intros h j Ne. now rewrite Oth. }
  clearbody g.
  inversion C as [o X E1 E2|o X1 X2 X3 E1 E2|o X1 X2 X3 E1 E2|o X1 X2 X3 E1 E2|o X1 X2 X3 E1 E2]; subst o o'.
  - exists a, b, ln, le. split; [exact O|]. split; [exact A|]. split; [exact B|].
    split; [apply (listing_same _ _ _ (Same negb X) N)|].
    split; [apply (listing_same _ _ _ (Same (fun x => x) X) E)|]. split; assumption.
  - exists a, (b ++ [i]), ln, (i :: le). rewrite O, <- app_assoc.
    split; [reflexivity|]. split; [exact A|]. split; [apply Forall_app; auto|].
    split; [now apply (listing_same _ _ _ (SameN X1))|].
    split; [|split; [exact La|rewrite app_length; cbn; lia]].
    apply (listing_add _ _ le i (fun j Ne => Others (fun x => x) j Ne)); [rewrite X1, X2; reflexivity|rewrite X1, Own, X3; reflexivity|exact E].
  - exists (i :: a), b, (i :: ln), le. rewrite O.
    split; [reflexivity|]. split; [constructor; auto|]. split; [exact B|].
    split; [|split; [now apply (listing_same _ _ _ (SameE X1))|split; [cbn; lia|exact Lb]]].
    apply (listing_add _ _ ln i (fun j Ne => Others negb j Ne)); [rewrite X1, X2; reflexivity|rewrite X1, Own, X3; reflexivity|exact N].
  - destruct (listing_del _ (fun j => exclusive j && in_obs j (g j)) le i (fun j Ne => Others (fun x => x) j Ne)) as (le' & E' & Ll);
      [rewrite X1, X2; reflexivity|rewrite X1, Own, X3; reflexivity|exact E|].
    destruct b as [|y b _] using rev_ind; [cbn in Lb; lia|].
    exists a, b, ln, le'. rewrite O, app_assoc, removelast_last. rewrite app_length in Lb. cbn in Lb.
    apply Forall_app in B as [B _].
    split; [reflexivity|]. split; [exact A|]. split; [exact B|].
    split; [now apply (listing_same _ _ _ (SameN X1))|]. split; [exact E'|]. split; [exact La|lia].
  - destruct (listing_del _ (fun j => negb (exclusive j) && in_obs j (g j)) ln i (fun j Ne => Others negb j Ne)) as (ln' & N' & Ll);
      [rewrite X1, X2; reflexivity|rewrite X1, Own, X3; reflexivity|exact N|].
    destruct a as [|y a]; [cbn in La; lia|]. cbn in La.
    exists a, b, ln', le. rewrite O. cbn [tl app]. inversion A; subst.
    split; [reflexivity|]. split; [assumption|]. split; [exact B|].
    split; [exact N'|]. split; [now apply (listing_same _ _ _ (SameE X1))|]. split; [lia|exact Lb].
Qed.

Lemma inv_step s i p' q' o' u' :
  inv s ->
  queue_change i (pcs s i) p' (queue s) q' ->
  obs_change i (pcs s i) p' (observers s) o' ->
  (front i p' = true -> exists q, q' = i :: q) ->
  (sole i p' = true -> forall j, j <> i -> exclusive j = false -> in_obs j (pcs s j) = false) ->
  (exclusive i = false -> in_obs i p' = true -> in_obs i (pcs s i) = true \/ front i (pcs s i) = true) ->
  shape i p' -> use_ok p' (u' i) -> (forall j, j <> i -> u' j = uses s j) ->
  inv {| queue := q'; observers := o'; pcs := fun j => if Nat.eqb j i then p' else pcs s j; uses := u' |}.
Proof.
  intros I Q O F So In Sh Us Uo.
  assert (Oth : forall j, j <> i -> (fun j => if Nat.eqb j i then p' else pcs s j) j = pcs s j)
    by (intros; now apply (upd_other (pcs s) i p')).
  pose proof (upd_same (pcs s) i p') as Own. cbn beta in Own, Oth.
  assert (Qc : (q' = queue s /\ in_queue i p' = in_queue i (pcs s i)) \/
    (q' = queue s ++ [i] /\ in_queue i (pcs s i) = false /\ in_queue i p' = true) \/
    (queue s = i :: q' /\ in_queue i p' = false)) by (inversion Q; auto).
  constructor; cbn [queue observers pcs uses].
  - destruct Qc as [(-> & X)|[(-> & X & Y)|(E & X)]].
    + apply (inv_nodup s I).
    + apply NoDup_Add with (a := i) (l := queue s); [rewrite <- (app_nil_r (queue s)) at 1; apply Add_app|].
      split; [apply (inv_nodup s I)|]. intros Z. apply (inv_queue s I) in Z. congruence.
    + pose proof (inv_nodup s I) as N. rewrite E in N. now inversion N.
  - intros j. destruct (Nat.eq_dec j i) as [->|Ne]; [rewrite Own|rewrite Oth by exact Ne].
    + pose proof (inv_queue s I i) as Iq. destruct Qc as [(-> & X)|[(-> & X & Y)|(E & X)]].
      * now rewrite X.
      * rewrite Y, in_app_iff. cbn. tauto.
      * rewrite X. split; [|discriminate]. intros Z. pose proof (inv_nodup s I) as N. rewrite E in N. now inversion N.
    + rewrite <- (inv_queue s I j). destruct Qc as [(-> & X)|[(-> & X & Y)|(E & X)]].
      * tauto.
      * rewrite in_app_iff. cbn. split; [intros [Z|[Z|[]]]; congruence|auto].
      * rewrite E. cbn. split; [auto|]. intros [Z|Z]; congruence.
  - intros j X. destruct (Nat.eq_dec j i) as [->|Ne]; [rewrite Own in X; auto|rewrite Oth in X by exact Ne].
    destruct (inv_front s I j X) as (q & E). destruct Qc as [(-> & Y)|[(-> & Y & Z)|(E' & Y)]].
    + eauto.
    + rewrite E. cbn. eauto.
    + congruence.
  - destruct (obs_kept s i p' o' q' (inv_obs s I) O) as [Ok]. constructor. exact Ok.
  - intros j k X Y.
    destruct (Nat.eq_dec j i) as [->|Ne]; [rewrite Own in X|rewrite Oth in X by exact Ne].
    + destruct (Nat.eq_dec k i) as [->|Nk]; [|rewrite Oth by exact Nk; auto].
      exfalso. destruct p'; cbn in X; congruence.
    + destruct (Nat.eq_dec k i) as [->|Nk]; [rewrite Own|rewrite Oth by exact Nk; eapply (inv_sole s I); eassumption].
      destruct (in_obs i p') eqn:Z; [exfalso|reflexivity].
      destruct (In Y eq_refl) as [W|W]; [rewrite (inv_sole s I j i X Y) in W; discriminate|].
      assert (Fj : front j (pcs s j) = true) by (destruct (pcs s j); cbn in *; congruence).
      destruct (inv_front s I j Fj) as (q1 & E1), (inv_front s I i W) as (q2 & E2). congruence.
  - intros j. destruct (Nat.eq_dec j i) as [->|Ne]; [now rewrite Own|rewrite Oth by exact Ne; apply (inv_shape s I)].
  - intros j. destruct (Nat.eq_dec j i) as [->|Ne]; [now rewrite Own|rewrite Oth, Uo by exact Ne; apply (inv_use s I)].
Qed.

(** The queue is not empty when a guard that is in it looks. *)
Lemma queue_nonempty s i : inv s -> in_queue i (pcs s i) = true -> queue s <> [].
Proof. intros I X E. apply (inv_queue s I) in X. now rewrite E in X. Qed.
Lemma obs_nonempty s i : inv s -> exclusive i = true -> in_obs i (pcs s i) = true -> observers s <> [].
Proof.
  intros I X Y E. destruct (inv_obs s I) as [(a & b & ln & le & O & A & B & N & Le & La & Lb)].
  rewrite E in O. symmetry in O. apply app_eq_nil in O as [-> ->].
  destruct le; [|cbn in Lb; lia]. assert (Z : In i []) by (apply Le; now rewrite X, Y). destruct Z.
Qed.
Lemma obs_nonempty' s i : inv s -> exclusive i = false -> in_obs i (pcs s i) = true -> observers s <> [].
Proof.
  intros I X Y E. destruct (inv_obs s I) as [(a & b & ln & le & O & A & B & N & Le & La & Lb)].
  rewrite E in O. symmetry in O. apply app_eq_nil in O as [-> ->].
  destruct ln; [|cbn in La; lia]. assert (Z : In i []) by (apply N; now rewrite X, Y). destruct Z.
Qed.
(** An exclusive first observer means that no non-exclusive guard is there. *)
Lemma first_exclusive s h o : inv s -> observers s = h :: o -> exclusive h = true ->
  forall j, exclusive j = false -> in_obs j (pcs s j) = false.
Proof.
  intros I E X j Y. destruct (inv_obs s I) as [(a & b & ln & le & O & A & B & N & Le & La & Lb)].
  destruct a as [|y a].
  - destruct ln; [|cbn in La; lia]. destruct (in_obs j (pcs s j)) eqn:Z; [|reflexivity].
    assert (W : In j []) by (apply N; now rewrite Y, Z). destruct W.
  - rewrite E in O. cbn in O. injection O as <- _. inversion A; subst. congruence.
Qed.

Lemma obs_zero s : inv s -> (forall j, in_obs j (pcs s j) = false) -> observers s = [].
Proof.
  intros I Z. destruct (inv_obs s I) as [(a & b & ln & le & O & A & B & N & Le & La & Lb)].
  assert (ln = []) as ->. { destruct ln as [|x ln]; [reflexivity|]. exfalso.
    assert (X : In x (x :: ln)) by (cbn; auto). apply N in X. rewrite Z, Bool.andb_false_r in X. discriminate. }
  assert (le = []) as ->. { destruct le as [|x le]; [reflexivity|]. exfalso.
    assert (X : In x (x :: le)) by (cbn; auto). apply Le in X. rewrite Z, Bool.andb_false_r in X. discriminate. }
  rewrite O. apply length_zero_iff_nil in La, Lb. now subst.
Qed.

Ltac q_s := apply q_same; cbn; congruence.
Ltac o_s := apply o_same; cbn; congruence.

Lemma set_pc_eq s i p : set_pc s i p = {| queue := queue s; observers := observers s;
     pcs := fun j => if Nat.eqb j i then p else pcs s j; uses := uses s |}.
Proof. reflexivity. Qed.
Lemma use_other (s : state) i t j : j <> i -> (if Nat.eqb j i then t else uses s j) = uses s j.
Proof. intros N. now rewrite (proj2 (Nat.eqb_neq j i)). Qed.

Lemma step_inv i s : inv s -> inv (snd (step_guard exclusive manual i s)).
Proof.
  intros I. pose proof (inv_shape s I i) as [Sh1 Sh2]. pose proof (inv_use s I i) as Us.
  pose proof (fun X => inv_front s I i X) as Fr.
  pose proof (fun X j => inv_sole s I i j X) as So.
  unfold step_guard. destruct (pcs s i) eqn:P; cbn in Sh1, Sh2, Us.
  - (* Idle *)
    destruct (manual i) eqn:M; cbn [snd].
    + unfold set_pc, set_queue. cbn. apply inv_step; rewrite ?P; auto; try discriminate.
      * apply q_join; reflexivity. * apply o_same; reflexivity. * split; auto.
    + rewrite Us. cbn. unfold set_pc, set_use. cbn.
      apply inv_step; rewrite ?P; auto; try discriminate.
      * apply q_same; cbn; exact M. * apply o_same; reflexivity. * split; auto.
      * cbn. rewrite Nat.eqb_refl. auto. * intros j Ne. now apply use_other.
  - (* Queued *)
    rewrite Us. cbn. unfold set_pc, set_use. cbn.
    apply inv_step; rewrite ?P; auto; try discriminate.
    + apply q_same; cbn; exact Sh1. + apply o_same; reflexivity. + split; auto.
    + cbn. rewrite Nat.eqb_refl. auto. + intros j Ne. now apply use_other.
  - (* Used *)
    cbn [snd]. destruct (exclusive i) eqn:X; unfold set_pc, set_observers; cbn.
    + apply inv_step; rewrite ?P; auto; try discriminate.
      * apply q_same; reflexivity. * apply o_append; cbn; auto. * cbn; congruence. * split; auto.
    + apply inv_step; rewrite ?P; auto; try discriminate.
      * apply q_same; reflexivity. * apply o_same; cbn; auto. * cbn; congruence. * split; auto.
  - (* Notified *)
    destruct (manual i) eqn:M; cbn [snd]; unfold set_pc, set_queue; cbn.
    + apply inv_step; rewrite ?P; auto; try discriminate.
      * apply q_same; cbn; auto. * apply o_same; reflexivity. * split; auto.
    + apply inv_step; rewrite ?P; auto; try discriminate.
      * apply q_join; cbn; auto. * apply o_same; reflexivity. * split; auto.
  - (* Waiting *)
    destruct (queue s) as [|h q] eqn:Q.
    { exfalso. eapply (queue_nonempty s i I); [now rewrite P|exact Q]. }
    cbn [snd]. unfold set_pc.
    destruct (exclusive i) eqn:X; [|destruct (Nat.eqb_spec h i) as [->|Ne]].
    + apply inv_step; rewrite ?P; auto; try discriminate; try (cbn; congruence).
      * apply q_same; reflexivity. * apply o_same; reflexivity.
      * cbn. destruct (Nat.eqb_spec h i); [subst; eauto|discriminate].
      * split; auto.
    + apply inv_step; rewrite ?P; auto; try discriminate; try (cbn; congruence).
      * apply q_same; reflexivity. * apply o_same; cbn; auto. * eauto. * split; auto.
    + apply inv_step; rewrite ?P; auto; try discriminate; try (cbn; congruence).
      * apply q_same; reflexivity. * apply o_same; reflexivity. * split; auto.
  - (* Checked *)
    destruct (observers s) as [|h o] eqn:O.
    { exfalso. eapply (obs_nonempty s i I); [exact Sh1|now rewrite P|exact O]. }
    cbn [snd]. unfold set_pc.
    destruct next; cbn [andb]; [destruct (exclusive h) eqn:X|].
    + apply inv_step; rewrite ?P; auto; try discriminate; try (cbn; congruence).
      * apply q_same; cbn; congruence. * apply o_same; cbn; congruence.
      * intros _ j _. apply (first_exclusive s h o I O X). * split; auto.
    + apply inv_step; rewrite ?P; auto; try discriminate; try (cbn; congruence).
      * apply q_same; reflexivity. * apply o_same; reflexivity. * split; auto.
    + apply inv_step; rewrite ?P; auto; try discriminate; try (cbn; congruence).
      * apply q_same; reflexivity. * apply o_same; reflexivity. * split; auto.
  - (* Head *)
    cbn [snd]. unfold set_pc, set_observers. cbn. apply inv_step; rewrite ?P; auto; try discriminate.
    + apply q_same; reflexivity. + apply o_prepend; auto. + split; auto.
  - (* Prepended *)
    destruct (Fr eq_refl) as (q & Q). rewrite Q, Nat.eqb_refl. cbn [snd]. unfold set_pc, set_queue. cbn.
    apply inv_step; rewrite ?P; auto; try (cbn; congruence).
    + rewrite Q. apply q_leave. cbn. exact Sh1. + apply o_same; reflexivity. + split; auto.
  - (* Free *)
    destruct Us as [Us|Us]; rewrite Us; cbn; unfold set_pc, set_use; cbn.
    + apply inv_step; rewrite ?P; auto.
      * apply q_same; reflexivity. * apply o_same; reflexivity. * split; auto.
      * cbn. rewrite Nat.eqb_refl. auto. * intros j Ne. now apply use_other.
    + apply inv_step; rewrite ?P; auto.
      * apply q_same; reflexivity. * apply o_same; reflexivity. * split; auto.
      * intros j Ne. now apply use_other.
  - (* Inside *)
    destruct (exclusive i) eqn:X.
    + destruct (pop (observers s)) as [o|] eqn:O.
      * assert (o = removelast (observers s)) as -> by (unfold pop in O; destruct (observers s); congruence).
        cbn [snd]. unfold set_pc, set_observers. cbn. apply inv_step; rewrite ?P; auto; try (cbn; congruence).
        -- apply q_same; reflexivity. -- apply o_pop; auto. -- split; auto.
      * exfalso. eapply (obs_nonempty s i I); [exact X|now rewrite P|]. unfold pop in O. now destruct (observers s).
    + destruct (observers s) as [|h o] eqn:O.
      { exfalso. eapply (obs_nonempty' s i I); [exact X|now rewrite P|exact O]. }
      cbn [snd]. unfold set_pc, set_observers. cbn. apply inv_step; rewrite ?P; auto; try (cbn; congruence).
      * apply q_same; reflexivity. * rewrite O. apply (o_popleft i Inside Off (h :: o)); auto.  * split; auto.
  - (* Off *)
    destruct (exclusive i) eqn:X.
    + destruct (Fr X) as (q & Q). rewrite Q, Nat.eqb_refl.
      destruct Us as [Us|Us]; rewrite Us; cbn; unfold set_pc, set_use, set_queue; cbn.
      * apply inv_step; rewrite ?P; auto; try discriminate.
        -- rewrite Q. now apply q_leave. -- apply o_same; reflexivity. -- split; auto.
        -- intros j Ne. now apply use_other.
      * apply inv_step; rewrite ?P; auto; try discriminate.
        -- rewrite Q. now apply q_leave. -- apply o_same; reflexivity. -- split; auto.
        -- intros j Ne. now apply use_other.
    + destruct Us as [Us|Us]; rewrite Us; cbn; unfold set_pc, set_use, set_queue; cbn.
      * apply inv_step; rewrite ?P; auto; try discriminate.
        -- apply q_same. cbn. auto. -- apply o_same; reflexivity. -- split; auto.
        -- intros j Ne. now apply use_other.
      * apply inv_step; rewrite ?P; auto; try discriminate.
        -- apply q_same. cbn. auto. -- apply o_same; reflexivity. -- split; auto.
        -- intros j Ne. now apply use_other.
  - (* Complete *) exact I.
  - (* Fault1 *)
    destruct (exclusive i) eqn:X.
    + destruct (pop (observers s)) as [o|] eqn:O.
      * assert (o = removelast (observers s)) as -> by (unfold pop in O; destruct (observers s); congruence).
        cbn [snd]. unfold set_pc, set_observers. cbn. apply inv_step; rewrite ?P; auto; try (cbn; congruence).
        -- apply q_same; reflexivity. -- apply o_pop; auto. -- split; auto.
      * exfalso. eapply (obs_nonempty s i I); [exact X|now rewrite P|]. unfold pop in O. now destruct (observers s).
    + destruct (observers s) as [|h o] eqn:O.
      { exfalso. eapply (obs_nonempty' s i I); [exact X|now rewrite P|exact O]. }
      cbn [snd]. unfold set_pc, set_observers. cbn. apply inv_step; rewrite ?P; auto; try (cbn; congruence).
      * apply q_same; cbn; auto. * rewrite O. apply (o_popleft i (Fault1 e) (Failed e) (h :: o)); auto.  * split; auto.
  - (* Fault2 *)
    destruct (Fr Sh1) as (q & Q). rewrite Q. cbn [snd]. unfold set_pc, set_queue. cbn.
    apply inv_step; rewrite ?P; auto; try (cbn; congruence).
    + rewrite Q. now apply q_leave. + apply o_same; reflexivity. + split; auto.
  - exact I.
  - exact I.
Qed.

Lemma act_inv a s : inv s -> inv (snd (act exclusive manual a s)).
Proof.
  intros I. destruct a as [i|i|i]; cbn [act snd].
  - now apply step_inv.
  - destruct (begun (uses s i)) eqn:B; [|exact I].
    destruct I as [I1 I2 I3 [I4] I5 I6 I7]. constructor; auto.
    + constructor. exact I4.
    + intros j. cbn. destruct (Nat.eqb_spec j i) as [->|Ne]; [|apply I7].
      assert (Z : snd (to_pending (uses s i)) = None) by (destruct (uses s i) as [[]|]; cbn in *; congruence).
      rewrite Z. specialize (I7 i). destruct (pcs s i); cbn in *; auto; rewrite I7 in B; discriminate.
  - unfold cancel_guard. destruct (pcs s i) eqn:P; try exact I;
      unfold set_pc; pose proof (inv_sole s I) as So; apply inv_step; rewrite ?P; auto; try discriminate;
      try (apply q_same; reflexivity); try (apply o_same; reflexivity); try (split; auto); try exact Logic.I.
Qed.

Lemma run_inv : forall l s, inv s -> inv (snd (run exclusive manual l s)).
Proof.
  induction l as [|a l IH]; intros s I; cbn; [exact I|].
  pose proof (act_inv a s I) as I'. destruct (act exclusive manual a s) as [e1 s1]. cbn in I'.
  specialize (IH s1 I'). destruct (run exclusive manual l s1). exact IH.
Qed.

Lemma run_app : forall l1 l2 s, run exclusive manual (l1 ++ l2) s =
  (fst (run exclusive manual l1 s) ++ fst (run exclusive manual l2 (snd (run exclusive manual l1 s))),
   snd (run exclusive manual l2 (snd (run exclusive manual l1 s)))).
Proof.
  induction l1 as [|a l1 IH]; intros l2 s; cbn; [now destruct (run exclusive manual l2 s)|].
  destruct (act exclusive manual a s) as [e1 s1]. rewrite IH.
  destruct (run exclusive manual l1 s1) as [e2 s2]. cbn. now rewrite app_assoc.
Qed.

Lemma run_snoc l a s : run exclusive manual (l ++ [a]) s =
  (fst (run exclusive manual l s) ++ fst (act exclusive manual a (snd (run exclusive manual l s))),
   snd (act exclusive manual a (snd (run exclusive manual l s)))).
Proof. rewrite run_app. cbn. destruct (act _ _ _ _). cbn. now rewrite app_nil_r. Qed.

End Inv.

(** ** Traces *)
Section Traces.
Variable exclusive : nat -> bool.
Variable manual : nat -> bool.
Notation inv := (inv exclusive manual).
Notation in_queue := (in_queue exclusive manual).
Notation in_obs := (in_obs exclusive).
Notation act := (act exclusive manual).
Notation run := (run exclusive manual).
Notation step_guard := (step_guard exclusive manual).

Lemma joins_app t u : joins (t ++ u) = joins t ++ joins u.
Proof. induction t as [|[]]; cbn; congruence. Qed.
Lemma joins_in t i : In i (joins t) <-> In (Joined i) t.
Proof. induction t as [|[] t IH]; cbn; rewrite ?IH; [tauto|..]; (split; [intros [X|X]||intros X|intros [X|X]]); auto; try congruence; left; congruence. Qed.

Definition joined (i : nat) (p : pc) : bool :=
  match p with
  | Idle => false
  | Used | Notified => manual i
  | Gone q o => q || o
  | _ => true
  end.

Record tinv (t : list event) (s : state) : Prop := {
  t_inv : inv s;
  t_served : exists served, joins t = served ++ queue s;
  t_nodup : NoDup (joins t);
  t_joined : forall i, In (Joined i) t <-> joined i (pcs s i) = true;
  t_inside : forall i, pcs s i = Inside -> In (Entered i) t;
  t_left : forall i, pcs s i = Off \/ pcs s i = Complete -> In (Left i) t;
  t_raised : forall i e, pcs s i = Failed e \/ pcs s i = Fault1 e \/ pcs s i = Fault2 e -> exists e, In (Raised i e) t;
  t_gone : forall i q, pcs s i = Gone q true -> q = exclusive i;
  t_entered : forall i, In (Entered i) t ->
    match pcs s i with Inside | Off | Complete | Failed _ | Gone _ true => True | _ => False end;
  t_gone_left : forall i, pcs s i = Gone false true -> In (Left i) t;
  t_ent : forall i, In (Left i) t -> In (Entered i) t;
  t_over : forall i, In (Entered i) t -> pcs s i <> Inside -> In (Left i) t;
  t_not_over : forall i, In (Left i) t ->
    match pcs s i with Off | Complete | Failed _ | Gone _ true => True | _ => False end;
}.

Lemma tinv_start : tinv [] start.
Proof.
  constructor; cbn; try tauto; try congruence.
  - apply inv_start. - now exists []. - constructor. - intros i. split; [tauto|discriminate].
  - intros i [X|X]; discriminate. - intros i e [X|[X|X]]; discriminate.
Qed.

(** The steps a guard takes in reachable states. *)
Inductive edge (i : nat) (s s' : state) : pc -> list event -> pc -> Prop :=
| e_queue : manual i = true -> queue s' = queue s ++ [i] -> edge i s s' Idle [Joined i] Queued
| e_use : manual i = false -> queue s' = queue s -> edge i s s' Idle [] Used
| e_use' : manual i = true -> queue s' = queue s -> edge i s s' Queued [] Used
| e_notify : queue s' = queue s -> edge i s s' Used [] Notified
| e_join : manual i = false -> queue s' = queue s ++ [i] -> edge i s s' Notified [Joined i] Waiting
| e_join' : manual i = true -> queue s' = queue s -> edge i s s' Notified [] Waiting
| e_check b : exclusive i = true -> queue s' = queue s -> edge i s s' Waiting [] (Checked b)
| e_wait : exclusive i = false -> queue s' = queue s -> edge i s s' Waiting [] Waiting
| e_head : exclusive i = false -> queue s' = queue s -> edge i s s' Waiting [] Head
| e_retry b : queue s' = queue s -> edge i s s' (Checked b) [] Waiting
| e_free : exclusive i = true -> queue s' = queue s -> edge i s s' (Checked true) [] Free
| e_prepend : queue s' = queue s -> edge i s s' Head [] Prepended
| e_free' : exclusive i = false -> queue s = i :: queue s' -> edge i s s' Prepended [] Free
| e_enter : queue s' = queue s -> edge i s s' Free [Entered i] Inside
| e_fault : queue s' = queue s -> uses s i = None -> edge i s s' Free [Raised i InvalidStateTransition] (Fault1 InvalidStateTransition)
| e_leave : queue s' = queue s -> edge i s s' Inside [Left i] Off
| e_off : exclusive i = true -> queue s = i :: queue s' -> edge i s s' Off [] Complete
| e_off' : exclusive i = false -> queue s = queue s' -> edge i s s' Off [] Complete
| e_offbad : exclusive i = true -> queue s = i :: queue s' -> uses s i = None -> edge i s s' Off [Raised i InvalidStateTransition] (Failed InvalidStateTransition)
| e_offbad' : exclusive i = false -> queue s = queue s' -> uses s i = None -> edge i s s' Off [Raised i InvalidStateTransition] (Failed InvalidStateTransition)
| e_fault1 e : exclusive i = true -> queue s' = queue s -> edge i s s' (Fault1 e) [] (Fault2 e)
| e_fault1' e : exclusive i = false -> queue s' = queue s -> edge i s s' (Fault1 e) [] (Failed e)
| e_fault2 e : exclusive i = true -> queue s = i :: queue s' -> edge i s s' (Fault2 e) [] (Failed e)
| e_complete : s' = s -> edge i s s' Complete [] Complete
| e_failed e : s' = s -> edge i s s' (Failed e) [] (Failed e)
| e_gone q o : s' = s -> edge i s s' (Gone q o) [] (Gone q o).

Lemma step_edge i s : inv s ->
  edge i s (snd (step_guard i s)) (pcs s i) (fst (step_guard i s)) (pcs (snd (step_guard i s)) i) /\
  (forall j, j <> i -> pcs (snd (step_guard i s)) j = pcs s j).
Proof.
  intros I. pose proof (inv_shape _ _ s I i) as [Sh1 Sh2]. pose proof (inv_use _ _ s I i) as Us.
  pose proof (inv_front _ _ s I i) as Fr.
  assert (Up : forall p j, j <> i -> (if Nat.eqb j i then p else pcs s j) = pcs s j)
    by (intros p j Ne; now rewrite (proj2 (Nat.eqb_neq j i))).
  assert (Nq : in_queue i (pcs s i) = true -> queue s <> []) by apply (queue_nonempty _ _ s i I).
  assert (No : in_obs i (pcs s i) = true -> observers s <> []).
  { destruct (exclusive i) eqn:X; [now apply (obs_nonempty _ _ s i I)|now apply (obs_nonempty' _ _ s i I)]. }
  unfold step_guard. destruct (pcs s i) eqn:P; cbn in Sh1, Sh2, Us, Fr, Nq, No.
  - destruct (manual i) eqn:M; [|rewrite Us]; cbn; rewrite Nat.eqb_refl; split; auto; now constructor.
  - rewrite Us; cbn; rewrite Nat.eqb_refl; split; auto; now constructor.
  - destruct (exclusive i) eqn:X; cbn; rewrite Nat.eqb_refl; split; auto; now constructor.
  - destruct (manual i) eqn:M; cbn; rewrite Nat.eqb_refl; split; auto; now constructor.
  - destruct (queue s) as [|h q] eqn:Q; [now destruct Nq|].
    destruct (exclusive i) eqn:X; [|destruct (Nat.eqb h i)]; cbn; rewrite Nat.eqb_refl; split; auto; now constructor.
  - destruct (observers s) as [|h q] eqn:Q; [now destruct No|].
    destruct next; [destruct (exclusive h) eqn:X|]; cbn; rewrite Nat.eqb_refl; split; auto; now constructor.
  - cbn; rewrite Nat.eqb_refl; split; auto; now constructor.
  - destruct (Fr eq_refl) as (q & Q). rewrite Q, Nat.eqb_refl; cbn; rewrite Nat.eqb_refl; split; auto; now constructor.
  - destruct Us as [Us|Us]; rewrite Us; cbn; rewrite Nat.eqb_refl; split; auto; now constructor.
  - destruct (exclusive i) eqn:X; [destruct (observers s) as [|h q] eqn:Q; [now destruct No|]|destruct (observers s) as [|h q] eqn:Q; [now destruct No|]];
      cbn; rewrite Nat.eqb_refl; split; auto; now constructor.
  - destruct (exclusive i) eqn:X.
    + destruct (Fr eq_refl) as (q & Q). rewrite Q, Nat.eqb_refl.
      destruct Us as [Us|Us]; rewrite Us; cbn; rewrite Nat.eqb_refl; split; auto; now constructor.
    + destruct Us as [Us|Us]; rewrite Us; cbn; rewrite Nat.eqb_refl; split; auto; now constructor.
  - cbn. rewrite P. split; auto. now constructor.
  - destruct (exclusive i) eqn:X; [destruct (observers s) as [|h q] eqn:Q; [now destruct No|]|destruct (observers s) as [|h q] eqn:Q; [now destruct No|]];
      cbn; rewrite Nat.eqb_refl; split; auto; now constructor.
  - destruct (Fr Sh1) as (q & Q). rewrite Q; cbn; rewrite Nat.eqb_refl; split; auto; now constructor.
  - cbn. rewrite P. split; auto. now constructor.
  - cbn. rewrite P. split; auto. now constructor.
Qed.

Lemma in_snoc {A} (x y : A) t : In x (t ++ [y]) <-> In x t \/ x = y.
Proof. rewrite in_app_iff. cbn. split; [intros [X|[X|[]]]; auto|intros [X|X]; auto]. Qed.


Definition who (x : event) : nat :=
  match x with Joined i | Entered i | Left i | Raised i _ => i end.
Lemma edge_who i s s' p ev p' x : edge i s s' p ev p' -> In x ev -> who x = i.
Proof. intros E. destruct E; cbn; intuition subst; auto. Qed.

(** What the trace says of one guard. *)
Record tone (t : list event) (i : nat) (p : pc) : Prop := {
  o_joined : In (Joined i) t <-> joined i p = true;
  o_inside : p = Inside -> In (Entered i) t;
  o_left : p = Off \/ p = Complete -> In (Left i) t;
  o_raised : forall e, p = Failed e \/ p = Fault1 e \/ p = Fault2 e -> exists e, In (Raised i e) t;
  o_gone : forall q, p = Gone q true -> q = exclusive i;
  o_entered : In (Entered i) t -> match p with Inside | Off | Complete | Failed _ | Gone _ true => True | _ => False end;
  o_gone_left : p = Gone false true -> In (Left i) t;
  o_ent : In (Left i) t -> In (Entered i) t;
  o_over : In (Entered i) t -> p <> Inside -> In (Left i) t;
  o_not_over : In (Left i) t -> match p with Off | Complete | Failed _ | Gone _ true => True | _ => False end;
}.
Lemma tone_of t s : tinv t s -> forall i, tone t i (pcs s i).
Proof. intros [T1 T2 T3 T4 T5 T6 T7 T8 T9 T10 T11 T12 T13] i. exact (Build_tone t i _ (T4 i) (T5 i) (T6 i) (T7 i) (T8 i) (T9 i) (T10 i) (T11 i) (T12 i) (T13 i)). Qed.
Lemma of_tone t s : inv s -> (exists served, joins t = served ++ queue s) -> NoDup (joins t) ->
  (forall i, tone t i (pcs s i)) -> tinv t s.
Proof. intros I S N O. constructor; auto; intros i; destruct (O i); auto. Qed.

Lemma tone_other t ev i p : (forall x, In x ev -> who x <> i) -> tone t i p -> tone (t ++ ev) i p.
Proof.
  intros W [O1 O2 O3 O4 O5 O6 O7 O8 O9 O10].
  assert (X : forall x, who x = i -> In x (t ++ ev) <-> In x t).
  { intros x E. rewrite in_app_iff. split; [intros [Y|Y]; [exact Y|now destruct (W x Y)]|auto]. }
  constructor; auto; rewrite ?X by reflexivity; auto.
  - intros e E. destruct (O4 e E) as (e' & Y). exists e'. now apply X.
Qed.

Lemma tone_edge t i s s' p ev p' : edge i s s' p ev p' -> tone t i p -> tone (t ++ ev) i p'.
Proof.
  intros E [O1 O2 O3 O4 O5 O6 O7 O8 O9 O10].
  destruct E; rewrite ?app_nil_r; constructor; rewrite ?in_snoc; cbn in *;
    try rewrite H in *; try discriminate; intuition (try discriminate; try congruence; eauto);
    try (eexists; rewrite in_snoc; now right).
Qed.

Lemma tinv_act t a s : tinv t s -> tinv (t ++ fst (act a s)) (snd (act a s)).
Proof.
  intros T. pose proof (t_inv _ _ T) as I. pose proof (act_inv exclusive manual a s I) as I'.
  pose proof (t_served _ _ T) as (served & Sv).
  pose proof (t_nodup _ _ T) as Nd. pose proof (tone_of t s T) as One.
  destruct a as [i|i|i].
  - cbn [GuardModel.act] in *. destruct (step_edge i s I) as [E O].
    destruct (step_guard i s) as [ev s'] eqn:G. cbn [fst snd] in *.
    apply of_tone; auto.
    + rewrite joins_app.
      destruct E; cbn; rewrite ?app_nil_r, ?Sv; subst; eauto;
        try (rewrite H; eauto); try (rewrite H0; eauto);
        try (rewrite <- app_assoc; eauto); exists (served ++ [i]); rewrite <- app_assoc; reflexivity.
    + rewrite joins_app. pose proof (o_joined _ _ _ (One i)) as J. rewrite <- joins_in in J.
      destruct E; cbn; rewrite ?app_nil_r; auto;
        (apply NoDup_Add with (a := i) (l := joins t); [rewrite <- (app_nil_r (joins t)) at 1; apply Add_app|];
         split; [exact Nd|]; rewrite J; cbn; congruence).
    + intros j. destruct (Nat.eq_dec j i) as [->|Ne].
      * exact (tone_edge t i s s' _ _ _ E (One i)).
      * rewrite O by exact Ne. apply tone_other; [|apply One]. intros x X. rewrite (edge_who _ _ _ _ _ _ _ E X). congruence.
  - cbn. rewrite app_nil_r. apply of_tone; auto.
    + destruct (begun (uses s i)); cbn; eauto.
    + destruct (begun (uses s i)); cbn; auto.
  - cbn [GuardModel.act fst snd] in *. unfold cancel_guard in *.
    assert (Up : forall p j, j <> i -> (if Nat.eqb j i then p else pcs s j) = pcs s j)
      by (intros p j Ne; now rewrite (proj2 (Nat.eqb_neq j i))).
    pose proof (One i) as Oi.
    destruct (pcs s i) eqn:P; rewrite ?app_nil_r; auto;
      (apply of_tone; [auto|..]);
      try (cbn; eauto; fail);
      try (rewrite joins_app; cbn; rewrite app_nil_r; eauto; fail);
      intros j; cbn; (destruct (Nat.eqb_spec j i) as [->|Ne]; [|try apply One]);
      try (apply tone_other; [cbn; intros x [<-|[]]; cbn; congruence|apply One]);
      destruct Oi as [O1 O2 O3 O4 O5 O6 O7 O8 O9 O10]; constructor; rewrite ?in_snoc; cbn in *; auto; try congruence;
      try (intuition congruence); rewrite Bool.orb_true_r; intuition congruence.
Qed.

Lemma tinv_run : forall l, tinv (fst (run l start)) (snd (run l start)).
Proof.
  induction l as [|a l IH] using rev_ind; [apply tinv_start|].
  rewrite run_snoc. cbn [fst snd]. now apply tinv_act.
Qed.

(** Every event has a moment. *)
Lemma event_moment : forall l t1 x t2, fst (run l start) = t1 ++ x :: t2 ->
  exists l1 a l2 e1 e2, l = l1 ++ a :: l2 /\ t1 = fst (run l1 start) ++ e1 /\
    fst (act a (snd (run l1 start))) = e1 ++ x :: e2.
Proof.
  induction l as [|a l IH] using rev_ind; intros t1 x t2 E; [destruct t1; discriminate|].
  rewrite run_snoc in E. cbn [fst] in E.
  set (t := fst (run l start)) in *. set (ev := fst (act a (snd (run l start)))) in *.
  assert (C : (exists u, t = t1 ++ x :: u) \/ (exists u, t1 = t ++ u /\ ev = u ++ x :: t2)).
  { revert E. generalize t, ev, t2. clear. induction t1 as [|y t1 IH]; intros t ev t2 E.
    - destruct t as [|z t]; [right; exists []; auto|]. cbn in E. injection E as -> E. left. now exists t.
    - destruct t as [|z t]; [right; exists (y :: t1); auto|]. cbn in E. injection E as -> E.
      destruct (IH _ _ _ E) as [(u & ->)|(u & -> & ->)]; [left; now exists u|right; now exists u]. }
  destruct C as [(u & C)|(u & C1 & C2)].
  - destruct (IH _ _ _ C) as (l1 & a' & l2 & e1 & e2 & -> & R). exists l1, a', (l2 ++ [a]), e1, e2.
    rewrite <- app_assoc. split; [reflexivity|exact R].
  - exists l, a, [], u, t2. split; [reflexivity|]. split; [exact C1|exact C2].
Qed.
Lemma event_moment_in l x : In x (fst (run l start)) ->
  exists l1 a l2, l = l1 ++ a :: l2 /\ In x (fst (act a (snd (run l1 start)))).
Proof.
  intros X. apply in_split in X as (t1 & t2 & E). destruct (event_moment _ _ _ _ E) as (l1 & a & l2 & e1 & e2 & -> & _ & X).
  exists l1, a, l2. split; [reflexivity|]. rewrite X. apply in_or_app. cbn. auto.
Qed.

Lemma act_entered a s i : inv s -> In (Entered i) (fst (act a s)) -> a = Step i /\ pcs s i = Free /\ fst (act a s) = [Entered i].
Proof.
  intros I X. destruct a as [k|k|k]; cbn [GuardModel.act fst] in X |- *.
  - destruct (step_edge k s I) as [E _]. pose proof (edge_who _ _ _ _ _ _ _ E X) as W. cbn in W. subst k.
    destruct E; cbn in X; intuition congruence.
  - destruct X.
  - destruct (pcs s k); cbn in X; intuition discriminate.
Qed.
Lemma act_raised a s i e : inv s -> In (Raised i e) (fst (act a s)) ->
  a = Step i /\ e = InvalidStateTransition /\ uses s i = None.
Proof.
  intros I X. destruct a as [k|k|k]; cbn [GuardModel.act fst] in X |- *.
  - destruct (step_edge k s I) as [E _]. pose proof (edge_who _ _ _ _ _ _ _ E X) as W. cbn in W. subst k.
    destruct E; cbn in X; intuition congruence.
  - destruct X.
  - destruct (pcs s k); cbn in X; intuition discriminate.
Qed.

Lemma split_before {A} (l a b c d : list A) x y : NoDup l -> l = a ++ x :: b -> l = c ++ y :: d -> In x c -> In y b.
Proof.
  intros N E1 E2 X. apply in_split in X as (c1 & c2 & ->). rewrite E1, <- app_assoc in E2. cbn in E2.
  assert (a = c1 /\ b = c2 ++ y :: d) as [-> ->].
  { revert c1 E2. rewrite E1 in N. clear E1 l. induction a as [|z a IH]; intros [|w c1] E2; cbn in *.
    - injection E2 as E2. auto.
    - injection E2 as <- E2. exfalso. inversion N as [|? ? Nx _]. apply Nx. rewrite E2. apply in_or_app. cbn. auto.
    - injection E2 as -> E2. exfalso. inversion N as [|? ? Nx _]. apply Nx. apply in_or_app. cbn. auto.
    - injection E2 as -> E2. inversion N. destruct (IH H2 _ E2) as [-> ->]. auto. }
  apply in_or_app. cbn. auto.
Qed.

(** When a guard is about to enter, those that joined earlier have left the queue. *)
Lemma order_core t s i j a b : tinv t s -> pcs s j = Free -> joins t = a ++ j :: b -> In i a ->
  in_queue i (pcs s i) = false.
Proof.
  intros T P E X. pose proof (t_inv _ _ T) as I. destruct (in_queue i (pcs s i)) eqn:Q; [exfalso|reflexivity].
  apply (inv_queue _ _ s I) in Q. destruct (t_served _ _ T) as (sv & S). pose proof (t_nodup _ _ T) as N.
  apply in_split in X as (a1 & a2 & ->).
  (* j is in the queue behind i *)
  apply in_split in Q as (q1 & q2 & Q). rewrite Q in S.
  assert (Y : In j q2).
  { apply (split_before (joins t) (sv ++ q1) q2 (a1 ++ i :: a2) b i j N); [now rewrite S, <- app_assoc|exact E|].
    apply in_or_app. cbn. auto. }
  assert (Jq : In j (queue s)) by (rewrite Q; apply in_or_app; cbn; auto).
  pose proof (proj1 (inv_queue _ _ s I j) Jq) as Z. rewrite P in Z. cbn in Z.
  destruct (inv_front _ _ s I j) as (q & Qj); [rewrite P; exact Z|].
  pose proof (inv_nodup _ _ s I) as Nq. rewrite Q in Qj, Nq. destruct q1 as [|z q1]; cbn in Qj, Nq.
  - injection Qj as -> _. inversion Nq. contradiction.
  - injection Qj as -> _. inversion Nq as [|? ? Nx _]. apply Nx. apply in_or_app. cbn. auto.
Qed.

Lemma order t s i j a b : tinv t s -> pcs s j = Free -> joins t = a ++ j :: b -> In i a ->
  exclusive i = true \/ exclusive j = true ->
  In (Left i) t \/ exists e, In (Raised i e) t.
Proof.
  intros T P E X K. pose proof (order_core t s i j a b T P E X) as Q. pose proof (t_inv _ _ T) as I.
  assert (J : joined i (pcs s i) = true).
  { apply (t_joined _ _ T). apply joins_in. rewrite E. apply in_or_app. auto. }
  assert (So : exclusive i = false -> in_obs i (pcs s i) = false).
  { intros Z. destruct K as [K|K]; [congruence|]. apply (inv_sole _ _ s I j i); [rewrite P; exact K|exact Z]. }
  destruct (pcs s i) eqn:Pi; cbn in Q, J, So; try discriminate; try congruence;
    try (destruct (exclusive i); [discriminate|now specialize (So eq_refl)]);
    try (left; apply (t_left _ _ T); rewrite Pi; auto; fail);
    try (right; apply (t_raised _ _ T i e); rewrite Pi; auto; fail).
  subst q. cbn in J. subst o. left. now apply (t_gone_left _ _ T).
Qed.

(** ** Without a second use nothing is raised *)
Definition clean (p : pc) (t : tracker) : Prop :=
  t = Some (expected p) /\ match p with Fault1 _ | Fault2 _ | Failed _ | Gone _ _ => False | _ => True end.

Lemma step_clean i s : inv s -> clean (pcs s i) (uses s i) ->
  clean (pcs (snd (step_guard i s)) i) (uses (snd (step_guard i s)) i).
Proof.
  intros I [C1 C2]. destruct (step_edge i s I) as [E _].
  assert (E' : uses (snd (step_guard i s)) i = Some (expected (pcs (snd (step_guard i s)) i)) \/
    (pcs (snd (step_guard i s)) i = pcs s i /\ uses (snd (step_guard i s)) i = uses s i)).
  { assert (Nq : in_queue i (pcs s i) = true -> queue s <> []) by apply (queue_nonempty _ _ s i I).
    assert (No : in_obs i (pcs s i) = true -> observers s <> []).
    { destruct (exclusive i) eqn:X; [now apply (obs_nonempty _ _ s i I)|now apply (obs_nonempty' _ _ s i I)]. }
    pose proof (inv_front _ _ s I i) as Fr. pose proof (inv_shape _ _ s I i) as [Sh1 Sh2].
    unfold step_guard. destruct (pcs s i) eqn:P; cbn in *; try contradiction.
    - destruct (manual i); [|rewrite C1]; cbn; rewrite Nat.eqb_refl; auto.
    - rewrite C1; cbn; rewrite Nat.eqb_refl; auto.
    - destruct (exclusive i); cbn; rewrite Nat.eqb_refl; auto.
    - destruct (manual i); cbn; rewrite Nat.eqb_refl; auto.
    - destruct (queue s); [now destruct Nq|]. destruct (exclusive i); [|destruct (n =? i)%nat]; cbn; rewrite Nat.eqb_refl; auto.
    - destruct (observers s); [now destruct No|]. destruct (next && exclusive n); cbn; rewrite Nat.eqb_refl; auto.
    - rewrite Nat.eqb_refl; auto.
    - destruct (Fr eq_refl) as (q & ->). rewrite Nat.eqb_refl. cbn. rewrite Nat.eqb_refl. auto.
    - rewrite C1. cbn. rewrite Nat.eqb_refl. auto.
    - destruct (observers s); [now destruct No|]. destruct (exclusive i); cbn; rewrite Nat.eqb_refl; auto.
    - destruct (exclusive i) eqn:X; [destruct (Fr eq_refl) as (q & ->); rewrite Nat.eqb_refl|]; rewrite C1; cbn; rewrite Nat.eqb_refl; auto.
    - auto. }
  split; [destruct E' as [E'|[E1 E2]]; [exact E'|rewrite E2, E1; exact C1]|].
  destruct E; auto; cbn in *; try contradiction; congruence.
Qed.
Lemma step_other i s j : j <> i -> pcs (snd (step_guard i s)) j = pcs s j /\ uses (snd (step_guard i s)) j = uses s j.
Proof.
  intros N. unfold step_guard. rewrite <- Nat.eqb_neq in N.
  repeat match goal with
  | |- context [match ?x with _ => _ end] => destruct x
  | |- _ => progress (cbn; rewrite ?N)
  end; auto.
Qed.

Lemma clean_or_gone l i : (forall a, In a l -> a <> Reuse i) -> forall s, inv s ->
  clean (pcs s i) (uses s i) \/ (exists q o, pcs s i = Gone q o) ->
  let s' := snd (run l s) in clean (pcs s' i) (uses s' i) \/ (exists q o, pcs s' i = Gone q o).
Proof.
  induction l as [|a l IH] using rev_ind; intros N s I C; [exact C|].
  cbn zeta. rewrite run_snoc. cbn [fst snd].
  pose proof (run_inv exclusive manual l s I) as Il.
  assert (N1 : forall a, In a l -> a <> Reuse i) by (intros b B; apply N, in_or_app; auto).
  assert (N2 : a <> Reuse i) by (apply N, in_or_app; cbn; auto).
  specialize (IH N1 s I C). cbn zeta in IH. set (u := snd (run l s)) in *. clearbody u.
  destruct a as [k|k|k]; cbn [GuardModel.act snd].
  - destruct (Nat.eq_dec i k) as [<-|Ne].
    + destruct IH as [IH|(q & o & IH)]; [left; now apply step_clean|]. right. exists q, o.
      unfold step_guard. rewrite IH. exact IH.
    + destruct (step_other k u i Ne) as [-> ->]. exact IH.
  - destruct (begun (uses u k)); [|exact IH]. cbn. destruct (Nat.eqb_spec i k) as [->|Ne]; [congruence|exact IH].
  - unfold cancel_guard. destruct (pcs u k) eqn:P; try exact IH; cbn;
      (destruct (Nat.eqb_spec i k) as [->|Ne]; [right; eauto|exact IH]).
Qed.

Lemma raised_reuse l i e : In (Raised i e) (fst (run l start)) -> e = InvalidStateTransition /\ In (Reuse i) l.
Proof.
  intros X. apply event_moment_in in X as (l1 & a & l2 & -> & X).
  pose proof (t_inv _ _ (tinv_run l1)) as I. pose proof (act_raised _ _ _ _ I X) as (-> & -> & U).
  split; [reflexivity|].
  assert (D : In (Reuse i) l1 \/ ~ In (Reuse i) l1).
  { apply ListDec.In_decidable. intros x y. unfold Decidable.decidable.
    destruct x as [x|x|x], y as [y|y|y]; try (right; discriminate); destruct (Nat.eq_dec x y); [subst; auto|right; congruence|subst; auto|right; congruence|subst; auto|right; congruence]. }
  destruct D as [D|D]; [apply in_or_app; auto|exfalso].
  destruct (clean_or_gone l1 i ltac:(intros a A ->; auto) start (inv_start exclusive manual)) as [[C _]|(q & o & C)].
  - left. split; [reflexivity|exact Logic.I].
  - congruence.
  - cbn [GuardModel.act fst] in X. unfold step_guard in X. rewrite C in X. destruct X.
Qed.

(** ** Everyone gets through *)
Definition rank (p : pc) : nat :=
  match p with
  | Idle => 10 | Queued => 9 | Used => 8 | Notified => 7 | Waiting | Checked _ => 6
  | Head => 5 | Prepended => 4 | Free => 3 | Inside | Fault1 _ => 2 | Off | Fault2 _ => 1 | _ => 0
  end.
Definition active (p : pc) : bool :=
  match p with Waiting | Checked _ | Complete | Failed _ | Gone _ _ => false | _ => true end.
Fixpoint total (gs : list nat) (s : state) : nat :=
  match gs with [] => 0 | i :: gs => rank (pcs s i) + total gs s end.

Lemma total_other gs s s' i : ~ In i gs -> (forall j, j <> i -> pcs s' j = pcs s j) -> total gs s' = total gs s.
Proof.
  intros N O. induction gs as [|k gs IH]; [reflexivity|]. cbn in *. rewrite O by intuition. rewrite IH by intuition. reflexivity.
Qed.
Lemma total_step gs s s' i : NoDup gs -> In i gs -> (forall j, j <> i -> pcs s' j = pcs s j) ->
  total gs s' + rank (pcs s i) = total gs s + rank (pcs s' i).
Proof.
  intros N X O. induction gs as [|k gs IH]; [destruct X|]. inversion N; subst. cbn.
  destruct X as [->|X].
  - rewrite (total_other gs s s' i) by auto. lia.
  - specialize (IH H2 X). rewrite (O k) by (intros ->; auto). lia.
Qed.

(** A state in which only guards of [gs] are under way and those that were
    cancelled left nothing behind. *)
Record well (gs : list nat) (s : state) : Prop := {
  w_inv : inv s;
  w_gone : forall i q o, pcs s i = Gone q o -> q = false /\ o = false;
  w_rest : forall i, ~ In i gs -> pcs s i = Idle \/ pcs s i = Gone false false;
}.
Definition settled (p : pc) : Prop := p = Complete \/ (exists e, p = Failed e) \/ p = Gone false false.

Lemma step_well gs s i : well gs s -> In i gs -> well gs (snd (step_guard i s)).
Proof.
  intros [W1 W2 W3] X. constructor.
  - now apply step_inv.
  - intros j. destruct (Nat.eq_dec j i) as [->|Ne].
    + intros q o G. apply (W2 i q o). destruct (step_edge i s W1) as [E _]. rewrite G in E. now inversion E.
    + destruct (step_other i s j Ne) as [-> _]. apply W2.
  - intros j N. destruct (Nat.eq_dec j i) as [->|Ne]; [contradiction|]. destruct (step_other i s j Ne) as [-> _]. now apply W3.
Qed.

Lemma step_rank gs s i : NoDup gs -> well gs s -> In i gs ->
  total gs (snd (step_guard i s)) <= total gs s /\
  (active (pcs s i) = true -> total gs (snd (step_guard i s)) < total gs s).
Proof.
  intros N [W1 W2 W3] X. destruct (step_edge i s W1) as [E O].
  pose proof (total_step gs s _ i N X O) as T.
  destruct E; cbn in *; try contradiction; split; intros; try discriminate; lia.
Qed.

Lemma run_well gs : NoDup gs -> forall b s, (forall a, In a b -> exists i, a = Step i /\ In i gs) -> well gs s ->
  well gs (snd (run b s)) /\ total gs (snd (run b s)) <= total gs s.
Proof.
  intros N. induction b as [|a b IH] using rev_ind; intros s B W; [cbn; auto|].
  rewrite run_snoc. cbn [snd]. destruct (IH s) as [W' T']; [intros x Xx; apply B, in_or_app; auto|exact W|].
  destruct (B a) as (i & -> & X); [apply in_or_app; cbn; auto|]. cbn [GuardModel.act].
  split; [now apply step_well|]. pose proof (proj1 (step_rank gs _ i N W' X)). lia.
Qed.

Lemma active_progress gs : NoDup gs -> forall b s i, (forall a, In a b -> exists i, a = Step i /\ In i gs) -> well gs s ->
  In i gs -> active (pcs s i) = true -> In (Step i) b -> total gs (snd (run b s)) < total gs s.
Proof.
  intros N. induction b as [|a b IH]; intros s i B W X A In; [destruct In|].
  destruct (B a) as (k & -> & Xk); [cbn; auto|].
  change (Step k :: b) with ([Step k] ++ b). rewrite run_app. cbn [snd].
  assert (R : snd (run [Step k] s) = snd (step_guard k s)).
  { cbn [GuardModel.run GuardModel.act]. now destruct (step_guard k s). }
  rewrite R. pose proof (step_well gs s k W Xk) as Wk.
  assert (B' : forall a, List.In a b -> exists i, a = Step i /\ List.In i gs) by (intros; apply B; cbn; auto).
  pose proof (proj2 (run_well gs N b _ B' Wk)) as T.
  destruct (Nat.eq_dec i k) as [<-|Ne].
  - pose proof (proj2 (step_rank gs s i N W X) A). lia.
  - destruct In as [In|In]; [congruence|]. pose proof (proj1 (step_rank gs s k N W Xk)).
    assert (total gs (snd (run b (snd (step_guard k s)))) < total gs (snd (step_guard k s))); [|lia].
    apply (IH _ i); auto. now rewrite (proj1 (step_other k s i Ne)).
Qed.

Definition quiet (gs : list nat) (s : state) : Prop := forall i, In i gs -> active (pcs s i) = false.
Definition phase (p : pc) : nat :=
  match p with Checked true => 1 | Waiting => 2 | Checked false => 3 | _ => 0 end.

Fixpoint turns (h : nat) (b : list action) : nat :=
  match b with
  | [] => 0
  | Step i :: b => (if Nat.eqb i h then 1 else 0) + turns h b
  | _ :: b => turns h b
  end.
Lemma turns_app h b c : turns h (b ++ c) = turns h b + turns h c.
Proof. induction b as [|[] b IH]; cbn; lia. Qed.
Lemma turns_in h b : In (Step h) b -> 1 <= turns h b.
Proof.
  intros X. apply in_split in X as (x & y & ->). rewrite turns_app. cbn. rewrite Nat.eqb_refl. lia.
Qed.

Lemma quiet_observers gs s : well gs s -> quiet gs s -> forall h o, observers s = h :: o -> exclusive h = true.
Proof.
  intros W Q h o O. destruct (inv_obs _ _ s (w_inv _ _ W)) as [(a & b & ln & le & E & A & B & L & Le & La & Lb)].
  assert (ln = []) as ->.
  { destruct ln as [|x ln]; [reflexivity|exfalso]. assert (X : In x (x :: ln)) by (cbn; auto). apply L in X.
    destruct (in_dec Nat.eq_dec x gs) as [Y|Y].
    - specialize (Q x Y). destruct (pcs s x) eqn:P; cbn in *; try discriminate.
      + destruct (exclusive x); discriminate.
      + destruct (exclusive x); discriminate.
      + rewrite Bool.andb_false_r in X. discriminate.
      + rewrite Bool.andb_false_r in X. discriminate.
      + destruct (w_gone _ _ W x _ _ P) as [-> ->]. rewrite Bool.andb_false_r in X. discriminate.
    - destruct (w_rest _ _ W x Y) as [C|C]; rewrite C in X; cbn in X; rewrite Bool.andb_false_r in X; discriminate. }
  destruct a; [|discriminate]. cbn in E. rewrite E in O. subst b. now inversion B.
Qed.

Lemma quiet_turns gs : NoDup gs -> forall b s h q, (forall a, In a b -> exists i, a = Step i /\ In i gs) -> well gs s ->
  quiet gs s -> queue s = h :: q -> In h gs ->
  total gs (snd (run b s)) < total gs s \/
  (quiet gs (snd (run b s)) /\ queue (snd (run b s)) = h :: q /\
   phase (pcs (snd (run b s)) h) + turns h b <= phase (pcs s h) /\ 1 <= phase (pcs (snd (run b s)) h)).
Proof.
  intros N. induction b as [|a b IH] using rev_ind; intros s h q B W Q E X.
  - right. cbn. assert (Ph : in_queue h (pcs s h) = true) by (apply (inv_queue _ _ s (w_inv _ _ W)); rewrite E; cbn; auto).
    split; [exact Q|]. split; [exact E|]. split; [lia|].
    specialize (Q h X). destruct (pcs s h) as [| | | | |[|]| | | | | | | | | | ] eqn:P; cbn in *; try discriminate; try lia.
    destruct (w_gone _ _ W h _ _ P) as [-> ->]. discriminate.
  - rewrite run_snoc. cbn [snd]. assert (B' : forall a, In a b -> exists i, a = Step i /\ In i gs) by (intros; apply B, in_or_app; auto).
    destruct (B a) as (k & -> & Xk); [apply in_or_app; cbn; auto|]. cbn [GuardModel.act].
    destruct (run_well gs N b s B' W) as [W' T']. pose proof (step_rank gs _ k N W' Xk) as [R1 R2].
    destruct (IH s h q B' W Q E X) as [L|(Q' & E' & P1 & P2)]; [left; lia|].
    set (u := snd (run b s)) in *. clearbody u.
    destruct (step_edge k u (w_inv _ _ W')) as [Ed O].
    pose proof (Q' k Xk) as A. rewrite turns_app. cbn [turns].
    assert (Oth : forall j, j <> k -> pcs (snd (step_guard k u)) j = pcs u j) by exact O.
    destruct (Nat.eqb_spec k h) as [->|Ne].
    + (* the head of the queue takes a step *)
      assert (Ob : exclusive h = true -> exists o r, observers u = o :: r /\ exclusive o = true).
      { intros Eh. destruct (observers u) as [|o r] eqn:Z.
        - exfalso. apply (obs_nonempty exclusive manual u h (w_inv _ _ W') Eh); [|exact Z].
          destruct (pcs u h) as [| | | | |[|]| | | | | | | | | | ]; cbn in *; try discriminate; try lia; exact Eh.
        - exists o, r. split; [reflexivity|]. now apply (quiet_observers gs u W' Q' o r). }
      unfold step_guard in *. pose proof (inv_shape _ _ u (w_inv _ _ W') h) as [Sh _].
      pose proof (total_step gs u _ h N X O) as Ts.
      destruct (pcs u h) as [| | | | |[|]| | | | | | | | | | ] eqn:P; cbn in A, P1, P2, Sh; try discriminate; try lia.
      * rewrite E' in *. rewrite Nat.eqb_refl in *.
        destruct (exclusive h) eqn:Eh; cbn in *; rewrite Nat.eqb_refl in *; cbn in *.
        -- right. split; [|split; [exact E'|split; lia]].
           intros j Xj. cbn. destruct (Nat.eqb_spec j h) as [->|Nj]; [reflexivity|now apply Q'].
        -- left. lia.
      * destruct (Ob Sh) as (o & r & Z1 & Z2). rewrite Z1 in *. rewrite Z2 in *. cbn in *. rewrite Nat.eqb_refl in *. cbn in *. left. lia.
      * destruct (Ob Sh) as (o & r & Z1 & Z2). rewrite Z1 in *. cbn in *. rewrite Nat.eqb_refl in *. cbn in *.
        right. split; [|split; [assumption|split; lia]].
        intros j Xj. cbn. destruct (Nat.eqb_spec j h) as [->|Nj]; [reflexivity|now apply Q'].
    + (* another guard *)
      pose proof (total_step gs u _ k N Xk O) as Ts.
      assert (K : active (pcs (snd (step_guard k u)) k) = false /\ queue (snd (step_guard k u)) = queue u \/
                  total gs (snd (step_guard k u)) < total gs u).
      { destruct Ed; cbn in A, Ts |- *; try discriminate; auto; try (rewrite H; auto; fail); right; lia. }
      destruct K as [[K1 K2]|K]; [|left; lia]. right.
      split; [|split; [now rewrite K2|rewrite (Oth h) by congruence; split; [lia|exact P2]]].
      intros j Xj. destruct (Nat.eq_dec j k) as [->|Nj]; [exact K1|rewrite Oth by exact Nj; now apply Q'].
Qed.

Lemma three_rounds gs s b : NoDup gs -> well gs s ->
  (forall a, In a b -> exists i, a = Step i /\ In i gs) -> (forall i, In i gs -> 3 <= turns i b) ->
  total gs (snd (run b s)) < total gs s \/ (forall i, In i gs -> settled (pcs s i)).
Proof.
  intros N W B T.
  destruct (Exists_dec (fun i => active (pcs s i) = true) gs) as [Ex|Ex].
  { intros i. destruct (active (pcs s i)); [left; reflexivity|right; discriminate]. }
  - apply Exists_exists in Ex as (i & X & A). left. apply (active_progress gs N b s i B W X A).
    specialize (T i X). clear - T. induction b as [|[k|k|k] b IH]; cbn in *; [lia|..]; auto.
    destruct (Nat.eqb_spec k i) as [->|]; auto.
  - assert (Q : quiet gs s).
    { intros i X. destruct (active (pcs s i)) eqn:A; [|reflexivity]. destruct Ex. apply Exists_exists. eauto. }
    destruct (queue s) as [|h q] eqn:E.
    + right. intros i X. specialize (Q i X).
      assert (Iq : in_queue i (pcs s i) = false).
      { destruct (in_queue i (pcs s i)) eqn:Z; [|reflexivity]. apply (inv_queue _ _ s (w_inv _ _ W)) in Z. rewrite E in Z. destruct Z. }
      destruct (pcs s i) eqn:P; cbn in *; try discriminate; [now left|right; left; eauto|].
      destruct (w_gone _ _ W i _ _ P) as [-> ->]. right. now right.
    + assert (Hq : in_queue h (pcs s h) = true) by (apply (inv_queue _ _ s (w_inv _ _ W)); rewrite E; cbn; auto).
      assert (X : In h gs).
      { destruct (in_dec Nat.eq_dec h gs) as [X|X]; [exact X|exfalso].
        destruct (w_rest _ _ W h X) as [C|C]; rewrite C in Hq; discriminate. }
      destruct (quiet_turns gs N b s h q B W Q E X) as [L|(_ & _ & P1 & P2)]; [now left|exfalso].
      specialize (T h X). assert (phase (pcs s h) <= 3) by (destruct (pcs s h) as [| | | | |[|]| | | | | | | | | | ]; cbn; lia). lia.
Qed.

Lemma settled_stays gs : forall b s, (forall a, In a b -> exists i, a = Step i /\ In i gs) ->
  (forall i, In i gs -> settled (pcs s i)) -> snd (run b s) = s.
Proof.
  induction b as [|a b IH] using rev_ind; intros s B S; [reflexivity|]. rewrite run_snoc. cbn [snd].
  rewrite IH by (auto; intros; apply B, in_or_app; auto).
  destruct (B a) as (i & -> & X); [apply in_or_app; cbn; auto|]. cbn. unfold step_guard.
  destruct (S i X) as [-> |[[e ->] | ->]]; reflexivity.
Qed.

Lemma all_through gs : NoDup gs -> forall n bs s, well gs s -> total gs s <= n -> 3 * n <= length bs ->
  (forall b, In b bs -> (forall a, In a b -> exists i, a = Step i /\ In i gs) /\ (forall i, In i gs -> In (Step i) b)) ->
  well gs (snd (run (concat bs) s)) /\ forall i, In i gs -> settled (pcs (snd (run (concat bs) s)) i).
Proof.
  intros N. induction n as [|n IH]; intros bs s W T L R.
  - assert (B : forall a, In a (concat bs) -> exists i, a = Step i /\ In i gs).
    { intros a A. apply in_concat in A as (b & Xb & A). now apply (R b Xb). }
    assert (S : forall i, In i gs -> settled (pcs s i)).
    { intros i X. assert (rank (pcs s i) <= 0).
      { revert T X. clear. induction gs as [|k gs IH]; cbn; intros T X; [destruct X|]. destruct X as [->|X]; [lia|]. apply IH; [lia|exact X]. }
      destruct (pcs s i) eqn:P; cbn in *; try lia; [now left|right; left; eauto|].
      destruct (w_gone _ _ W i _ _ P) as [-> ->]. right. now right. }
    rewrite (settled_stays gs _ s B S). auto.
  - destruct bs as [|b1 [|b2 [|b3 bs]]]; cbn in L; try lia.
    cbn [concat]. rewrite !app_assoc, run_app. cbn [snd].
    set (b := (b1 ++ b2) ++ b3).
    assert (B : forall a, In a b -> exists i, a = Step i /\ In i gs).
    { intros a A. unfold b in A. rewrite !in_app_iff in A. destruct A as [[A|A]|A].
      - apply (R b1); cbn; auto. - apply (R b2); cbn; auto. - apply (R b3); cbn; auto. }
    assert (Tn : forall i, In i gs -> 3 <= turns i b).
    { intros i X. unfold b. rewrite !turns_app.
      pose proof (turns_in i b1 (proj2 (R b1 ltac:(cbn; auto)) i X)).
      pose proof (turns_in i b2 (proj2 (R b2 ltac:(cbn; auto)) i X)).
      pose proof (turns_in i b3 (proj2 (R b3 ltac:(cbn; auto)) i X)). lia. }
    destruct (run_well gs N b s B W) as [W' _].
    destruct (three_rounds gs s b N W B Tn) as [P|S].
    + apply IH; [exact W'|lia|lia|]. intros; apply R; cbn; auto.
    + assert (Bs : forall a, In a (concat bs) -> exists i, a = Step i /\ In i gs).
      { intros a A. apply in_concat in A as (c & Xb & A). apply (R c); cbn; auto. }
      rewrite (settled_stays gs b s B S). rewrite (settled_stays gs _ s Bs S). auto.
Qed.

Lemma total_bound gs s : total gs s <= 10 * length gs.
Proof. induction gs as [|i gs IH]; cbn [total length]; [lia|]. assert (rank (pcs s i) <= 10) by (destruct (pcs s i); cbn; lia). lia. Qed.

Lemma settled_empty gs s : well gs s -> (forall i, In i gs -> settled (pcs s i)) -> queue s = [] /\ observers s = [].
Proof.
  intros W S.
  assert (A : forall i, in_queue i (pcs s i) = false /\ in_obs i (pcs s i) = false).
  { intros i. destruct (in_dec Nat.eq_dec i gs) as [X|X].
    - destruct (S i X) as [-> |[[e ->] | ->]]; auto.
    - destruct (w_rest _ _ W i X) as [-> | ->]; auto. }
  split.
  - destruct (queue s) as [|h q] eqn:Q; [reflexivity|exfalso].
    assert (X : In h (queue s)) by (rewrite Q; cbn; auto). apply (inv_queue _ _ s (w_inv _ _ W)) in X. destruct (A h). congruence.
  - apply (obs_zero exclusive manual s (w_inv _ _ W)). intros j. apply A.
Qed.

(** ** Cancellation *)
Lemma gone_stays i q o : forall l s, pcs s i = Gone q o -> pcs (snd (run l s)) i = Gone q o.
Proof.
  induction l as [|a l IH] using rev_ind; intros s G; [exact G|]. rewrite run_snoc. cbn [snd].
  specialize (IH s G). set (u := snd (run l s)) in *. clearbody u. destruct a as [k|k|k]; cbn [GuardModel.act snd].
  - destruct (Nat.eq_dec i k) as [<-|Ne]; [unfold step_guard; now rewrite IH|now rewrite (proj1 (step_other k u i Ne))].
  - destruct (begun (uses u k)); exact IH.
  - unfold cancel_guard. destruct (pcs u k) eqn:P; try exact IH; cbn;
      (destruct (Nat.eqb_spec i k) as [->|Ne]; [congruence|exact IH]).
Qed.

Lemma cut_at {A} (l l' l1 l2 : list A) (y x : A) : y <> x -> l ++ y :: l' = l1 ++ x :: l2 ->
  (exists r, l = l1 ++ x :: r) \/ exists r, l1 = (l ++ [y]) ++ r.
Proof.
  intros N. revert l1. induction l as [|z l IH]; intros [|w l1] E; cbn in E.
  - injection E as E _. congruence.
  - injection E as <- E. right. exists l1. reflexivity.
  - injection E as -> E. left. exists l. reflexivity.
  - injection E as <- E. destruct (IH l1 E) as [(r & ->)|(r & ->)]; [left; now exists r|right; now exists r].
Qed.

Lemma cancelled_waiter l l' i j : pcs (snd (run l start)) i = Waiting -> ~ In (Joined j) (fst (run l start)) ->
  ~ In (Entered j) (fst (run (l ++ Cancel i :: l') start)).
Proof.
  intros P N X. apply event_moment_in in X as (l1 & a & l2 & E & X).
  pose proof (t_inv _ _ (tinv_run l1)) as I1. destruct (act_entered _ _ _ I1 X) as (-> & F & _).
  pose proof (tinv_run l) as T. pose proof (tinv_run l1) as T1.
  assert (Ij : i <> j).
  { intros <-. apply N. apply (t_joined _ _ T). now rewrite P. }
  (* the entering comes after the cancellation *)
  assert (C : (exists r, l = l1 ++ Step j :: r) \/ exists r, l1 = (l ++ [Cancel i]) ++ r).
  { apply (cut_at l l' l1 l2 (Cancel i) (Step j)); [discriminate|exact E]. }
  destruct C as [(r & ->)|(r & ->)].
  - apply N. rewrite run_app. cbn [fst]. apply in_or_app. left. apply (t_joined _ _ T1). now rewrite F.
  - assert (G : pcs (snd (run ((l ++ [Cancel i]) ++ r) start)) i = Gone true (exclusive i)).
    { rewrite run_app. cbn [snd]. apply gone_stays. rewrite run_snoc. cbn. unfold cancel_guard. rewrite P. cbn. now rewrite Nat.eqb_refl. }
    assert (J : In (Joined j) (fst (run ((l ++ [Cancel i]) ++ r) start))) by (apply (t_joined _ _ T1); now rewrite F).
    assert (Ji : In (Joined i) (fst (run l start))) by (apply (t_joined _ _ T); now rewrite P).
    set (t1 := fst (run ((l ++ [Cancel i]) ++ r) start)) in *.
    assert (Pre : exists u, t1 = fst (run l start) ++ u).
    { unfold t1. rewrite <- app_assoc, run_app. cbn [fst]. eauto. }
    destruct Pre as (u & Pre). apply joins_in in Ji.
    assert (Ju : In j (joins u)).
    { apply joins_in. rewrite Pre in J. apply in_app_iff in J as [J|J]; [contradiction|exact J]. }
    apply in_split in Ju as (u1 & u2 & Ju).
    assert (Q : in_queue i (pcs (snd (run ((l ++ [Cancel i]) ++ r) start)) i) = false).
    { apply (order_core t1 _ i j (joins (fst (run l start)) ++ u1) u2 T1 F).
      - rewrite Pre, joins_app, Ju, <- app_assoc. reflexivity.
      - apply in_or_app. auto. }
    rewrite G in Q. discriminate.
Qed.

Lemma cancelled_leaver l l' i j : pcs (snd (run l start)) i = Inside -> i <> j -> exclusive i = true \/ exclusive j = true ->
  ~ In (Entered j) (fst (run l start)) -> ~ In (Entered j) (fst (run (l ++ Cancel i :: l') start)).
Proof.
  intros P Ij K N X. apply event_moment_in in X as (l1 & a & l2 & E & X).
  pose proof (t_inv _ _ (tinv_run l1)) as I1. destruct (act_entered _ _ _ I1 X) as (-> & F & Ev).
  assert (C : (exists r, l = l1 ++ Step j :: r) \/ exists r, l1 = (l ++ [Cancel i]) ++ r).
  { apply (cut_at l l' l1 l2 (Cancel i) (Step j)); [discriminate|exact E]. }
  destruct C as [(r & ->)|(r & ->)].
  - apply N. change (l1 ++ Step j :: r) with (l1 ++ [Step j] ++ r). rewrite app_assoc, run_app. cbn [fst].
    apply in_or_app. left. rewrite run_snoc. cbn [fst]. apply in_or_app. right. rewrite Ev. cbn. auto.
  - assert (G : pcs (snd (run ((l ++ [Cancel i]) ++ r) start)) i = Gone (exclusive i) true).
    { rewrite run_app. cbn [snd]. apply gone_stays. rewrite run_snoc. cbn. unfold cancel_guard. rewrite P. cbn. now rewrite Nat.eqb_refl. }
    destruct (exclusive i) eqn:Xi.
    + clear X Ev E.
      assert (B : let s := snd (run ((l ++ [Cancel i]) ++ r) start) in
        (exists q, queue s = i :: q) /\ forall j, pcs s j <> Free).
      { clear F I1 G. cbn zeta. induction r as [|a r IH] using rev_ind.
        - rewrite app_nil_r, run_snoc. cbn [snd GuardModel.act]. unfold cancel_guard. rewrite P.
          pose proof (t_inv _ _ (tinv_run l)) as I. cbn. split.
          + apply (inv_front _ _ _ I i). rewrite P. exact Xi.
          + intros k. destruct (Nat.eqb_spec k i) as [->|Nk]; [discriminate|]. intros Fk.
            destruct (exclusive k) eqn:Xk.
            * destruct (inv_front _ _ _ I i) as (q1 & Q1); [rewrite P; exact Xi|].
              destruct (inv_front _ _ _ I k) as (q2 & Q2); [rewrite Fk; exact Xk|]. congruence.
            * pose proof (inv_sole _ _ _ I i k) as So. rewrite P, Fk in So. specialize (So Xi Xk). discriminate.
        - assert (G : pcs (snd (run ((l ++ [Cancel i]) ++ r) start)) i = Gone true true).
          { rewrite run_app. cbn [snd]. apply gone_stays. rewrite run_snoc. cbn. unfold cancel_guard. rewrite P. cbn. now rewrite Nat.eqb_refl, Xi. }
          rewrite app_assoc, run_snoc. cbn [snd]. pose proof (t_inv _ _ (tinv_run ((l ++ [Cancel i]) ++ r))) as I.
          set (s := snd (run ((l ++ [Cancel i]) ++ r) start)) in *. clearbody s.
          destruct IH as ((q & Q) & Fr). destruct a as [k|k|k]; cbn [GuardModel.act snd].
          + destruct (step_edge k s I) as [Ed O].
            assert (Fk : front exclusive k (pcs s k) = true -> k = i).
            { intros Z. destruct (inv_front _ _ s I k Z) as (q' & Q'). congruence. }
            destruct (Nat.eq_dec k i) as [->|Nk].
            * unfold step_guard. rewrite G. cbn. split; [eauto|exact Fr].
            * split.
              -- pose proof (Fr k) as Frk. destruct Ed; cbn in Fk; try congruence; try (rewrite H0, Q; cbn; eauto; fail); try (rewrite H, Q; cbn; eauto; fail);
                   rewrite Q in *; try (exfalso; apply Nk, Fk; congruence); try (rewrite <- H0; eauto; fail).
              -- intros m. destruct (Nat.eq_dec m k) as [->|Nm]; [|rewrite O by exact Nm; apply Fr].
                 destruct Ed; try congruence; exfalso; apply Nk, Fk; reflexivity.
          + destruct (begun (uses s k)); split; eauto.
          + unfold cancel_guard. destruct (pcs s k) eqn:Pk; cbn; (split; [eauto|]); auto;
              intros m; destruct (Nat.eqb_spec m k); try discriminate; apply Fr. }
      destruct B as (_ & B). now apply (B j).
    + destruct K as [K|K]; [discriminate|].
      pose proof (inv_sole _ _ _ I1 j i) as So. rewrite F, G in So. cbn in So. specialize (So K Xi). discriminate.
Qed.

(** Guards which were never cancelled in a way that leaves them in a deque. *)
Lemma well_run gs l :
  (forall a, In a l -> match a with Step i | Reuse i | Cancel i => In i gs end) ->
  (forall l1 i l2, l = l1 ++ Cancel i :: l2 -> ~ In (Joined i) (fst (run l1 start)) \/ In (Left i) (fst (run l1 start))) ->
  well gs (snd (run l start)).
Proof.
  induction l as [|a l IH] using rev_ind; intros A C.
  - constructor; [apply inv_start|discriminate|auto].
  - rewrite run_snoc. cbn [snd].
    assert (W : well gs (snd (run l start))).
    { apply IH; [intros; apply A, in_or_app; auto|]. intros l1 i l2 ->. apply (C l1 i (l2 ++ [a])). now rewrite <- app_assoc. }
    assert (Aa : In a (l ++ [a])) by (apply in_or_app; cbn; auto). apply A in Aa.
    pose proof (tinv_run l) as T. destruct a as [i|i|i].
    + now apply step_well.
    + pose proof (act_inv exclusive manual (Reuse i) _ (w_inv _ _ W)) as I'. destruct W as [W1 W2 W3].
      cbn [GuardModel.act snd] in *. destruct (begun (uses (snd (run l start)) i)); constructor; auto.
    + pose proof (act_inv exclusive manual (Cancel i) _ (w_inv _ _ W)) as I'. destruct W as [W1 W2 W3].
      specialize (C l i [] eq_refl). constructor; [exact I'|..]; cbn [GuardModel.act snd]; unfold cancel_guard.
      * intros j q o. destruct (pcs (snd (run l start)) i) eqn:P; try apply W2; cbn;
          (destruct (Nat.eqb_spec j i) as [->|Ne]; [|apply W2]).
        -- intros G. injection G as <- <-. auto.
        -- exfalso. destruct C as [C|C]; [apply C, (t_joined _ _ T); now rewrite P|apply (t_not_over _ _ T) in C; now rewrite P in C].
        -- exfalso. destruct C as [C|C]; [apply C, (t_joined _ _ T); now rewrite P|apply (t_not_over _ _ T) in C; now rewrite P in C].
        -- exfalso. destruct C as [C|C]; [apply C, (t_joined _ _ T); now rewrite P|apply (t_not_over _ _ T) in C; now rewrite P in C].
      * intros j Nj. assert (j <> i) by (intros ->; contradiction).
        destruct (pcs (snd (run l start)) i) eqn:P; try (now apply W3); cbn; rewrite (proj2 (Nat.eqb_neq j i)) by assumption; now apply W3.
Qed.

(** A guard object whose use was spoilt never enters. *)
Lemma spoilt_stays i : forall l s, inv s -> uses s i = None -> uses (snd (run l s)) i = None.
Proof.
  induction l as [|a l IH] using rev_ind; intros s I U; [exact U|]. rewrite run_snoc. cbn [snd].
  specialize (IH s I U). pose proof (run_inv exclusive manual l s I) as I'. set (u := snd (run l s)) in *. clearbody u.
  destruct a as [k|k|k]; cbn [GuardModel.act snd].
  - destruct (Nat.eq_dec i k) as [<-|Ne]; [|now rewrite (proj2 (step_other k u i Ne))].
    unfold step_guard. rewrite IH. cbn.
    repeat match goal with
    | |- context [match ?x with _ => _ end] => destruct x; cbn; rewrite ?Nat.eqb_refl
    end; auto.
  - destruct (begun (uses u k)); [|exact IH]. cbn. destruct (Nat.eqb_spec i k) as [->|Ne]; [now rewrite IH|exact IH].
  - unfold cancel_guard. destruct (pcs u k); exact IH.
Qed.

Lemma spoilt_guard l l' i : begun (uses (snd (run l start)) i) = true -> ~ In (Entered i) (fst (run l start)) ->
  ~ In (Entered i) (fst (run (l ++ Reuse i :: l') start)).
Proof.
  intros P N X. change (Reuse i :: l') with ([Reuse i] ++ l') in X. rewrite app_assoc, run_app in X. cbn [fst] in X.
  pose proof (tinv_run (l ++ [Reuse i])) as Tr.
  apply in_app_iff in X as [X|X].
  - rewrite run_snoc in X. cbn in X. rewrite app_nil_r in X. contradiction.
  - set (s := snd (run (l ++ [Reuse i]) start)) in *. pose proof (t_inv _ _ Tr) as I. fold s in I.
    assert (U : uses s i = None).
    { unfold s. rewrite run_snoc. cbn [snd GuardModel.act]. rewrite P. cbn. rewrite Nat.eqb_refl.
      destruct (uses (snd (run l start)) i) as [[| | |]|]; cbn in *; congruence. }
    clearbody s. clear P N Tr.
    induction l' as [|a l' IH] using rev_ind; [destruct X|]. rewrite run_snoc in X. cbn [fst] in X.
    apply in_app_iff in X as [X|X]; [auto|].
    pose proof (run_inv exclusive manual l' s I) as I'. pose proof (spoilt_stays i l' s I U) as U'.
    destruct (act_entered _ _ _ I' X) as (-> & F & _). cbn [GuardModel.act fst] in X. unfold step_guard in X.
    rewrite F, U' in X. destruct X as [X|[]]. discriminate.
Qed.
End Traces.

(** ** The use tracker *)
Definition course : list move := [Wait; Run; Finish].
Definition at_stage (k : nat) : tracker :=
  match k with 0 => Some Unused | 1 => Some Pending | 2 => Some Running | 3 => Some Finished | _ => None end.

Lemma try_moves_none l : try_moves l None = (repeat false (length l), None).
Proof. induction l as [|m l IH]; [reflexivity|]. cbn. destruct m; cbn; rewrite IH; reflexivity. Qed.

Lemma try_moves_length : forall l t, length (fst (try_moves l t)) = length l.
Proof.
  induction l as [|m l IH]; intros t; [reflexivity|]. cbn. destruct (try_move m t) as [ok t1]. specialize (IH t1).
  destruct (try_moves l t1). cbn in *. lia.
Qed.

Lemma try_moves_spec : forall l d k, d <= 3 -> k < length l ->
  nth k (fst (try_moves l (at_stage d))) false = true <-> d + k < 3 /\ firstn (S k) l = firstn (S k) (skipn d course).
Proof.
  induction l as [|m l IH]; intros d k D K; cbn in K; [lia|].
  assert (C : (d < 3 /\ nth_error course d = Some m /\ try_move m (at_stage d) = (true, at_stage (S d))) \/
              ((d = 3 \/ nth_error course d <> Some m) /\ try_move m (at_stage d) = (false, None))).
  { destruct d as [|[|[|[|d]]]]; [..|lia]; destruct m; cbn; (left; repeat split; lia) || (right; split; [|reflexivity]; try (now left); right; discriminate). }
  cbn [try_moves]. destruct C as [(D' & N & ->)|(N & ->)].
  - destruct (try_moves l (at_stage (S d))) as [oks t2] eqn:T. cbn [fst].
    assert (Sk : skipn d course = m :: skipn (S d) course).
    { destruct d as [|[|[|d]]]; cbn in *; try (injection N as <-); try reflexivity; lia. }
    rewrite Sk. destruct k as [|k].
    + cbn. split; [intros _; split; [lia|reflexivity]|reflexivity].
    + change (nth (S k) (true :: oks) false) with (nth k oks false).
      change oks with (fst (oks, t2)). rewrite <- T. rewrite (IH (S d) k) by lia.
      change (firstn (S (S k)) (m :: l)) with (m :: firstn (S k) l).
      change (firstn (S (S k)) (m :: skipn (S d) course)) with (m :: firstn (S k) (skipn (S d) course)).
      split; intros [A B]; (split; [lia|]); congruence.
  - rewrite try_moves_none. cbn [fst].
    assert (F : nth k (false :: repeat false (length l)) false = false).
    { change (false :: repeat false (length l)) with (repeat false (S (length l))).
      apply nth_repeat. }
    rewrite F. split; [discriminate|]. intros [A B]. destruct N as [N|N]; [lia|]. exfalso. apply N.
    destruct d as [|[|[|d]]]; [..|lia]; cbn in B |- *; injection B as ->; reflexivity.
Qed.

(** Threads. *)
Lemma trun_snoc what l k s : trun what (l ++ [k]) s =
  (fst (trun what l s) ++ fst (tstep what k (snd (trun what l s))), snd (tstep what k (snd (trun what l s)))).
Proof.
  revert s. induction l as [|a l IH]; intros s; cbn.
  - destruct (tstep what k s). cbn. now rewrite app_nil_r.
  - destruct (tstep what a s) as [e1 s1]. rewrite IH. destruct (trun what l s1) as [e2 s2]. cbn. now rewrite app_assoc.
Qed.

Record kinv (what : nat -> move) (t : list nat) (s : tstate) : Prop := {
  k_prefix : exists n, n <= 3 /\ map what t = firstn n course /\
    (cell s <> None -> cell s = at_stage n /\ forall k u, tpcs s k <> Holding u) /\
    (forall k u, tpcs s k = Holding u -> n < 3 /\ nth_error course n = Some (what k) /\ u = target (what k) /\ cell s = None /\
       forall j v, tpcs s j = Holding v -> j = k);
}.
Lemma kinv_step what t s k : kinv what t s -> kinv what (t ++ fst (tstep what k s)) (snd (tstep what k s)).
Proof.
  intros [(n & N & M & C & H)]. unfold tstep. destruct (tpcs s k) eqn:P.
  - cbn. destruct (try_move (what k) (cell s)) as [ok t'] eqn:T. cbn. rewrite app_nil_r. constructor. exists n.
    split; [exact N|]. split; [exact M|]. destruct ok; cbn.
    + assert (Nc : cell s <> None). { intros Z. rewrite Z in T. destruct (what k); discriminate. }
      destruct (C Nc) as [C1 C2]. split; [congruence|]. intros j u. destruct (Nat.eqb_spec j k) as [->|Ne].
      * intros U. injection U as <-. rewrite C1 in T.
        assert (n < 3 /\ nth_error course n = Some (what k)) as [A B].
        { destruct n as [|[|[|[|n]]]]; [..|lia]; destruct (what k); cbn in *; try discriminate; split; auto. }
        split; [exact A|]. split; [exact B|]. split; [reflexivity|]. split; [reflexivity|].
        intros j v. destruct (Nat.eqb_spec j k) as [->|Nj]; [auto|]. intros V. now destruct (C2 j v).
      * intros U. now destruct (C2 j u).
    + split; [congruence|]. intros j u. destruct (Nat.eqb_spec j k) as [->|Ne]; [discriminate|].
      intros U. destruct (H j u U) as (A & B & D & E & F). split; [exact A|]. split; [exact B|]. split; [exact D|]. split; [reflexivity|].
      intros i v. destruct (Nat.eqb_spec i k) as [->|Ni]; [discriminate|]. apply F.
  - cbn. destruct (H k u P) as (A & B & D & E & F). constructor. exists (S n).
    split; [lia|]. split.
    + rewrite map_app, M. cbn [map]. destruct n as [|[|[|n]]]; [..|lia]; cbn in B |- *; now injection B as <-.
    + split.
      * intros _. split.
        -- cbn. rewrite D. destruct n as [|[|[|n]]]; [..|lia]; cbn in B |- *; injection B as <-; reflexivity.
        -- cbn. intros j v. destruct (Nat.eqb_spec j k) as [->|Nj]; [discriminate|]. intros V. now apply F in V.
      * cbn. intros j v. destruct (Nat.eqb_spec j k) as [->|Nj]; [discriminate|]. intros V. now apply F in V.
  - cbn. rewrite app_nil_r. constructor. exists n. auto.
  - cbn. rewrite app_nil_r. constructor. exists n. auto.
Qed.
Lemma kinv_run what : forall l, kinv what (fst (trun what l tstart)) (snd (trun what l tstart)).
Proof.
  induction l as [|k l IH] using rev_ind.
  - constructor. exists 0. cbn. split; [lia|]. split; [reflexivity|]. split; [split; [reflexivity|discriminate]|discriminate].
  - rewrite trun_snoc. now apply kinv_step.
Qed.
