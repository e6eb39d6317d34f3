(** * The guards of tasks that share one AsyncDecipherStream *)
From Coq Require Import ZArith.
From Verif Require Import Base CanonModel ClockModel GentoolsModel CipherModel StreamModel FeedModel FeedSpec FeedProofs ReceiveModel ReceiveSpec.
Local Open Scope N_scope.

Section Guard.
Variable H : hasher.
Variable c : cfg.
Variable ttl : option Z.

Definition rplace (f : receiver) : stand :=
  match f with RWaiting _ => Waits | RTesting _ _ _ | RDeciphering _ _ _ => Inside | _ => Away end.
Definition dplace (x : reader) : stand :=
  match x with
  | RJoining => Waits
  | RDating true _ | RTrimming true | RYielded true | RSealing | RTail _ => Inside
  | _ => Away
  end.
Definition rsafe (y : channel) : Prop := guarded (waiters y) (rstands y).

(** What a step does to the line. *)
Definition goes (w : who) (p p' : stand) (l l' : list who) : Prop :=
  (p = Away /\ p' = Waits /\ l' = l ++ [w]) \/
  ((p' = p \/ hd_error l = Some w /\ p' = Inside) /\ l' = l) \/
  (hd_error l = Some w /\ p' = Away /\ l' = tl l).

Lemma goes_receiver k f f' y s live cl l :
  rsafe y -> nth_error (receivers y) k = Some f ->
  ((rplace f = Inside -> hd_error (waiters y) = Some (Feeds k)) -> goes (Feeds k) (rplace f) (rplace f') (waiters y) l) ->
  rsafe {| inbox := s; alive := live; closing := cl; waiters := l; receivers := replace k f' (receivers y);
           readers := readers y; heard := heard y |}.
Proof.
  intros G Q E. eapply (moved_guarded _ _ _ _ (Feeds k) G).
  - intros [i|i] K; [|reflexivity]. unfold rstands. cbn [receivers]. rewrite nth_others by congruence. reflexivity.
  - cbn [waiters]. destruct G as (_ & _ & I).
    assert (A' : rstands {| inbox := s; alive := live; closing := cl; waiters := l; receivers := replace k f' (receivers y);
           readers := readers y; heard := heard y |} (Feeds k) = rplace f').
    { unfold rstands. cbn [receivers]. rewrite (nth_replaced _ _ _ _ Q). now destruct f'. }
    assert (A : rstands y (Feeds k) = rplace f) by (unfold rstands; rewrite Q; now destruct f).
    rewrite <- A in E. destruct (E (I _)) as [(A1 & A2 & A3)|[[A1 A2]|(A1 & A2 & A3)]].
    + apply Moved_in; congruence.
    + apply Moved_on; [|exact A2]. destruct A1 as [A1|[A1 A3]]; [left; congruence|right; split; [exact A1|congruence]].
    + apply Moved_out; congruence.
Qed.
Lemma goes_reader j x x' y s live cl l out :
  rsafe y -> nth_error (readers y) j = Some x ->
  ((dplace x = Inside -> hd_error (waiters y) = Some (Closes j)) -> goes (Closes j) (dplace x) (dplace x') (waiters y) l) ->
  rsafe {| inbox := s; alive := live; closing := cl; waiters := l; receivers := receivers y;
           readers := replace j x' (readers y); heard := out |}.
Proof.
  intros G Q E. eapply (moved_guarded _ _ _ _ (Closes j) G).
  - intros [i|i] K; [reflexivity|]. unfold rstands. cbn [readers]. rewrite nth_others by congruence. reflexivity.
  - cbn [waiters]. destruct G as (_ & _ & I).
    assert (A' : rstands {| inbox := s; alive := live; closing := cl; waiters := l; receivers := receivers y;
           readers := replace j x' (readers y); heard := out |} (Closes j) = dplace x').
    { unfold rstands. cbn [readers]. rewrite (nth_replaced _ _ _ _ Q). now destruct x' as [|[|] ?|[|]|[|]| | |]. }
    assert (A : rstands y (Closes j) = dplace x) by (unfold rstands; rewrite Q; now destruct x as [|[|] ?|[|]|[|]| | |]).
    rewrite <- A in E. destruct (E (I _)) as [(A1 & A2 & A3)|[[A1 A2]|(A1 & A2 & A3)]].
    + apply Moved_in; congruence.
    + apply Moved_on; [|exact A2]. destruct A1 as [A1|[A1 A3]]; [left; congruence|right; split; [exact A1|congruence]].
    + apply Moved_out; congruence.
Qed.

Lemma next_packet_goes k p l : hd_error l = Some (Feeds k) -> forall rem,
  goes (Feeds k) p (rplace (fst (next_packet c rem l))) l (snd (next_packet c rem l)).
Proof.
  intros Hd rem. unfold next_packet. destruct (take _ rem); cbn [fst snd rplace]; right; [right|left]; auto.
Qed.
Lemma receiver_goes k f y f' s l :
  receiver_step H c k f (inbox y) (alive y) (closing y) (waiters y) = (f', s, l) ->
  (rplace f = Inside -> hd_error (waiters y) = Some (Feeds k)) -> goes (Feeds k) (rplace f) (rplace f') (waiters y) l.
Proof.
  intros E I. destruct f as [d|d|i b rem|i b rem|o|]; cbn [receiver_step rplace] in *.
  - destruct (_ || _)%bool; injection E as <- <- <-; [right; left|left]; auto.
  - destruct (waiters y) as [|[h|h] rest] eqn:L; try (injection E as <- <- <-; right; left; auto).
    destruct (Nat.eqb_spec h k) as [->|]; [|injection E as <- <- <-; right; left; auto].
    destruct (closing y); [injection E as <- <- <-; right; right; auto|].
    destruct (next_packet c d (Feeds k :: rest)) as [f1 l1] eqn:N. injection E as <- <- <-.
    pose proof (next_packet_goes k Waits (Feeds k :: rest) eq_refl d) as G. now rewrite N in G.
  - specialize (I eq_refl).
    destruct (test_next_block_id _ _ _ _ _ _) as [u|e]; [|destruct e]; injection E as <- <- <-; (right; first [left; now auto|right; now auto]).
  - specialize (I eq_refl). destruct (alive y); [|injection E as <- <- <-; right; right; auto].
    destruct (transform _ _ _ _ _ _) as [[pt ss]|e]; [|injection E as <- <- <-; right; right; auto].
    destruct (next_packet c rem (waiters y)) as [f1 l1] eqn:N. injection E as <- <- <-.
    pose proof (next_packet_goes k Inside (waiters y) I rem) as G. now rewrite N in G.
  - injection E as <- <- <-. right. left. auto.
  - injection E as <- <- <-. right. left. auto.
Qed.

(** The parts of [__aiter__], inside the guard or not. *)
Definition kept_or_left (final : bool) (x' : reader) (l l' : list who) : Prop :=
  if final then (dplace x' = Inside /\ l' = l) \/ (dplace x' = Away /\ l' = tl l)
  else dplace x' = Away /\ l' = l.
Lemma round_line final s l x' s' l' out : round c final s l = (x', s', l', out) -> kept_or_left final x' l l'.
Proof.
  unfold round. destruct (ds_loop c s) as [o s1]. destruct o; try (destruct final; [destruct (split_last _) as [[? ?]|]|]);
    intros E; injection E as <- <- <- <-; cbn; auto; destruct final; cbn; auto.
Qed.
Lemma head_line final s l x' s' l' out : head c final s l = (x', s', l', out) -> kept_or_left final x' l l'.
Proof.
  unfold head. destruct (_ && _)%bool; [|apply round_line]. intros E. injection E as <- <- <- <-. destruct final; cbn; auto.
Qed.
Lemma enter_line final s l x' s' l' out : enter c final s l = (x', s', l', out) -> kept_or_left final x' l l'.
Proof.
  unfold enter. destruct (ds_streaming s); [apply head_line|]. cbn [ds_queue ds_set_queue].
  destruct (ds_queue s); intros E; injection E as <- <- <- <-; destruct final; cbn; auto.
Qed.
Lemma kept_or_left_goes (final : bool) j x x' l l' : dplace x = (if final then Inside else Away) ->
  (dplace x = Inside -> hd_error l = Some (Closes j)) ->
  kept_or_left final x' l l' -> goes (Closes j) (dplace x) (dplace x') l l'.
Proof.
  intros P I K. rewrite P in *. destruct final; cbn in K.
  - specialize (I eq_refl). destruct K as [[-> ->]|[-> ->]]; right; [left|right]; auto.
  - destruct K as [-> ->]. right. left. auto.
Qed.
Lemma reader_goes j now x y x' s l out :
  reader_step H c ttl j now x (inbox y) (waiters y) = (x', s, l, out) ->
  (dplace x = Inside -> hd_error (waiters y) = Some (Closes j)) -> goes (Closes j) (dplace x) (dplace x') (waiters y) l.
Proof.
  intros E I. destruct x as [|final st|final|final| | |[|t rest]]; cbn [reader_step] in E.
  - injection E as <- <- <- <-. right. left. auto.
  - apply (kept_or_left_goes final); [now destruct final|exact I|].
    destruct (test_timestamp _ _ _ _ _) as [u|e]; [|destruct e]; [now apply head_line in E|..];
      injection E as <- <- <- <-; destruct final; cbn; auto.
  - apply (kept_or_left_goes final); [now destruct final|exact I|].
    destruct (ds_queue (inbox y)); [injection E as <- <- <- <-; destruct final; cbn; auto|now apply head_line in E].
  - apply (kept_or_left_goes final); [now destruct final|exact I|]. now apply round_line in E.
  - destruct (waiters y) as [|[h|h] rest] eqn:L; try (injection E as <- <- <- <-; right; left; now auto).
    destruct (Nat.eqb_spec h j) as [->|]; injection E as <- <- <- <-; right; left; auto.
  - apply (kept_or_left_goes true); [reflexivity|exact I|].
    destruct (ds_session (inbox y)) as [b m]. destruct (finalize H c b m) as [[? ?]|e]; [now apply enter_line in E|].
    injection E as <- <- <- <-. cbn. auto.
  - specialize (I eq_refl). injection E as <- <- <- <-. right. right. auto.
  - injection E as <- <- <- <-. right. left. auto.
Qed.

Lemma rsafe_step e y : (forall k data, e = RCancel k -> nth_error (receivers y) k <> Some (RWaiting data)) ->
  rsafe y -> rsafe (rproceed H c ttl e y).
Proof.
  intros U G. destruct e as [k|j now|j now|j now|j|k|j]; cbn [rproceed].
  - destruct (nth_error (receivers y) k) as [f|] eqn:Q; [|exact G].
    destruct (receiver_step H c k f (inbox y) (alive y) (closing y) (waiters y)) as [[f' s] l] eqn:E.
    apply (goes_receiver k f); auto. now apply (receiver_goes k f y f' s l).
  - destruct (nth_error (readers y) j) as [[| | | | | |]|] eqn:Q; try exact G.
    destruct (enter c false (inbox y) (waiters y)) as [[[x' s] l] out] eqn:E. apply enter_line in E.
    apply (goes_reader j RIdle); auto. intros I. now apply (kept_or_left_goes false).
  - destruct (nth_error (readers y) j) as [[| | | | | |]|] eqn:Q; try exact G.
    destruct (closing y); [exact G|]. apply (goes_reader j RIdle); auto. intros _. left. auto.
  - destruct (nth_error (readers y) j) as [x|] eqn:Q; [|exact G].
    destruct (reader_step H c ttl j now x (inbox y) (waiters y)) as [[[x' s] l] out] eqn:E.
    apply (goes_reader j x); auto. now apply (reader_goes j now x y x' s l out).
  - destruct (nth_error (readers y) j) as [[|[|] st|[|]|[|]| | |]|] eqn:Q; try exact G.
    apply (goes_reader j (RYielded false)); auto. intros _. right. left. auto.
  - destruct (nth_error (receivers y) k) as [f|] eqn:Q; [|exact G].
    destruct (cancel_receiver f (alive y) (waiters y)) as [[f' live] l] eqn:E.
    apply (goes_receiver k f); auto. intros I.
    destruct f as [d|d|i b rem|i b rem|o|]; cbn in E; injection E as <- <- <-; cbn [rplace] in *;
      first [now destruct (U k d eq_refl Q) | right; left; now auto | right; right; now auto].
  - destruct (nth_error (readers y) j) as [[|[|] st|[|]|[|]| | |]|] eqn:Q; try exact G;
      (eapply (goes_reader j); [exact G|exact Q|]; intros _; right; left; auto).
Qed.
Lemma rsafe_run es : forall y, no_waiter_cancelled H c ttl es y -> rsafe y -> rsafe (rrun H c ttl es y).
Proof.
  induction es as [|e es IH]; intros y U G; [exact G|]. change (rsafe (rrun H c ttl es (rproceed H c ttl e y))).
  apply IH.
  - intros before k after data E. apply (U (e :: before) k after data). now rewrite E.
  - apply rsafe_step; [|exact G]. intros k data ->. apply (U [] k es data eq_refl).
Qed.
Lemma rsafe_started st0 datas n : rsafe (rstarted st0 datas n).
Proof.
  split; [constructor|]. assert (A : forall w, rstands (rstarted st0 datas n) w = Away).
  { intros [i|j]; unfold rstands, rstarted; cbn [receivers readers].
    - destruct (nth_error (map RFresh datas) i) eqn:E; [|reflexivity]. apply nth_error_In, in_map_iff in E as (? & <- & _). reflexivity.
    - destruct (nth_error (repeat RIdle n) j) eqn:E; [|reflexivity]. apply nth_error_In, repeat_spec in E. now subst. }
  split; intros w; rewrite A; [split; [intros []|congruence]|discriminate].
Qed.
End Guard.
