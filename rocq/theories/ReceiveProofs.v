(** * Proofs about tasks that share one AsyncDecipherStream *)
From Coq Require Import ZArith Lia ZifyBool ZifyNat ZifyN.
From Verif Require Import Base BaseFacts CanonModel ClockModel GentoolsModel GentoolsProofs CipherModel CipherSpec
  CipherProofs SessionProofs StreamModel StreamSpec StreamProofs StreamOpenProofs StreamPairProofs StreamHistoryProofs
  FeedModel FeedProofs ReceiveModel ReceiveSpec.
Local Open Scope N_scope.

Section Receive.
Variable H : hasher.
Variable c : cfg.
Hypothesis XL : forall m n, blen (h_digest H m n) = n.
Hypothesis VC : valid_cfg H c.
Hypothesis VI : valid_ids c.
Variable ttl : option Z.
Variable P : Z -> Prop.
Local Notation bs := (c_blocksize c).
Local Notation bid := (c_block_id_bytes c).
Local Notation ps := (packetsize c).
Local Notation step := (ds_step H c ttl).

(** ** One reader and a sequential history *)
Definition plain (a : dstream) : dstream := ds_set_phase a DOpen.
Definition fresh_phase (shut : bool) (a : dstream) : Prop :=
  if shut then ds_phase a = DDone \/ ds_phase a = DFailed else ds_phase a = DOpen.
Definition sealed (a a1 : dstream) : Prop := ds_phase a = DOpen /\
  exists b m t m', ds_session a = (b, m) /\ finalize H c b m = Ok (t, m') /\
    a1 = {| ds_queue := ds_queue a; ds_trim := ds_trim a; ds_streaming := ds_streaming a; ds_session := (b, m');
            ds_first := ds_first a; ds_iterating := ds_iterating a; ds_phase := DIter |}.
Definition dating (stamp : bytes) (s a : dstream) : Prop :=
  ds_streaming a = false /\ s = ds_set_queue (plain a) (ds_trim a) true (ds_queue a) /\
  exists q l, ds_queue a = q :: l /\ take (c_timestamp_bytes c) q = stamp.
Definition checked (now : Z) (a : dstream) : Prop := ds_streaming a = true \/
  ds_streaming a = false /\
  exists q l, ds_queue a = q :: l /\ test_timestamp (c_clock c) now (take (c_timestamp_bytes c) q) ttl BigEndian = Ok tt.
Definition trimming (now : Z) (s a : dstream) : Prop := checked now a /\
  s = ds_set_queue (plain a) (ds_trim s) true (ds_queue s) /\
  trim_queue (ds_trim s) (ds_queue s) = trim_queue (ds_trim a) (ds_queue a).
Definition busy (s : dstream) : Prop := ds_trim s <> 0 /\ ds_queue s <> [].

Definition rel (x : reader) (s a : dstream) (shut : bool) : Prop :=
  match x with
  | RIdle => s = plain a /\ fresh_phase shut a
  | RYielded false => s = plain a /\ fresh_phase shut a /\ ds_iterating a = true
  | RDating false stamp => dating stamp s a /\ fresh_phase shut a
  | RTrimming false => (exists now, P now /\ trimming now s a) /\ busy s /\ fresh_phase shut a
  | RJoining | RSealing => s = plain a /\ ds_phase a = DOpen /\ shut = true
  | RDating true stamp => shut = true /\ exists a1, sealed a a1 /\ dating stamp s a1
  | RTrimming true => shut = true /\ busy s /\ exists a1 now, sealed a a1 /\ P now /\ trimming now s a1
  | RYielded true => shut = true /\ s = plain a /\ ds_phase a = DIter
  | RTail rest => shut = true /\ exists now a1, P now /\ ds_finalize H c now ttl a = ds_yield_tail rest a1 /\ s = plain a1
  end.

(** What a step of the reader means for the history: nothing, or one call. *)
Definition emits (out : list (bool * outcome)) (a a' : dstream) : Prop :=
  out = [] /\ a' = a \/
  exists o o', out = [(is_final o, o')] /\ step o a = (o', a') /\ ~ StreamSpec.feeds o /\
    forall now, moment o = Some now -> P now.
Definition is_inside (x : reader) : bool :=
  match x with RDating f _ | RTrimming f | RYielded f => f | RSealing | RTail _ => true | RIdle | RJoining => false end.
(** How a step changes the line. *)
Definition moves (final : bool) (l : list who) (x' : reader) (l' : list who) : Prop :=
  x' = RIdle /\ l' = leave final l \/ x' <> RJoining /\ is_inside x' = final /\ l' = l.

Lemma loop_plain a : ds_loop c (plain a) = (fst (ds_loop c a), plain (snd (ds_loop c a))) /\
  ds_phase (snd (ds_loop c a)) = ds_phase a /\
  (match ds_loop c a with
   | (Plain _, a') => ds_iterating a' = true
   | (o, a') => o = Stop /\ a' = a
   end).
Proof.
  unfold ds_loop, plain. cbn [ds_set_phase ds_queue]. destruct (ds_queue a) as [|q queue] eqn:Q; [cbn; auto|].
  destruct (min_stream_queue c <? blen (q :: queue)); cbn; auto.
Qed.

Lemma trim_snoc b : forall q t, trim_queue t (q ++ [b]) =
  match trim_queue t q with (t', []) => trim_queue t' [b] | (t', q') => (t', q' ++ [b]) end.
Proof.
  induction q as [|x q IH]; intros t; [reflexivity|]. cbn [app]. cbn [trim_queue].
  destruct (t =? 0); [reflexivity|]. destruct (drop t x) as [|y ys]; [apply IH|reflexivity].
Qed.
Lemma trim_snoc_eq b q1 q2 t1 t2 : trim_queue t1 q1 = trim_queue t2 q2 -> trim_queue t1 (q1 ++ [b]) = trim_queue t2 (q2 ++ [b]).
Proof. intros E. now rewrite !trim_snoc, E. Qed.
Lemma trim_stop t q : t = 0 \/ q = [] -> trim_queue t q = (t, q).
Proof. intros [->| ->]; [destruct q; reflexivity|reflexivity]. Qed.

(** Iterating goes on as in the history. *)
Lemma round_false s a shut l : s = plain a -> fresh_phase shut a ->
  let '(x', s', l', out) := round c false s l in
  exists o a', out = [(false, o)] /\ ds_loop c a = (o, a') /\ rel x' s' a' shut /\ moves false l x' l'.
Proof.
  intros -> F. destruct (loop_plain a) as (E1 & E2 & E3). unfold round. rewrite E1.
  destruct (ds_loop c a) as [o a'] eqn:L. cbn [fst snd] in *.
  assert (F' : fresh_phase shut a') by (unfold fresh_phase in *; now rewrite E2).
  destruct o as [|i b|b| |e|i b r|]; try (exfalso; destruct E3; discriminate).
  - exists (Plain b), a'. split; [reflexivity|]. split; [reflexivity|]. split; [cbn; auto|]. right. cbn. split; [discriminate|auto].
  - destruct E3 as [_ ->]. exists Stop, a. split; [reflexivity|]. split; [reflexivity|]. split; [cbn; auto|left; auto].
Qed.
Lemma round_true s a l now : s = plain a -> ds_phase a = DIter -> P now ->
  let '(x', s', l', out) := round c true s l in
  moves true l x' l' /\
  ((exists rest a', x' = RTail rest /\ out = [] /\ s' = plain a' /\ ds_final_iter c a = ds_yield_tail rest a') \/
   (exists o a', out = [(true, o)] /\ ds_final_iter c a = (o, a') /\ rel x' s' a' true)).
Proof.
  intros -> F Pn. destruct (loop_plain a) as (E1 & E2 & E3). unfold round. rewrite E1. unfold ds_final_iter.
  destruct (ds_loop c a) as [o a'] eqn:L. cbn [fst snd] in *.
  assert (Stops : o = Stop -> a' = a ->
    let '(x', s', l', out) := match split_last (ds_queue (plain a')) with
      | None => (RIdle, plain a', tl l, [(true, Raised IndexErr)])
      | Some (_, lst) => (RTail (batch (but_last_n (depadding_end_index c lst) (concat (ds_queue (plain a')))) bs), plain a', l, [])
      end in
    moves true l x' l' /\
    ((exists rest a0, x' = RTail rest /\ out = [] /\ s' = plain a0 /\
       match split_last (ds_queue a') with
       | Some (_, lst) => ds_yield_tail (batch (but_last_n (depadding_end_index c lst) (concat (ds_queue a'))) bs) a'
       | None => (Raised IndexErr, ds_set_phase a' DFailed)
       end = ds_yield_tail rest a0) \/
     (exists o0 a0, out = [(true, o0)] /\
       match split_last (ds_queue a') with
       | Some (_, lst) => ds_yield_tail (batch (but_last_n (depadding_end_index c lst) (concat (ds_queue a'))) bs) a'
       | None => (Raised IndexErr, ds_set_phase a' DFailed)
       end = (o0, a0) /\ rel x' s' a0 true))).
  { intros _ ->. cbn [plain ds_set_phase ds_queue]. destruct (split_last (ds_queue a)) as [[init lst]|].
    - split; [right; cbn; split; [discriminate|auto]|]. left. do 2 eexists. split; [reflexivity|]. split; [reflexivity|]. split; reflexivity.
    - split; [left; auto|]. right. do 2 eexists. split; [reflexivity|]. split; [reflexivity|]. cbn. split; [reflexivity|now right]. }
  destruct o as [|i b|b| |e|i b r|]; try (exfalso; destruct E3; discriminate); [|destruct E3 as [_ E3]; exact (Stops eq_refl E3)].
  split; [right; cbn; split; [discriminate|auto]|]. right. eexists _, (ds_set_phase a' DIter).
  split; [reflexivity|]. split; [reflexivity|]. cbn. auto.
Qed.

Lemma head_checked final s a now l : trimming now s a ->
  (busy s /\ head c final s l = (RTrimming final, s, l, [])) \/
  (exists a2, ds_prologue c now ttl a = (None, a2) /\ s = plain a2 /\ ds_phase a2 = ds_phase a /\ head c final s l = round c final s l).
Proof.
  intros (C & E & T). unfold head. destruct (N.eqb_spec (ds_trim s) 0) as [Z|Z]; cbn [negb andb].
  2: destruct (N.eqb_spec (blen (ds_queue s)) 0) as [Y|Y]; cbn [negb].
  - right. rewrite (trim_stop (ds_trim s) (ds_queue s)) in T by now left.
    exists (ds_set_queue a (ds_trim s) true (ds_queue s)). split; [|split; [exact E|split; reflexivity]].
    unfold ds_prologue. destruct C as [C|(C & q & l0 & C1 & C2)]; rewrite C; [now rewrite <- T|].
    rewrite C1, C2, <- C1. now rewrite <- T.
  - right. apply blen_0 in Y. rewrite (trim_stop (ds_trim s) (ds_queue s)) in T by now right.
    exists (ds_set_queue a (ds_trim s) true (ds_queue s)). split; [|split; [exact E|split; reflexivity]].
    unfold ds_prologue. destruct C as [C|(C & q & l0 & C1 & C2)]; rewrite C; [now rewrite <- T|].
    rewrite C1, C2, <- C1. now rewrite <- T.
  - left. split; [|reflexivity]. split; [exact Z|]. intros X. rewrite X in Y. now apply Y.
Qed.

(** The two uses of [__aiter__], from the point where the age has been checked. *)
Lemma head_false s a now shut l : trimming now s a -> P now -> fresh_phase shut a ->
  let '(x', s', l', out) := head c false s l in exists a', emits out a a' /\ rel x' s' a' shut /\ moves false l x' l'.
Proof.
  intros T Pn F. destruct (head_checked false s a now l T) as [(B & E)|(a2 & E1 & E2 & E3 & E4)].
  - rewrite E. exists a. split; [left; auto|]. split; [cbn; eauto|]. right. cbn. split; [discriminate|auto].
  - rewrite E4. assert (F2 : fresh_phase shut a2) by (unfold fresh_phase in *; now rewrite E3).
    pose proof (round_false s a2 shut l E2 F2) as R. destruct (round c false s l) as [[[x' s'] l'] out].
    destruct R as (o & a' & R1 & R2 & R3 & R4). exists a'. split; [|auto]. right. exists (DNext now), o.
    split; [exact R1|]. split; [cbn; unfold ds_next; now rewrite E1|]. split; [now intros []|]. cbn. intros ? J. congruence.
Qed.
Lemma final_prologue a a1 now : sealed a a1 -> ds_finalize H c now ttl a =
  match ds_prologue c now ttl a1 with
  | (Some e, st) => (Raised e, ds_set_phase st DFailed)
  | (None, st) => ds_final_iter c st
  end.
Proof. intros (S1 & b & m & t & m' & S2 & S3 & ->). unfold ds_finalize. rewrite S1, S2, S3. reflexivity. Qed.
Lemma head_true s a a1 now l : sealed a a1 -> trimming now s a1 -> P now ->
  let '(x', s', l', out) := head c true s l in exists a', emits out a a' /\ rel x' s' a' true /\ moves true l x' l'.
Proof.
  intros Se T Pn. destruct (head_checked true s a1 now l T) as [(B & E)|(a2 & E1 & E2 & E3 & E4)].
  - rewrite E. exists a. split; [left; auto|]. split; [cbn; eauto 8|]. right. cbn. split; [discriminate|auto].
  - rewrite E4. assert (F2 : ds_phase a2 = DIter). { rewrite E3. destruct Se as (_ & b & m & t & m' & _ & _ & ->). reflexivity. }
    pose proof (round_true s a2 l now E2 F2 Pn) as R. destruct (round c true s l) as [[[x' s'] l'] out].
    pose proof (final_prologue a a1 now Se) as Fp. rewrite E1 in Fp.
    destruct R as (R4 & [(rest & a' & -> & -> & R2 & R3)|(o & a' & R1 & R2 & R3)]).
    + exists a. split; [left; auto|]. split; [|exact R4]. cbn. split; [reflexivity|]. exists now, a'. split; [exact Pn|].
      split; [congruence|exact R2].
    + exists a'. split; [|auto]. right. exists (DFinal now), o. split; [exact R1|]. split; [cbn; congruence|].
      split; [now intros []|]. cbn. intros ? J. congruence.
Qed.
Lemma trimming_start s a now : s = plain a -> ds_streaming a = true -> trimming now s a.
Proof. intros -> S. split; [now left|]. split; [|reflexivity]. destruct a; cbn in *. now subst. Qed.
Lemma trimming_dated stamp s a now : dating stamp s a -> test_timestamp (c_clock c) now stamp ttl BigEndian = Ok tt -> trimming now s a.
Proof.
  intros (D1 & -> & q & l & D2 & <-) T. split; [right; eauto|]. split; reflexivity.
Qed.

Lemma enter_false s a shut now l : s = plain a -> fresh_phase shut a -> P now ->
  let '(x', s', l', out) := enter c false s l in exists a', emits out a a' /\ rel x' s' a' shut /\ moves false l x' l'.
Proof.
  intros E F Pn. unfold enter. replace (ds_streaming s) with (ds_streaming a) by (now rewrite E).
  destruct (ds_streaming a) eqn:S.
  - apply (head_false s a now); auto. now apply trimming_start.
  - rewrite E. cbn [ds_set_queue ds_queue plain ds_set_phase]. destruct (ds_queue a) as [|q queue] eqn:Q.
    + exists (ds_set_queue a (ds_trim a) true []). split; [|split; [|left; auto]].
      * right. exists (DNext now), (Raised IndexErr). split; [reflexivity|]. split; [|split; [now intros []|cbn; intros ? J; congruence]].
        cbn. unfold ds_next, ds_prologue. now rewrite S, Q.
      * cbn [rel]. split; [reflexivity|]. unfold fresh_phase in *. destruct shut; exact F.
    + exists a. split; [left; auto|]. split; [|right; cbn; split; [discriminate|auto]]. cbn [rel]. split; [|exact F].
      split; [exact S|]. split; [cbn; now rewrite Q|]. eauto.
Qed.
Lemma enter_true s a a1 now l : sealed a a1 -> s = plain a1 -> P now ->
  let '(x', s', l', out) := enter c true s l in exists a', emits out a a' /\ rel x' s' a' true /\ moves true l x' l'.
Proof.
  intros Se E Pn. unfold enter. replace (ds_streaming s) with (ds_streaming a1) by (now rewrite E).
  destruct (ds_streaming a1) eqn:S.
  - apply (head_true s a a1 now); auto. now apply trimming_start.
  - rewrite E. cbn [ds_set_queue ds_queue plain ds_set_phase]. destruct (ds_queue a1) as [|q queue] eqn:Q.
    + exists (ds_set_phase (ds_set_queue a1 (ds_trim a1) true []) DFailed). split; [|split; [|left; auto]].
      * right. exists (DFinal now), (Raised IndexErr). split; [reflexivity|]. split; [|split; [now intros []|cbn; intros ? J; congruence]].
        cbn. rewrite (final_prologue a a1 now Se). unfold ds_prologue. now rewrite S, Q.
      * cbn [rel fresh_phase]. split; [reflexivity|now right].
    + exists a. split; [left; auto|]. split; [|right; cbn; split; [discriminate|auto]]. cbn [rel]. split; [reflexivity|].
      exists a1. split; [exact Se|]. split; [exact S|]. split; [cbn; now rewrite Q|]. eauto.
Qed.

Lemma trim_step t q l : t <> 0 -> trim_queue t (q :: l) =
  trim_queue (t - blen (take t q)) (match drop t q with [] => l | _ => drop t q :: l end).
Proof.
  intros N. cbn [trim_queue]. destruct (N.eqb_spec t 0) as [|_]; [contradiction|].
  pose proof (blen_drop t q) as Ld. pose proof (blen_take t q) as Lt.
  destruct (drop t q) as [|y ys] eqn:D; [reflexivity|].
  assert (Z : t - blen (take t q) = 0). { rewrite blen_cons in Ld. lia. }
  rewrite Z. reflexivity.
Qed.
Lemma trimmed now s a q l : trimming now s a -> ds_queue s = q :: l -> ds_trim s <> 0 ->
  trimming now (ds_set_queue s (ds_trim s - blen (take (ds_trim s) q)) (ds_streaming s)
    (match drop (ds_trim s) q with [] => l | _ => drop (ds_trim s) q :: l end)) a.
Proof.
  intros (T1 & T2 & T3) Q N. split; [exact T1|]. split.
  - cbn [ds_set_queue ds_trim ds_queue]. rewrite T2. reflexivity.
  - cbn [ds_set_queue ds_trim ds_queue]. now rewrite <- T3, Q, (trim_step _ _ _ N).
Qed.

Lemma reader_sim x s a shut l now : rel x s a shut -> P now -> x <> RIdle -> x <> RJoining ->
  let '(x', s', l', out) := reader_step H c ttl 0 now x s l in
  exists a', emits out a a' /\ rel x' s' a' shut /\ moves (is_inside x) l x' l'.
Proof.
  intros R Pn Ni Nj. destruct x as [|[] stamp|[]|[]| | |[|x rest]]; try contradiction; cbn [reader_step].
  - (* dating, final *)
    destruct R as (-> & a1 & Se & D). pose proof D as (D1 & D2 & q & l0 & D3 & D4).
    pose proof (final_prologue a a1 now Se) as Fp. unfold ds_prologue in Fp. rewrite D1, D3, D4 in Fp.
    destruct (test_timestamp (c_clock c) now stamp ttl BigEndian) as [[]|e] eqn:T.
    + exact (head_true s a a1 now l Se (trimming_dated stamp s a1 now D T) Pn).
    + assert (G : forall e0, e = e0 -> (forall n, e0 <> TimestampExpired n) ->
        exists a', emits [(true, Raised e0)] a a' /\ rel RIdle s a' true /\ moves true l RIdle (leave true l)).
      { intros e0 -> Ne. exists (ds_set_phase (ds_set_queue a1 (ds_trim a1) true (q :: l0)) DFailed). split; [|split; [|left; auto]].
        - right. exists (DFinal now), (Raised e0). split; [reflexivity|]. split; [|split; [now intros []|cbn; intros ? J; congruence]].
          cbn [ds_step]. rewrite Fp. destruct e0; try reflexivity. exfalso. eapply Ne. reflexivity.
        - cbn [rel fresh_phase]. split; [rewrite D2, D3; reflexivity|now right]. }
      destruct e; try (apply G; [reflexivity|intros; discriminate]).
      exists (ds_set_phase (ds_set_queue a1 (ds_trim a1) false (q :: l0)) DFailed). split; [|split; [|left; auto]].
      * right. eexists (DFinal now), _. split; [reflexivity|].
        split; [|split; [now intros []|cbn; intros ? J; congruence]]. cbn [ds_step]. now rewrite Fp.
      * cbn [rel fresh_phase]. split; [rewrite D2; cbn; now rewrite D3|now right].
  - (* dating *)
    destruct R as (D & F). pose proof D as (D1 & D2 & q & l0 & D3 & D4).
    destruct (test_timestamp (c_clock c) now stamp ttl BigEndian) as [[]|e] eqn:T.
    + exact (head_false s a now shut l (trimming_dated stamp s a now D T) Pn F).
    + assert (Fp : step (DNext now) a = match e with
        | TimestampExpired by_ => (Raised (TimestampExpired by_), ds_set_queue a (ds_trim a) false (ds_queue a))
        | _ => (Raised e, ds_set_queue a (ds_trim a) true (ds_queue a)) end).
      { cbn. unfold ds_next, ds_prologue. rewrite D1, D3, D4, T. now destruct e. }
      assert (Fr : forall b qq, fresh_phase shut (ds_set_queue a (ds_trim a) b qq)).
      { intros b qq. unfold fresh_phase in *. destruct shut; exact F. }
      assert (G : forall e0, e = e0 -> (forall n, e0 <> TimestampExpired n) ->
        exists a', emits [(false, Raised e0)] a a' /\ rel RIdle s a' shut /\ moves false l RIdle (leave false l)).
      { intros e0 -> Ne. exists (ds_set_queue a (ds_trim a) true (ds_queue a)). split; [|split; [|left; auto]].
        - right. exists (DNext now), (Raised e0). split; [reflexivity|]. split; [|split; [now intros []|cbn; intros ? J; congruence]].
          rewrite Fp. destruct e0; try reflexivity. exfalso. eapply Ne. reflexivity.
        - cbn [rel]. split; [exact D2|apply Fr]. }
      destruct e; try (apply G; [reflexivity|intros; discriminate]).
      exists (ds_set_queue a (ds_trim a) false (ds_queue a)). split; [|split; [|left; auto]].
      * right. eexists (DNext now), _. split; [reflexivity|].
        split; [exact Fp|split; [now intros []|cbn; intros ? J; congruence]].
      * cbn [rel]. split; [rewrite D2; reflexivity|apply Fr].
  - destruct R as (-> & [B1 B2] & a1 & now0 & Se & P0 & T). destruct (ds_queue s) as [|q l0] eqn:Q; [contradiction|].
    exact (head_true _ a a1 now0 l Se (trimmed now0 s a1 q l0 T Q B1) P0).
  - destruct R as ((now0 & P0 & T) & [B1 B2] & F). destruct (ds_queue s) as [|q l0] eqn:Q; [contradiction|].
    exact (head_false _ a now0 shut l (trimmed now0 s a q l0 T Q B1) P0 F).
  - destruct R as (-> & E & F). pose proof (round_true s a l now E F Pn) as R. destruct (round c true s l) as [[[x' s'] l'] out].
    destruct R as (R4 & [(rest & a' & -> & -> & R2 & R3)|(o & a' & R1 & R2 & R3)]).
    + exists a. split; [left; auto|]. split; [|exact R4]. cbn. split; [reflexivity|]. exists now, a'. split; [exact Pn|].
      split; [unfold ds_finalize; now rewrite F|exact R2].
    + exists a'. split; [|auto]. right. exists (DFinal now), o. split; [exact R1|].
      split; [cbn; unfold ds_finalize; now rewrite F|split; [now intros []|cbn; intros ? J; congruence]].
  - destruct R as (E & F & It). pose proof (round_false s a shut l E F) as R. destruct (round c false s l) as [[[x' s'] l'] out].
    destruct R as (o & a' & R1 & R2 & R3 & R4). exists a'. split; [|auto]. right. exists DMore, o.
    split; [exact R1|]. split; [cbn; unfold ds_more; now rewrite It|]. split; [now intros []|discriminate].
  - destruct R as (E & F & ->). replace (ds_session s) with (ds_session a) by (now rewrite E).
    destruct (ds_session a) as [b m] eqn:S. destruct (finalize H c b m) as [[t m']|e] eqn:Fi.
    + refine (enter_true _ a {| ds_queue := ds_queue a; ds_trim := ds_trim a; ds_streaming := ds_streaming a; ds_session := (b, m');
            ds_first := ds_first a; ds_iterating := ds_iterating a; ds_phase := DIter |} now l _ _ Pn); [|rewrite E; reflexivity].
      split; [exact F|]. exists b, m, t, m'. split; [exact S|]. split; [exact Fi|]. reflexivity.
    + exists (ds_set_phase a DFailed). split; [|split; [|left; auto]].
      * right. exists (DFinal now), (Raised e). split; [reflexivity|]. split; [|split; [now intros []|cbn; intros ? J; congruence]].
        cbn. unfold ds_finalize. now rewrite F, S, Fi.
      * cbn [rel fresh_phase]. split; [exact E|now right].
  - destruct R as (-> & now0 & a1 & P0 & R1 & R2). cbn in R1. exists (ds_set_phase a1 DDone). split; [|split; [|left; auto]].
    + right. exists (DFinal now0), Stop. split; [reflexivity|]. split; [exact R1|split; [now intros []|cbn; intros ? J; congruence]].
    + cbn [rel fresh_phase]. split; [exact R2|now left].
  - destruct R as (-> & now0 & a1 & P0 & R1 & R2). cbn in R1. exists (ds_set_phase a1 (DTail rest)).
    split; [|split; [|right; cbn; split; [discriminate|auto]]].
    + right. exists (DFinal now0), (Plain x). split; [reflexivity|]. split; [exact R1|split; [now intros []|cbn; intros ? J; congruence]].
    + cbn [rel]. split; [reflexivity|]. exists now, (ds_set_phase a1 (DTail rest)). split; [exact Pn|]. split; [reflexivity|exact R2].
Qed.

(** ** The history so far *)
Variable d0 : session.
Variable dst0 : dstream.
Hypothesis D0 : dec_inv H c d0 [] [] dst0.
Variable datas : list bytes.

Lemma ds_run_snoc : forall ops st outs st' o o' st'', ds_run H c ttl ops st = (outs, st') -> step o st' = (o', st'') ->
  ds_run H c ttl (ops ++ [o]) st = (outs ++ [o'], st'').
Proof.
  induction ops as [|p ops IH]; intros st outs st' o o' st'' R E; cbn [ds_run app] in *.
  - injection R as <- <-. now rewrite E.
  - destruct (step p st) as [p' st1]. destruct (ds_run H c ttl ops st1) as [outs1 st2] eqn:R1. injection R as <- <-.
    now rewrite (IH _ _ _ _ _ _ R1 E).
Qed.
Lemma ds_run_len : forall ops st outs st', ds_run H c ttl ops st = (outs, st') -> length ops = length outs.
Proof.
  induction ops as [|p ops IH]; intros st outs st' R; cbn [ds_run] in *; [now injection R as <- _|].
  destruct (step p st) as [p' st1]. destruct (ds_run H c ttl ops st1) as [outs1 st2] eqn:R1. injection R as <- _. cbn. f_equal. eauto.
Qed.
Lemma answers_snoc : forall ops outs o o', length ops = length outs ->
  answers (ops ++ [o]) (outs ++ [o']) = answers ops outs ++ match o with DFeed _ => [] | _ => [(is_final o, o')] end.
Proof.
  induction ops as [|p ops IH]; intros [|q outs] o o' L; try discriminate L.
  - now destruct o.
  - injection L as L. cbn [app answers]. destruct p; rewrite IH by exact L; reflexivity.
Qed.
Lemma accepted_snoc : forall ops outs o o', length ops = length outs ->
  accepted c (ops ++ [o]) (outs ++ [o']) = accepted c ops outs ++ taken c o o'.
Proof.
  induction ops as [|p ops IH]; intros [|q outs] o o' L; try discriminate L.
  - cbn. now rewrite app_nil_r.
  - injection L as L. cbn [app accepted]. now rewrite IH, app_assoc by exact L.
Qed.

Definition hist (a : dstream) (hd : list (bool * outcome)) (acc : list (bytes * bytes)) : Prop :=
  exists ops outs, ds_run H c ttl ops dst0 = (outs, a) /\ answers ops outs = hd /\ accepted c ops outs = acc /\
    (forall o', In o' outs -> o' = Done \/ In o' (map snd (answers ops outs))) /\
    forall o now, In o ops -> moment o = Some now -> P now.

Lemma hist_read a a' hd acc out : hist a hd acc -> emits out a a' -> hist a' (hd ++ out) acc.
Proof.
  intros (ops & outs & R & A & C & O & M) [(-> & ->)|(o & o' & -> & E & F & Mo)].
  - rewrite app_nil_r. exists ops, outs. auto.
  - pose proof (ds_run_len _ _ _ _ R) as L. exists (ops ++ [o]), (outs ++ [o']). split; [exact (ds_run_snoc _ _ _ _ _ _ _ R E)|].
    rewrite answers_snoc, accepted_snoc by exact L.
    assert (Z : match o with DFeed _ => [] | _ => [(is_final o, o')] end = [(is_final o, o')]).
    { destruct o; try reflexivity; now destruct F. }
    rewrite Z. split; [now rewrite A|].
    split; [rewrite C; destruct o; cbn [taken]; try (now rewrite app_nil_r); now destruct F|].
    split.
    + intros o1 J. rewrite map_app. apply in_app_or in J as [J|[<-|[]]].
      * destruct (O _ J) as [->|K]; [now left|]. right. apply in_or_app. now left.
      * right. apply in_or_app. right. now left.
    + intros p now I J. apply in_app_or in I as [I|[<-|[]]]; eauto.
Qed.
Lemma hist_feed a a' hd acc p : hist a hd acc -> step (DFeed p) a = (Done, a') -> hist a' hd (acc ++ parse c p).
Proof.
  intros (ops & outs & R & A & C & O & M) E.
  pose proof (ds_run_len _ _ _ _ R) as L. exists (ops ++ [DFeed p]), (outs ++ [Done]). split; [exact (ds_run_snoc _ _ _ _ _ _ _ R E)|].
  rewrite answers_snoc, accepted_snoc by exact L. rewrite app_nil_r. split; [exact A|]. split; [now rewrite C|]. split.
  - intros o1 J. apply in_app_or in J as [J|[<-|[]]]; [exact (O _ J)|now left].
  - intros o now I J. apply in_app_or in I as [I|[<-|[]]]; [eauto|discriminate].
Qed.
Lemma hist_inv a hd acc : hist a hd acc -> exists out, dec_inv H c d0 acc out a.
Proof.
  intros (ops & outs & R & A & C & _ & M). exists (released outs).
  pose proof (drun_inv H c XL VC VI d0 ttl ops [] [] dst0 outs a D0 R) as D. cbn [app] in D. now rewrite C in D.
Qed.

(** ** One receiver *)
Definition queued (s : dstream) (pt : bytes) (ss : session) : dstream :=
  {| ds_queue := ds_queue s ++ [pt]; ds_trim := ds_trim s; ds_streaming := ds_streaming s;
     ds_session := ss; ds_first := false; ds_iterating := ds_iterating s; ds_phase := ds_phase s |}.
Lemma feed_one a i b pt ss : blen i = bid -> blen b = bs -> ds_phase a = DOpen ->
  test_next_block_id H c (snd (ds_session a)) i b [] = Ok tt ->
  transform H c Decryption (ds_first a) (ds_session a) b = Ok (pt, ss) ->
  step (DFeed (i ++ b)) a = (Done, queued a pt ss).
Proof.
  intros Li Lb F T1 T2. cbn [ds_step]. unfold ds_feed. rewrite F, blen_app, Li, Lb.
  destruct VI as (V1 & V2 & _ & _). pose proof (blocksize_pos H c VC) as Bp.
  replace (bid + bs =? 0) with false by lia. unfold packetsize. rewrite N.mod_same by lia. cbn [orb negb N.eqb].
  assert (Ln : exists n, length (i ++ b) = Datatypes.S n).
  { rewrite app_length. unfold blen in Li. destruct (length i) eqn:L; [|cbn; eauto]. exfalso. lia. }
  destruct Ln as [n Ln]. rewrite Ln. cbn [ds_digest].
  assert (E1 : take bid (i ++ b) = i) by (rewrite take_app; auto).
  assert (E2 : drop bid (i ++ b) = b) by (rewrite drop_app; auto).
  assert (E3 : take bs b = b) by (rewrite <- (app_nil_r b) at 1; now rewrite take_app).
  assert (E4 : drop bs b = []) by (rewrite <- (app_nil_r b) at 1; now rewrite drop_app).
  rewrite E1, E2, E3, E4, T1, T2. destruct i as [|i0 i1]; [cbn in Li; unfold blen in Li; cbn in Li; lia|].
  rewrite digest_nil. reflexivity.
Qed.

Lemma queued_rel x s a shut pt ss : rel x s a shut -> is_inside x = false -> ds_phase a = DOpen ->
  rel x (queued s pt ss) (queued a pt ss) shut.
Proof.
  intros R I F. destruct x as [|[] stamp|[]|[]| | |rest]; try discriminate I; cbn [rel] in *.
  - destruct R as [-> R]. split; [reflexivity|exact R].
  - destruct R as ((R1 & -> & q & l & R2 & R3) & R4). split; [|exact R4]. split; [exact R1|]. split; [reflexivity|].
    exists q, (l ++ [pt]). cbn. rewrite R2. auto.
  - destruct R as ((now & Pn & C & E & T) & [B1 B2] & R4). split; [|split; [split; [exact B1|]|exact R4]].
    + exists now. split; [exact Pn|]. split; [|split].
      * destruct C as [C|(C & q & l & C1 & C2)]; [now left|]. right. split; [exact C|]. exists q, (l ++ [pt]). cbn. rewrite C1. auto.
      * cbn. unfold queued. rewrite E at 1 2 3. cbn. destruct a; cbn in *. rewrite E. reflexivity.
      * cbn. now apply trim_snoc_eq.
    + cbn. intros X. now destruct (ds_queue s).
  - destruct R as (-> & R). split; [reflexivity|exact R].
  - destruct R as (-> & R). split; [reflexivity|exact R].
Qed.

Lemma rel_session x s a shut : rel x s a shut -> is_inside x = false -> ds_session s = ds_session a /\ ds_first s = ds_first a.
Proof.
  intros R I. destruct x as [|[] stamp|[]|[]| | |rest]; try discriminate I; cbn [rel] in R.
  - destruct R as [-> R]. auto.
  - destruct R as ((R1 & -> & R2) & R4). auto.
  - destruct R as ((now & Pn & C & E & T) & B & R4). rewrite E. auto.
  - destruct R as (-> & R). auto.
  - destruct R as (-> & R). auto.
Qed.
Lemma rel_open x s a : rel x s a false -> ds_phase a = DOpen /\ is_inside x = false.
Proof.
  destruct x as [|[] stamp|[]|[]| | |rest]; cbn; intuition discriminate.
Qed.

(** ** All tasks together *)
Definition good (k : nat) : bool :=
  match nth_error datas k with Some d => negb ((blen d =? 0) || negb (blen d mod ps =? 0)) | None => false end.
Local Notation lined := (filter good).
Local Notation took := (took c datas).
Local Notation feeds := FeedProofs.feeds.

Definition closer_at (x : reader) (l : list who) : Prop :=
  match x with
  | RJoining => In (Closes 0) l
  | _ => if is_inside x then hd_error l = Some (Closes 0) else ~ In (Closes 0) l
  end.
(** A receiver with a packet at hand. *)
Definition at_hand (k : nat) (i b rem : bytes) (a : dstream) (l : list who) : Prop :=
  hd_error l = Some (Feeds k) /\ ds_phase a = DOpen /\
  exists data pre, nth_error datas k = Some data /\ data = pre ++ i ++ b ++ rem /\ blen pre mod ps = 0 /\
    blen i = bid /\ blen b = bs /\ blen rem mod ps = 0.
Definition recv_ok (calls ended : list nat) (k : nat) (f : receiver) (a : dstream) (l : list who) : Prop :=
  match f with
  | RFresh d => ~ In k calls /\ nth_error datas k = Some d
  | RWaiting d => In k (feeds l) /\ nth_error datas k = Some d
  | RTesting i b rem => at_hand k i b rem a l
  | RDeciphering i b rem => at_hand k i b rem a l /\ test_next_block_id H c (snd (ds_session a)) i b [] = Ok tt
  | REnded o => In k calls /\
      if good k then In k ended /\ (o = Done \/ o = Raised CipherStreamIsClosed \/ exists i b rest, o = Refused i b rest)
      else o = Raised InvalidLength
  | RGone => False
  end.

Record rinv (calls ended : list nat) (x : reader) (a : dstream) (y : channel) : Prop := {
  n_len : length (receivers y) = length datas;
  n_read : readers y = [x];
  n_alive : alive y = true;
  n_calls : lined calls = ended ++ feeds (waiters y);
  n_nodup : NoDup calls;
  n_recv : forall k f, nth_error (receivers y) k = Some f -> recv_ok calls ended k f a (waiters y);
  n_closer : closer_at x (waiters y);
  n_who : forall j, In (Closes j) (waiters y) -> j = 0%nat;
  n_line : NoDup (waiters y);
  n_rel : rel x (inbox y) a (closing y);
  n_hist : hist a (heard y) (concat (map (took y) calls));
}.

Lemma rinv_start : ds_phase dst0 = DOpen -> rinv [] [] RIdle dst0 (rstarted dst0 datas 1).
Proof.
  intros F. constructor; cbn [rstarted receivers readers alive waiters inbox closing heard].
  - apply map_length.
  - reflexivity.
  - reflexivity.
  - reflexivity.
  - constructor.
  - intros k f E. rewrite nth_error_map in E. destruct (nth_error datas k) as [d|] eqn:Ed; [|discriminate].
    injection E as <-. cbn. split; [intros []|exact Ed].
  - intros [].
  - intros j [].
  - constructor.
  - cbn. split; [|exact F]. unfold plain, ds_set_phase. destruct dst0; cbn in *. now subst.
  - exists [], []. split; [reflexivity|]. split; [reflexivity|]. split; [reflexivity|]. split; [intros o []|intros o now []].
Qed.

Lemma filter_split {A} (f : A -> bool) k : forall l a b, filter f l = a ++ k :: b ->
  exists l1 l2, l = l1 ++ k :: l2 /\ filter f l1 = a /\ filter f l2 = b.
Proof.
  induction l as [|z l IH]; intros a b E; cbn in E; [now destruct a|]. destruct (f z) eqn:F.
  - destruct a as [|y a]; injection E as -> E.
    + exists [], l. auto.
    + destruct (IH _ _ E) as (l1 & l2 & -> & E1 & E2). exists (y :: l1), l2. cbn. rewrite F, E1. auto.
  - destruct (IH _ _ E) as (l1 & l2 & -> & E1 & E2). exists (z :: l1), l2. cbn. rewrite F, E1. auto.
Qed.

Lemma front calls ended x a y k rest : rinv calls ended x a y -> waiters y = Feeds k :: rest ->
  In k calls /\ good k = true /\ ~ In k ended /\ ~ In k (feeds rest) /\
  exists c1 c2, calls = c1 ++ k :: c2 /\ ~ In k c1 /\ forall j, In j c2 -> took y j = [].
Proof.
  intros I E. pose proof (n_calls _ _ _ _ _ I) as C. rewrite E in C. cbn [feeds flat_map app] in C. fold (feeds rest) in C.
  assert (In k (lined calls)) as J by (rewrite C; apply in_or_app; right; now left).
  apply filter_In in J as [J1 J2]. split; [exact J1|]. split; [exact J2|].
  pose proof (NoDup_filter good (n_nodup _ _ _ _ _ I)) as N. rewrite C in N. apply NoDup_remove_2 in N as N2. rewrite in_app_iff in N2.
  split; [tauto|]. split; [tauto|]. destruct (filter_split good k calls _ _ C) as (c1 & c2 & Ec & E1 & E2).
  exists c1, c2. split; [exact Ec|]. pose proof (n_nodup _ _ _ _ _ I) as Nc. rewrite Ec in Nc. apply NoDup_remove_2 in Nc. rewrite in_app_iff in Nc.
  split; [tauto|]. intros j Jc. unfold ReceiveSpec.took. destruct (nth_error datas j) as [d|] eqn:Ed; [|reflexivity].
  destruct (nth_error (receivers y) j) as [f|] eqn:Q; [|reflexivity].
  pose proof (n_recv _ _ _ _ _ I j f Q) as R. rewrite E in R.
  assert (Nj : j <> k) by (intros ->; tauto).
  assert (Gj : good j = true -> ~ In j ended).
  { intros G Z. assert (Jr : In j (feeds rest)) by (rewrite <- E2; now apply filter_In).
    clear - Nj N Z Jr. induction ended as [|w ended IH]; [destruct Z|].
    cbn in N. apply NoDup_cons_iff in N as [N1 N3]. destruct Z as [->|Z]; [|now apply IH].
    apply N1, in_or_app. right. now right. }
  destruct f as [d'|d'|i b rem|i b rem|o|]; cbn in R; try reflexivity.
  - exfalso. destruct R as (R & _). cbn in R. injection R as R. congruence.
  - exfalso. destruct R as ((R & _) & _). cbn in R. injection R as R. congruence.
  - destruct R as (_ & R). destruct (good j) eqn:G; [destruct R as [R _]; now destruct (Gj eq_refl)|]. now rewrite R.
Qed.

(** What the receiver in front takes in comes last. *)
Lemma took_more calls ended x a y k rest f f' y' delta : rinv calls ended x a y -> waiters y = Feeds k :: rest ->
  nth_error (receivers y) k = Some f -> receivers y' = replace k f' (receivers y) -> took y' k = took y k ++ delta ->
  concat (map (took y') calls) = concat (map (took y) calls) ++ delta.
Proof.
  intros I E Q Ey Ed. destruct (front _ _ _ _ _ _ _ I E) as (_ & _ & _ & _ & c1 & c2 & Ec & N1 & Z).
  assert (O : forall j, j <> k -> took y' j = took y j).
  { intros j Nj. unfold ReceiveSpec.took. rewrite Ey, nth_others by congruence. reflexivity. }
  assert (Nc : ~ In k c2).
  { pose proof (n_nodup _ _ _ _ _ I) as Nc. rewrite Ec in Nc. apply NoDup_remove_2 in Nc. rewrite in_app_iff in Nc. tauto. }
  rewrite Ec, !map_app, !concat_app. cbn [map concat]. rewrite Ed.
  replace (map (took y') c1) with (map (took y) c1).
  2:{ apply map_ext_in. intros j J. symmetry. apply O. congruence. }
  assert (Z2 : forall w, (forall j, In j c2 -> took w j = []) -> concat (map (took w) c2) = []).
  { intros w. clear. induction c2 as [|j c2 IH]; intros Zw; [reflexivity|]. cbn. rewrite Zw by now left. apply IH.
    intros i J. apply Zw. now right. }
  rewrite (Z2 y Z), (Z2 y'); [now rewrite !app_nil_r, app_assoc|].
  intros j J. rewrite O; [now apply Z|congruence].
Qed.

Lemma not_active calls ended k j g a l : recv_ok calls ended j g a l -> hd_error l = Some (Feeds k) -> j <> k ->
  forall a', recv_ok calls ended j g a' l.
Proof.
  intros R E N a'. destruct g; cbn in R |- *; try exact R; exfalso.
  - destruct R as (R & _). congruence.
  - destruct R as ((R & _) & _). congruence.
Qed.
Lemma rel_outside calls ended x a y k rest : rinv calls ended x a y -> waiters y = Feeds k :: rest -> is_inside x = false.
Proof.
  intros I E. pose proof (n_closer _ _ _ _ _ I) as C. rewrite E in C. unfold closer_at in C.
  destruct (is_inside x) eqn:B; [|reflexivity]. destruct x; try discriminate C; discriminate B.
Qed.

Definition with_receiver (y : channel) (k : nat) (f : receiver) (s : dstream) (l : list who) : channel :=
  {| inbox := s; alive := alive y; closing := closing y; waiters := l;
     receivers := replace k f (receivers y); readers := readers y; heard := heard y |}.

Lemma rstay calls ended x a y k rest f f' s' a' : rinv calls ended x a y -> waiters y = Feeds k :: rest ->
  nth_error (receivers y) k = Some f -> recv_ok calls ended k f' a' (waiters y) -> rel x s' a' (closing y) ->
  hist a' (heard y) (concat (map (took (with_receiver y k f' s' (waiters y))) calls)) ->
  rinv calls ended x a' (with_receiver y k f' s' (waiters y)).
Proof.
  intros I E Q R Re Hi. constructor; cbn [with_receiver receivers readers alive waiters inbox closing heard]; try apply I.
  - rewrite length_replace. apply (n_len _ _ _ _ _ I).
  - intros j g. rewrite nth_replace. destruct (Nat.eqb_spec k j) as [<-|N].
    + rewrite Q. intros G. injection G as <-. exact R.
    + intros G. apply (not_active calls ended k j g a); [exact (n_recv _ _ _ _ _ I j g G)|now rewrite E|congruence].
  - exact Re.
  - exact Hi.
Qed.

Lemma rleave calls ended x a y k rest f o s' a' : rinv calls ended x a y -> waiters y = Feeds k :: rest ->
  nth_error (receivers y) k = Some f ->
  (o = Done \/ o = Raised CipherStreamIsClosed \/ exists i b rest, o = Refused i b rest) ->
  rel x s' a' (closing y) ->
  hist a' (heard y) (concat (map (took (with_receiver y k (REnded o) s' rest)) calls)) ->
  rinv calls (ended ++ [k]) x a' (with_receiver y k (REnded o) s' rest).
Proof.
  intros I E Q Ho Re Hi. destruct (front _ _ _ _ _ _ _ I E) as (K1 & K2 & K3 & K4 & _).
  pose proof (n_line _ _ _ _ _ I) as Nl. rewrite E in Nl. apply NoDup_cons_iff in Nl as [Nl1 Nl2].
  constructor; cbn [with_receiver receivers readers alive waiters inbox closing heard]; try apply I.
  - rewrite length_replace. apply (n_len _ _ _ _ _ I).
  - rewrite (n_calls _ _ _ _ _ I), E. cbn. now rewrite <- app_assoc.
  - intros j g. rewrite nth_replace. destruct (Nat.eqb_spec k j) as [<-|N].
    + rewrite Q. intros G. injection G as <-. cbn. rewrite K2. split; [exact K1|]. split; [apply in_or_app; right; now left|exact Ho].
    + intros G. pose proof (n_recv _ _ _ _ _ I j g G) as R. rewrite E in R. destruct g; cbn in R |- *.
      * exact R.
      * destruct R as [R1 R2]. split; [|exact R2]. destruct R1 as [R1|R1]; [congruence|exact R1].
      * exfalso. destruct R as (R & _). cbn in R. congruence.
      * exfalso. destruct R as ((R & _) & _). cbn in R. congruence.
      * destruct R as [R1 R2]. split; [exact R1|]. destruct (good j); [|exact R2]. destruct R2 as [R2 R3]. split; [apply in_or_app; now left|exact R3].
      * exact R.
  - pose proof (n_closer _ _ _ _ _ I) as C. pose proof (rel_outside _ _ _ _ _ _ _ I E) as O. rewrite E in C.
    assert (C' : match x with RJoining => In (Closes 0) (Feeds k :: rest) | _ => ~ In (Closes 0) (Feeds k :: rest) end).
    { unfold closer_at in C. rewrite O in C. exact C. }
    unfold closer_at. rewrite O. destruct x; try (intros X; apply C'; now right).
    destruct C' as [C'|C']; [discriminate|exact C'].
  - intros j J. apply (n_who _ _ _ _ _ I). rewrite E. now right.
  - exact Nl2.
  - exact Re.
  - exact Hi.
Qed.

Lemma taken_refused (pre i b rem : bytes) : taken c (DFeed (pre ++ i ++ b ++ rem)) (Refused i b rem) = parse c pre.
Proof.
  cbn [taken]. rewrite !blen_app.
  replace (blen pre + (blen i + (blen b + blen rem)) - (blen i + blen b + blen rem)) with (blen pre) by lia.
  now rewrite take_app.
Qed.

(** The next packet, or the end of the call. *)
Lemma next_ok calls ended k data pre rem a l : hd_error l = Some (Feeds k) -> ds_phase a = DOpen ->
  nth_error datas k = Some data -> data = pre ++ rem -> blen pre mod ps = 0 -> blen rem mod ps = 0 ->
  let '(f', l') := next_packet c rem l in
  (f' = REnded Done /\ l' = tl l /\ parse c data = parse c pre) \/
  (l' = l /\ recv_ok calls ended k f' a l /\ exists i b rem', f' = RTesting i b rem' /\ data = pre ++ i ++ b ++ rem').
Proof.
  intros Hl F Ed E Mp Mr. unfold next_packet. destruct rem as [|r0 rem0].
  - replace (take bid []) with (@nil byte) by (rewrite take_firstn; now rewrite firstn_nil).
    left. rewrite E, app_nil_r. auto.
  - destruct (first_packet H c XL VC VI (r0 :: rem0) ltac:(discriminate) Mr) as (i & b & rest & E0 & Li & Lb & Mrest & Ti & Di & Tb & Db).
    rewrite Ti, Di, Tb, Db. destruct i as [|i0 i1].
    { exfalso. pose proof (bid_pos c VI). unfold blen in Li. cbn in Li. lia. }
    right. split; [reflexivity|]. rewrite E0 in E. split.
    + cbn [recv_ok]. split; [exact Hl|]. split; [exact F|]. exists data, pre. auto 10.
    + eexists _, _, _. split; [reflexivity|exact E].
Qed.

Lemma took_at y k f s l data : nth_error datas k = Some data -> nth_error (receivers y) k <> None ->
  took (with_receiver y k f s l) k =
  match f with
  | REnded o => taken c (DFeed data) o
  | RTesting i b rem | RDeciphering i b rem => taken c (DFeed data) (Refused i b rem)
  | _ => []
  end.
Proof.
  intros E N. unfold ReceiveSpec.took. cbn [with_receiver receivers]. rewrite E, nth_replace, Nat.eqb_refl.
  destruct (nth_error (receivers y) k) as [g|]; [|congruence]. now destruct f.
Qed.
Lemma took_now y k data : nth_error datas k = Some data -> took y k =
  match nth_error (receivers y) k with
  | Some (REnded o) => taken c (DFeed data) o
  | Some (RTesting i b rem) | Some (RDeciphering i b rem) => taken c (DFeed data) (Refused i b rem)
  | _ => []
  end.
Proof. intros E. unfold ReceiveSpec.took. now rewrite E. Qed.
Lemma took_others y y' k f' calls : receivers y' = replace k f' (receivers y) -> ~ In k calls ->
  map (took y') calls = map (took y) calls.
Proof.
  intros E N. apply map_ext_in. intros j J. unfold ReceiveSpec.took. rewrite E, nth_others; [reflexivity|congruence].
Qed.

(** A receiver makes its call. *)
Lemma rarrive calls ended x a y k d f' : rinv calls ended x a y -> nth_error (receivers y) k = Some (RFresh d) ->
  (good k = true /\ f' = RWaiting d \/ good k = false /\ f' = REnded (Raised InvalidLength)) ->
  rinv (calls ++ [k]) ended x a (with_receiver y k f' (inbox y) (waiters y ++ if good k then [Feeds k] else [])).
Proof.
  intros I Q Ok_. pose proof (n_recv _ _ _ _ _ I k _ Q) as [P1 P2].
  assert (Nf : ~ In k (feeds (waiters y))).
  { intros X. apply P1. assert (In k (lined calls)) as Y by (rewrite (n_calls _ _ _ _ _ I); apply in_or_app; now right).
    now apply filter_In in Y. }
  assert (Nl : ~ In (Feeds k) (waiters y)) by (now rewrite <- in_feeds).
  constructor; cbn [with_receiver receivers readers alive waiters inbox closing heard]; try apply I.
  - rewrite length_replace. apply (n_len _ _ _ _ _ I).
  - rewrite filter_app, (n_calls _ _ _ _ _ I), feeds_app. cbn [filter]. destruct (good k); cbn; now rewrite !app_assoc, ?app_nil_r.
  - apply NoDup_snoc; [apply (n_nodup _ _ _ _ _ I)|exact P1].
  - intros j g. rewrite nth_replace. destruct (Nat.eqb_spec k j) as [<-|N].
    + rewrite Q. intros G. injection G as <-. destruct Ok_ as [[G ->]|[G ->]]; cbn; rewrite G.
      * split; [|exact P2]. rewrite feeds_app. apply in_or_app. right. now left.
      * split; [apply in_or_app; right; now left|reflexivity].
    + intros G. pose proof (n_recv _ _ _ _ _ I j g G) as R. destruct g; cbn in R |- *.
      * destruct R as [R1 R2]. split; [|exact R2]. intros X. apply in_app_or in X as [X|[X|[]]]; congruence.
      * destruct R as [R1 R2]. split; [|exact R2]. rewrite feeds_app. apply in_or_app. now left.
      * destruct R as (R1 & R2). split; [|exact R2]. destruct (waiters y); [discriminate|exact R1].
      * destruct R as ((R1 & R2) & R3). split; [|exact R3]. split; [|exact R2]. destruct (waiters y); [discriminate|exact R1].
      * destruct R as [R1 R2]. split; [apply in_or_app; now left|exact R2].
      * exact R.
  - pose proof (n_closer _ _ _ _ _ I) as C.
    assert (Cn : ~ In (Closes 0) (waiters y) -> ~ In (Closes 0) (waiters y ++ if good k then [Feeds k] else [])).
    { intros X J. apply in_app_or in J as [J|J]; [tauto|]. destruct (good k); [destruct J as [J|[]]; discriminate|destruct J]. }
    assert (Ch : hd_error (waiters y) = Some (Closes 0) -> hd_error (waiters y ++ if good k then [Feeds k] else []) = Some (Closes 0)).
    { destruct (waiters y); [discriminate|exact (fun x => x)]. }
    destruct x as [|[]|[]|[]| | |]; cbn in C |- *; auto. apply in_or_app. now left.
  - intros j J. apply in_app_or in J as [J|J]; [now apply (n_who _ _ _ _ _ I)|].
    destruct (good k); [destruct J as [J|[]]; discriminate|destruct J].
  - destruct (good k); [|rewrite app_nil_r; apply (n_line _ _ _ _ _ I)].
    apply NoDup_snoc; [apply (n_line _ _ _ _ _ I)|exact Nl].
  - rewrite map_app, concat_app.
    erewrite (took_others y) by (reflexivity || exact P1). cbn [map concat].
    rewrite (took_at y k _ _ _ d P2) by congruence. replace (match f' with REnded o => taken c (DFeed d) o
      | RTesting i b rem | RDeciphering i b rem => taken c (DFeed d) (Refused i b rem) | _ => [] end) with (@nil (bytes * bytes)).
    + rewrite !app_nil_r. apply (n_hist _ _ _ _ _ I).
    + destruct Ok_ as [[_ ->]|[_ ->]]; reflexivity.
Qed.

Lemma same_receiver y k f : nth_error (receivers y) k = Some f ->
  with_receiver y k f (inbox y) (waiters y) = y.
Proof.
  intros Q. unfold with_receiver. replace (replace k f (receivers y)) with (receivers y); [now destruct y|].
  clear -Q. revert Q. unfold replace. generalize (receivers y) as l. intros l. revert k.
  induction l as [|g l IH]; intros [|i] Q; cbn in Q |- *; try discriminate; [congruence|]. f_equal. now apply IH.
Qed.

Lemma receiver_rinv calls ended x a y k f : rinv calls ended x a y -> nth_error (receivers y) k = Some f ->
  exists ended' a', rinv (calls ++ match f with RFresh _ => [k] | _ => [] end) ended' x a' (rproceed H c ttl (Receiver k) y).
Proof.
  intros I Q. pose proof (n_recv _ _ _ _ _ I k f Q) as Rk.
  assert (G : rproceed H c ttl (Receiver k) y =
    let '(f', s', l') := receiver_step H c k f (inbox y) (alive y) (closing y) (waiters y) in with_receiver y k f' s' l').
  { cbn [rproceed]. rewrite Q. now destruct (receiver_step H c k f (inbox y) (alive y) (closing y) (waiters y)) as [[f' s'] l']. }
  rewrite G, (n_alive _ _ _ _ _ I). clear G.
  assert (Same : rinv calls ended x a (with_receiver y k f (inbox y) (waiters y))) by (now rewrite (same_receiver _ _ _ Q)).
  destruct f as [d|d|i b rem|i b rem|o|]; cbn [receiver_step]; [| | | |rewrite app_nil_r; eauto|destruct Rk].
  - (* calls *)
    destruct Rk as [P1 P2]. exists ended, a.
    assert (Gk : good k = negb ((blen d =? 0) || negb (blen d mod ps =? 0))) by (unfold good; now rewrite P2).
    destruct ((blen d =? 0) || negb (blen d mod ps =? 0)) eqn:B; cbn in Gk.
    + pose proof (rarrive _ _ _ _ _ _ _ (REnded (Raised InvalidLength)) I Q (or_intror (conj Gk eq_refl))) as A.
      rewrite Gk, app_nil_r in A. exact A.
    + pose proof (rarrive _ _ _ _ _ _ _ (RWaiting d) I Q (or_introl (conj Gk eq_refl))) as A. rewrite Gk in A. exact A.
  - (* enters *)
    rewrite app_nil_r. destruct (waiters y) as [|[h|h] rest] eqn:El; [eauto| |eauto].
    destruct (Nat.eqb_spec h k) as [->|N]; [|eauto]. destruct Rk as [P1 P2].
    destruct (front _ _ _ _ _ _ _ I El) as (K1 & K2 & K3 & K4 & _).
    assert (Tn : forall f' s' l', match f' with REnded o => taken c (DFeed d) o
      | RTesting i b rem | RDeciphering i b rem => taken c (DFeed d) (Refused i b rem) | _ => [] end = [] ->
      concat (map (took (with_receiver y k f' s' l')) calls) = concat (map (took y) calls)).
    { intros f' s' l' Z. rewrite <- (app_nil_r (concat (map (took y) calls))).
      apply (took_more calls ended x a y k rest (RWaiting d) f'); auto.
      rewrite (took_at y k _ _ _ d P2) by congruence. rewrite (took_now y k d P2), Q, app_nil_r. exact Z. }
    destruct (closing y) eqn:Cl.
    + exists (ended ++ [k]), a. apply (rleave calls ended x a y k rest (RWaiting d)); auto.
      * apply (n_rel _ _ _ _ _ I).
      * rewrite Tn by reflexivity. apply (n_hist _ _ _ _ _ I).
    + pose proof (n_rel _ _ _ _ _ I) as R. rewrite Cl in R. destruct (rel_open _ _ _ R) as [Ph _].
      assert (Md : blen d mod ps = 0). { unfold good in K2. rewrite P2 in K2. destruct (N.eqb_spec (blen d mod ps) 0); [assumption|].
        exfalso. cbn in K2. rewrite orb_true_r in K2. discriminate. }
      pose proof (next_ok calls ended k d [] d a (Feeds k :: rest) eq_refl Ph P2 eq_refl) as Nx.
      assert (M0 : blen (@nil byte) mod ps = 0) by reflexivity. specialize (Nx M0 Md).
      destruct (next_packet c d (Feeds k :: rest)) as [f' l']. rewrite <- Cl in R.
      destruct Nx as [(-> & -> & Nx)|(-> & Nx & i & b & rem & -> & Ed)].
      * exists (ended ++ [k]), a. apply (rleave calls ended x a y k rest (RWaiting d)); auto.
        rewrite Tn; [apply (n_hist _ _ _ _ _ I)|]. cbn [taken]. rewrite Nx. apply parse_nil.
      * exists ended, a. rewrite <- El in Nx |- *. apply (rstay calls ended x a y k rest (RWaiting d)); auto.
        rewrite Tn; [apply (n_hist _ _ _ _ _ I)|]. rewrite Ed, taken_refused. apply parse_nil.
  - (* tests *)
    rewrite app_nil_r. pose proof Rk as (P1 & Ph & data & pre & P2 & Ed & Mp & Li & Lb & Mr).
    destruct (waiters y) as [|w rest] eqn:El; [discriminate|]. cbn in P1. injection P1 as ->.
    pose proof (rel_outside _ _ _ _ _ _ _ I El) as O.
    destruct (rel_session _ _ _ _ (n_rel _ _ _ _ _ I) O) as [Se Sf]. rewrite Se.
    destruct (hist_inv _ _ _ (n_hist _ _ _ _ _ I)) as (out & Di).
    destruct (test_id_ok H c XL VC VI (snd (ds_session a)) b i (inv_open H c _ _ _ _ Di Ph) Li Lb) as (i' & Ti & Tt).
    assert (Tn : forall f' s' l', (f' = REnded (Refused i b rem) \/ f' = RDeciphering i b rem) ->
      concat (map (took (with_receiver y k f' s' l')) calls) = concat (map (took y) calls)).
    { intros f' s' l' Z. rewrite <- (app_nil_r (concat (map (took y) calls))).
      apply (took_more calls ended x a y k rest (RTesting i b rem) f'); auto.
      rewrite (took_at y k _ _ _ data P2) by congruence. rewrite (took_now y k data P2), Q, app_nil_r.
      destruct Z as [->| ->]; reflexivity. }
    destruct (test_next_block_id H c (snd (ds_session a)) i b []) as [u|e] eqn:T.
    + exists ended, a. rewrite <- El. apply (rstay calls ended x a y k rest (RTesting i b rem)); auto; [|apply (n_rel _ _ _ _ _ I)|].
      * rewrite El. cbn [recv_ok]. split; [exact Rk|]. rewrite T. now destruct u.
      * rewrite Tn by auto. apply (n_hist _ _ _ _ _ I).
    + destruct (bytes_eqb i i'); [discriminate|]. injection Tt as ->.
      exists (ended ++ [k]), a. cbn [tl]. apply (rleave calls ended x a y k rest (RTesting i b rem)); auto.
      * right. right. eauto.
      * apply (n_rel _ _ _ _ _ I).
      * rewrite Tn by auto. apply (n_hist _ _ _ _ _ I).
  - (* deciphers *)
    rewrite app_nil_r. pose proof Rk as ((P1 & Ph & data & pre & P2 & Ed & Mp & Li & Lb & Mr) & T).
    destruct (waiters y) as [|w rest] eqn:El; [discriminate|]. cbn in P1. injection P1 as ->.
    pose proof (rel_outside _ _ _ _ _ _ _ I El) as O.
    destruct (rel_session _ _ _ _ (n_rel _ _ _ _ _ I) O) as [Se Sf]. rewrite Se, Sf.
    destruct (hist_inv _ _ _ (n_hist _ _ _ _ _ I)) as (out & Di).
    destruct (test_id_ok H c XL VC VI (snd (ds_session a)) b i (inv_open H c _ _ _ _ Di Ph) Li Lb) as (i' & Ti & Tt).
    rewrite T in Tt. destruct (bytes_eqb i i') eqn:Eb; [|discriminate]. apply bytes_eqb_eq in Eb. subst i'.
    destruct (accept_one H c XL VC _ _ _ _ _ _ Di Ph Li Lb Ti) as (pt & ss & Tr & _). rewrite Tr.
    pose proof (feed_one a i b pt ss Li Lb Ph T Tr) as Fo.
    pose proof (queued_rel _ _ _ _ pt ss (n_rel _ _ _ _ _ I) O Ph) as Qr.
    pose proof (hist_feed _ _ _ _ _ (n_hist _ _ _ _ _ I) Fo) as Hf.
    assert (Ed' : data = (pre ++ i ++ b) ++ rem) by (rewrite Ed, <- !app_assoc; reflexivity).
    assert (Mp' : blen (pre ++ i ++ b) mod ps = 0).
    { rewrite !blen_app, Li, Lb. fold (packetsize c). apply N.mod_divide in Mp as [q Mp]; [|pose proof (ps_pos H c VC); lia].
      rewrite Mp. replace (q * ps + ps) with ((q + 1) * ps) by lia. apply N.mod_mul. pose proof (ps_pos H c VC). lia. }
    assert (Ep : parse c (pre ++ i ++ b) = parse c pre ++ parse c (i ++ b)) by (now apply (parse_app H c VC)).
    assert (Tn : forall f' s' l', match f' with REnded o => taken c (DFeed data) o
      | RTesting i b rem | RDeciphering i b rem => taken c (DFeed data) (Refused i b rem) | _ => [] end = parse c (pre ++ i ++ b) ->
      concat (map (took (with_receiver y k f' s' l')) calls) = concat (map (took y) calls) ++ parse c (i ++ b)).
    { intros f' s' l' Z.
      apply (took_more calls ended x a y k rest (RDeciphering i b rem) f'); auto.
      rewrite (took_at y k _ _ _ data P2) by congruence. rewrite Z, (took_now y k data P2), Q, Ep. f_equal.
      rewrite Ed. symmetry. apply taken_refused. }
    pose proof (next_ok calls ended k data (pre ++ i ++ b) rem (queued a pt ss) (Feeds k :: rest) eq_refl Ph P2 Ed' Mp' Mr) as Nx.
    fold (queued (inbox y) pt ss).
    destruct (next_packet c rem (Feeds k :: rest)) as [f' l'].
    destruct Nx as [(-> & -> & Nx)|(-> & Nx & i1 & b1 & rem1 & -> & Ed1)].
    + exists (ended ++ [k]), (queued a pt ss). apply (rleave calls ended x a y k rest (RDeciphering i b rem)); auto.
      rewrite Tn; [exact Hf|]. cbn [taken]. exact Nx.
    + exists ended, (queued a pt ss). rewrite <- El in Nx |- *. apply (rstay calls ended x a y k rest (RDeciphering i b rem)); auto.
      rewrite Tn; [exact Hf|]. rewrite Ed1. apply taken_refused.
Qed.

(** ** The reader *)
Lemma round_session final s l : ds_session (snd (fst (fst (round c final s l)))) = ds_session s.
Proof.
  unfold round, ds_loop. destruct (ds_queue s) as [|q queue] eqn:Q.
  - destruct final; [|reflexivity]. now rewrite Q.
  - destruct (min_stream_queue c <? blen (q :: queue)); [reflexivity|]. destruct final; [|reflexivity].
    destruct (split_last (ds_queue s)) as [[]|]; reflexivity.
Qed.
Lemma head_session final s l : ds_session (snd (fst (fst (head c final s l)))) = ds_session s.
Proof. unfold head. destruct (negb (ds_trim s =? 0) && negb (blen (ds_queue s) =? 0)); [reflexivity|apply round_session]. Qed.
Lemma enter_session final s l : ds_session (snd (fst (fst (enter c final s l)))) = ds_session s.
Proof.
  unfold enter. destruct (ds_streaming s); [apply head_session|]. cbn [ds_set_queue ds_queue]. now destruct (ds_queue s).
Qed.
Lemma reader_session now x s l : is_inside x = false -> ds_session (snd (fst (fst (reader_step H c ttl 0 now x s l)))) = ds_session s.
Proof.
  intros O. destruct x as [|[] stamp|[]|[]| | |rest]; try discriminate O; cbn [reader_step]; try reflexivity.
  - destruct (test_timestamp (c_clock c) now stamp ttl BigEndian) as [u|[]]; try reflexivity. apply head_session.
  - destruct (ds_queue s) as [|q queue]; [reflexivity|]. cbv zeta. rewrite head_session. reflexivity.
  - apply round_session.
  - destruct l as [|[]]; reflexivity.
Qed.

Lemma rread calls ended x a y x' s' l' out a' : rinv calls ended x a y -> x <> RJoining -> emits out a a' ->
  rel x' s' a' (closing y) -> moves (is_inside x) (waiters y) x' l' ->
  (is_inside x = false -> ds_session s' = ds_session (inbox y)) ->
  rinv calls ended x' a' {| inbox := s'; alive := alive y; closing := closing y; waiters := l'; receivers := receivers y;
    readers := [x']; heard := heard y ++ out |}.
Proof.
  intros I Nj Em R M Se. pose proof (n_closer _ _ _ _ _ I) as C. pose proof (n_line _ _ _ _ _ I) as Nl.
  assert (Cx : if is_inside x then hd_error (waiters y) = Some (Closes 0) else ~ In (Closes 0) (waiters y)).
  { destruct x as [|[]|[]|[]| | |]; try exact C. now destruct Nj. }
  assert (L : is_inside x = true /\ x' = RIdle /\ waiters y = Closes 0 :: l' \/
              is_inside x' = is_inside x /\ x' <> RJoining /\ l' = waiters y).
  { destruct M as [(-> & ->)|(M1 & M2 & ->)]; [|right; auto]. destruct (is_inside x) eqn:O.
    - left. split; [reflexivity|]. split; [reflexivity|]. destruct (waiters y); [discriminate|]. cbn in Cx |- *. congruence.
    - right. split; [reflexivity|]. split; [discriminate|reflexivity]. }
  assert (Fe : feeds l' = feeds (waiters y)) by (destruct L as [(_ & _ & ->)|(_ & _ & ->)]; reflexivity).
  assert (Inc : forall w, In w l' -> In w (waiters y)).
  { destruct L as [(_ & _ & ->)|(_ & _ & ->)]; [now right|auto]. }
  constructor; cbn [receivers readers alive waiters inbox closing heard]; try apply I.
  - reflexivity.
  - rewrite Fe. apply I.
  - intros k f Q. pose proof (n_recv _ _ _ _ _ I k f Q) as Rk.
    assert (Ac : forall i b rem, at_hand k i b rem a (waiters y) -> at_hand k i b rem a' l' /\ ds_session a' = ds_session a).
    { intros i b rem (A1 & A2 & A3). assert (O : is_inside x = false).
      { destruct (is_inside x); [congruence|reflexivity]. }
      destruct L as [(L & _)|(L1 & L2 & ->)]; [congruence|].
      assert (Sh : closing y = false).
      { destruct (closing y) eqn:Cl; [|reflexivity]. exfalso. pose proof (n_rel _ _ _ _ _ I) as Ro. rewrite Cl in Ro.
        assert (F : fresh_phase true a).
        { destruct x as [|[]|[]|[]| | |]; try discriminate O; cbn [rel] in Ro; try apply Ro. now destruct Nj. }
        destruct F; congruence. }
      pose proof R as R0. rewrite Sh in R0. destruct (rel_open _ _ _ R0) as [Ph O'].
      split; [exact (conj A1 (conj Ph A3))|].
      destruct (rel_session _ _ _ _ R O') as [S1 _]. destruct (rel_session _ _ _ _ (n_rel _ _ _ _ _ I) O) as [S2 _].
      rewrite <- S1, Se, S2 by exact O. reflexivity. }
    destruct f; cbn in Rk |- *; try exact Rk.
    + rewrite Fe. exact Rk.
    + now apply Ac.
    + destruct Rk as [R1 R2]. destruct (Ac _ _ _ R1) as [A1 A2]. split; [exact A1|]. now rewrite A2.
  - destruct L as [(_ & -> & L)|(L1 & L2 & ->)].
    + cbn. rewrite L in Nl. now apply NoDup_cons_iff in Nl.
    + rewrite <- L1 in Cx. destruct x' as [|[]|[]|[]| | |]; try exact Cx. now destruct L2.
  - intros j J. now apply (n_who _ _ _ _ _ I), Inc.
  - destruct L as [(_ & _ & L)|(_ & _ & ->)]; [|exact Nl]. rewrite L in Nl. now apply NoDup_cons_iff in Nl.
  - exact R.
  - eapply hist_read; [|exact Em]. apply (n_hist _ _ _ _ _ I).
Qed.

Definition reads (e : revent) : Prop :=
  match e with
  | RLook _ now | RClose _ now | RGo _ now => P now
  | RLeave _ => True
  | Receiver _ | RCancel _ | RStop _ => False
  end.

Lemma replace_0 {A} (x x' : A) : replace 0 x' [x] = [x'].
Proof. reflexivity. Qed.
Lemma nth_one {A} (x z : A) j : nth_error [x] j = Some z -> j = 0%nat /\ z = x.
Proof. destruct j as [|[|j]]; cbn; intros E; try discriminate. split; congruence. Qed.

Lemma reader_rinv calls ended x a y e : rinv calls ended x a y -> reads e ->
  exists x' a', rinv calls ended x' a' (rproceed H c ttl e y).
Proof.
  intros I Re. assert (Same : exists x' a', rinv calls ended x' a' y) by eauto.
  pose proof (n_read _ _ _ _ _ I) as Er. pose proof (n_rel _ _ _ _ _ I) as R.
  destruct e as [k|j now|j now|j now|j|k|j]; try (now destruct Re); cbn [rproceed];
    (destruct (nth_error (readers y) j) as [z|] eqn:Q; [|exact Same]);
    rewrite Er in Q; apply nth_one in Q as [-> ->]; rewrite Er.
  - (* looks *)
    destruct x; try exact Same. destruct R as [R1 R2].
    pose proof (enter_false (inbox y) a (closing y) now (waiters y) R1 R2 Re) as E.
    pose proof (enter_session false (inbox y) (waiters y)) as Se.
    destruct (enter c false (inbox y) (waiters y)) as [[[x' s'] l'] out]. destruct E as (a' & E1 & E2 & E3).
    exists x', a'. apply (rread calls ended RIdle a); auto. discriminate.
  - (* finalizes *)
    destruct x; try exact Same. destruct (closing y) eqn:Cl.
    + exists RIdle, a. rewrite <- Cl at 1.
      refine (rread calls ended RIdle a y RIdle (inbox y) (waiters y) [(true, Raised CipherStreamIsClosed)] a I _ _ _ _ _); auto.
      * discriminate.
      * right. exists (DFinalAgain now), (Raised CipherStreamIsClosed). split; [reflexivity|].
        split; [|split; [now intros []|cbn; intros ? J; injection J as <-; exact Re]].
        cbn. destruct R as [_ [->| ->]]; reflexivity.
      * now rewrite Cl.
      * left. auto.
    + exists RJoining, a. rewrite replace_0. destruct R as [R1 R2].
      pose proof (n_closer _ _ _ _ _ I) as C. cbn in C.
      constructor; cbn [receivers readers alive waiters inbox closing heard]; try apply I.
      * reflexivity.
      * rewrite feeds_app. cbn. rewrite app_nil_r. apply I.
      * intros k f Q. pose proof (n_recv _ _ _ _ _ I k f Q) as Rk.
        assert (Hh : forall h, hd_error (waiters y) = Some h -> hd_error (waiters y ++ [Closes 0]) = Some h).
        { intros h. now destruct (waiters y). }
        destruct f; cbn in Rk |- *; try exact Rk.
        -- rewrite feeds_app, app_nil_r. exact Rk.
        -- destruct Rk as (A1 & A2). split; [now apply Hh|exact A2].
        -- destruct Rk as ((A1 & A2) & A3). split; [|exact A3]. split; [now apply Hh|exact A2].
      * cbn. apply in_or_app. right. now left.
      * intros j J. apply in_app_or in J as [J|[J|[]]]; [now apply (n_who _ _ _ _ _ I)|congruence].
      * apply NoDup_snoc; [apply (n_line _ _ _ _ _ I)|exact C].
      * cbn. split; [exact R1|]. split; [exact R2|reflexivity].
  - (* goes on *)
    assert (Go : x <> RIdle -> x <> RJoining -> exists x' a', rinv calls ended x' a'
      (let '(x', s, l, out) := reader_step H c ttl 0 now x (inbox y) (waiters y) in
       {| inbox := s; alive := alive y; closing := closing y; waiters := l;
          receivers := receivers y; readers := replace 0 x' [x]; heard := heard y ++ out |})).
    { intros N1 N2. pose proof (reader_sim x (inbox y) a (closing y) (waiters y) now R Re N1 N2) as E.
      pose proof (reader_session now x (inbox y) (waiters y)) as Se.
      destruct (reader_step H c ttl 0 now x (inbox y) (waiters y)) as [[[x' s'] l'] out]. destruct E as (a' & E1 & E2 & E3).
      exists x', a'. rewrite replace_0. apply (rread calls ended x a); auto. }
    assert (Eq : forall z, z = y -> exists x' a', rinv calls ended x' a' z) by (intros z ->; exact Same).
    assert (St : {| inbox := inbox y; alive := alive y; closing := closing y; waiters := waiters y;
          receivers := receivers y; readers := [x]; heard := heard y ++ [] |} = y).
    { rewrite app_nil_r, <- Er. now destruct y. }
    destruct x; try (apply Go; discriminate); cbn [reader_step]; rewrite ?replace_0.
    + now apply Eq.
    + destruct (waiters y) as [|[h|h] rest] eqn:El.
      * now apply Eq.
      * now apply Eq.
      * assert (h = 0%nat) as -> by (apply (n_who _ _ _ _ _ I); rewrite El; now left). cbn [Nat.eqb]. rewrite replace_0.
        exists RSealing, a. rewrite app_nil_r, <- El.
        constructor; cbn [receivers readers alive waiters inbox closing heard]; try apply I.
        -- reflexivity.
        -- cbn. now rewrite El.
  - (* leaves its loop *)
    destruct x as [|[]|[]|[]| | |]; try exact Same. exists RIdle, a. rewrite replace_0.
    replace (heard y) with (heard y ++ []) by apply app_nil_r.
    destruct R as (R1 & R2 & _).
    refine (rread calls ended (RYielded false) a y RIdle (inbox y) (waiters y) [] a I _ _ _ _ _); auto.
    * discriminate.
    * left. auto.
    * cbn. auto.
    * left. auto.
Qed.

(** ** Refused packets *)
Definition refused_ok (calls : list nat) (y : channel) : Prop := forall k i b rem c1 c2,
  nth_error (receivers y) k = Some (REnded (Refused i b rem)) -> calls = c1 ++ k :: c2 ->
  exists pts ss, accepts H c true d0 (concat (map (took y) (c1 ++ [k]))) pts ss /\
    exists i', next_block_id H c (snd ss) b None [] = Ok i' /\ i <> i'.

Lemma NoDup_once {A} (l1 l2 m1 m2 : list A) x : NoDup (l1 ++ x :: l2) -> l1 ++ x :: l2 = m1 ++ x :: m2 -> l1 = m1 /\ l2 = m2.
Proof.
  revert m1. induction l1 as [|z l1 IH]; intros m1 N E; destruct m1 as [|w m1]; cbn in *.
  - injection E as E. auto.
  - exfalso. injection E as -> E. apply NoDup_cons_iff in N as [N _]. apply N. rewrite E. apply in_or_app. right. now left.
  - exfalso. injection E as -> E. apply NoDup_cons_iff in N as [N _]. apply N. apply in_or_app. right. now left.
  - injection E as -> E. apply NoDup_cons_iff in N as [_ N]. destruct (IH _ N E) as [-> ->]. auto.
Qed.
Lemma behind calls ended x a y k rest j c1 c2 : rinv calls ended x a y -> waiters y = Feeds k :: rest ->
  In j ended -> calls = c1 ++ j :: c2 -> ~ In k c1.
Proof.
  intros I E J Ec K. destruct (front _ _ _ _ _ _ _ I E) as (_ & Gk & Nk & _).
  apply in_split in K as (c3 & c4 & ->). pose proof (n_calls _ _ _ _ _ I) as C. rewrite E, Ec in C.
  assert (Gj : good j = true).
  { assert (In j (lined calls)) as Y; [|now apply filter_In in Y]. rewrite (n_calls _ _ _ _ _ I). apply in_or_app. now left. }
  rewrite <- app_assoc in C. cbn [app] in C. rewrite filter_app in C. cbn [filter] in C. rewrite Gk, filter_app in C. cbn [filter] in C.
  rewrite Gj in C. cbn [feeds flat_map app] in C.
  pose proof (NoDup_filter good (n_nodup _ _ _ _ _ I)) as N. rewrite Ec, <- app_assoc in N. cbn [app] in N.
  rewrite filter_app in N. cbn [filter] in N. rewrite Gk, filter_app in N. cbn [filter] in N. rewrite Gj in N.
  destruct (NoDup_once _ _ _ _ _ N C) as [C1 C2]. rewrite <- C1 in J.
  clear - N J.
  induction (lined c3) as [|w l IH]; [destruct J|]. cbn in N. apply NoDup_cons_iff in N as [N1 N2].
  destruct J as [->|J]; [|now apply IH]. apply N1. apply in_or_app. right. right. apply in_or_app. right. now left.
Qed.

Lemma receiver_refused calls ended x a y k f : rinv calls ended x a y -> refused_ok calls y ->
  nth_error (receivers y) k = Some f ->
  refused_ok (calls ++ match f with RFresh _ => [k] | _ => [] end) (rproceed H c ttl (Receiver k) y).
Proof.
  intros I Rf Q. pose proof (n_recv _ _ _ _ _ I k f Q) as Rk.
  assert (G : rproceed H c ttl (Receiver k) y =
    let '(f', s', l') := receiver_step H c k f (inbox y) (alive y) (closing y) (waiters y) in with_receiver y k f' s' l').
  { cbn [rproceed]. rewrite Q. now destruct (receiver_step H c k f (inbox y) (alive y) (closing y) (waiters y)) as [[f' s'] l']. }
  rewrite G. clear G.
  assert (Same : refused_ok calls (with_receiver y k f (inbox y) (waiters y))) by (now rewrite (same_receiver _ _ _ Q)).
  (* the receivers that were refused before *)
  assert (Others : forall f' s' l' j i b rem c1 c2, j <> k ->
    nth_error (receivers (with_receiver y k f' s' l')) j = Some (REnded (Refused i b rem)) -> calls = c1 ++ j :: c2 ->
    (forall rest, waiters y = Feeds k :: rest -> ~ In k c1 -> ~ In k (c1 ++ [j])) ->
    ((exists rest, waiters y = Feeds k :: rest) \/ ~ In k calls) ->
    exists pts ss, accepts H c true d0 (concat (map (took (with_receiver y k f' s' l')) (c1 ++ [j]))) pts ss /\
      exists i', next_block_id H c (snd ss) b None [] = Ok i' /\ i <> i').
  { intros f' s' l' j i b rem c1 c2 N Qj Ec Nn Fk.
    cbn [with_receiver receivers] in Qj. rewrite nth_others in Qj by congruence.
    assert (Nk : ~ In k (c1 ++ [j])).
    { destruct Fk as [[rest Fk]|Fk].
      - apply (Nn rest Fk). apply (behind calls ended x a y k rest j c1 c2 I Fk); [|exact Ec].
        pose proof (n_recv _ _ _ _ _ I j _ Qj) as R. cbn in R. destruct R as [_ R]. destruct (good j); [apply R|discriminate].
      - intros Z. apply Fk. rewrite Ec. apply in_app_or in Z as [Z|[Z|[]]]; apply in_or_app; [now left|]. right. left. exact Z. }
    erewrite (took_others y) by (reflexivity || exact Nk). exact (Rf _ _ _ _ _ _ Qj Ec). }
  assert (Nn : forall j c1, j <> k -> ~ In k c1 -> ~ In k (c1 ++ [j])).
  { intros j c1 N1 N2 Z. apply in_app_or in Z as [Z|[Z|[]]]; [tauto|congruence]. }
  assert (Front : forall f' s' l' rest, waiters y = Feeds k :: rest -> (forall i b rem, f' <> REnded (Refused i b rem)) ->
    refused_ok calls (with_receiver y k f' s' l')).
  { intros f' s' l' rest Fk Nf j i b rem c1 c2 Qj Ec. destruct (Nat.eq_dec j k) as [->|N].
    - exfalso. cbn [with_receiver receivers] in Qj. rewrite (nth_replaced _ _ _ _ Q) in Qj. injection Qj as Qj. exact (Nf _ _ _ Qj).
    - eapply Others; eauto. }
  destruct f as [d|d|i b rem|i b rem|o|]; cbn [receiver_step]; [| | | |now rewrite app_nil_r|destruct Rk].
  - (* calls *)
    destruct Rk as [R1 R2].
    assert (New : forall f' s' l', (forall i b rem, f' <> REnded (Refused i b rem)) ->
      refused_ok (calls ++ [k]) (with_receiver y k f' s' l')).
    { intros f' s' l' Nf j i b rem c1 c2 Qj Ec. destruct (Nat.eq_dec j k) as [->|N].
      - exfalso. cbn [with_receiver receivers] in Qj. rewrite (nth_replaced _ _ _ _ Q) in Qj. injection Qj as Qj. exact (Nf _ _ _ Qj).
      - assert (Z : exists c3, calls = c1 ++ j :: c3).
        { clear - Ec N. revert c1 Ec. induction calls as [|z l IH]; intros c1 Ec; destruct c1 as [|w c1]; cbn in Ec.
          - injection Ec as Ec _. congruence.
          - injection Ec as _ Ec. destruct c1; discriminate.
          - injection Ec as -> Ec. exists l. reflexivity.
          - injection Ec as -> Ec. destruct (IH _ Ec) as [c3 ->]. exists c3. reflexivity. }
        destruct Z as [c3 Z]. eapply Others; eauto. }
    destruct (_ || _); apply New; discriminate.
  - rewrite app_nil_r. destruct (waiters y) as [|[h|h] rest] eqn:El; [exact Same| |exact Same].
    destruct (Nat.eqb_spec h k) as [->|N]; [|exact Same].
    destruct (closing y); [eapply Front; eauto; discriminate|].
    unfold next_packet. destruct (take bid d); eapply Front; eauto; discriminate.
  - (* tests *)
    rewrite app_nil_r. destruct Rk as (P1 & Ph & data & pre & P2 & Ed & Mp & Li & Lb & Mr).
    destruct (waiters y) as [|w rest] eqn:El; [discriminate|]. cbn in P1. injection P1 as ->.
    pose proof (rel_outside _ _ _ _ _ _ _ I El) as O.
    destruct (rel_session _ _ _ _ (n_rel _ _ _ _ _ I) O) as [Se Sf]. rewrite Se.
    destruct (test_next_block_id H c (snd (ds_session a)) i b []) as [u|e] eqn:T; [eapply Front; eauto; discriminate|].
    destruct (hist_inv _ _ _ (n_hist _ _ _ _ _ I)) as (out & Di).
    destruct (test_id_ok H c XL VC VI (snd (ds_session a)) b i (inv_open H c _ _ _ _ Di Ph) Li Lb) as (i' & Ti & Tt).
    rewrite T in Tt. destruct (bytes_eqb i i') eqn:Eb; [discriminate|]. injection Tt as ->. apply bytes_eqb_neq in Eb.
    intros j i1 b1 rem1 c1 c2 Qj Ec. destruct (Nat.eq_dec j k) as [->|N]; [|eapply Others; eauto].
    cbn [with_receiver receivers] in Qj. rewrite (nth_replaced _ _ _ _ Q) in Qj. injection Qj as <- <- <-.
    destruct Di as [(pts & ss & out0 & Ac & _ & _ & _ & _ & _ & Phs)]. rewrite Ph in Phs. destruct Phs as [Es _].
    exists pts, ss. split; [|exists i'; split; [now rewrite <- Es|exact Eb]].
    assert (Eq : concat (map (took (with_receiver y k (REnded (Refused i b rem)) (inbox y) (tl (Feeds k :: rest)))) (c1 ++ [k])) =
      concat (map (took y) calls)); [|now rewrite Eq].
    destruct (front _ _ _ _ _ _ _ I El) as (_ & _ & _ & _ & c3 & c4 & Ec' & N3 & Z).
    pose proof (n_nodup _ _ _ _ _ I) as Nd. rewrite Ec in Nd.
    assert (c1 = c3 /\ c2 = c4) as [<- <-] by (apply (NoDup_once _ _ _ _ k Nd); congruence).
    rewrite Ec, map_app, concat_app.
    erewrite (took_others y) by (reflexivity || exact N3). rewrite map_app, concat_app. f_equal. cbn [map concat].
    assert (Z2 : concat (map (took y) c2) = []).
    { clear - Z. induction c2 as [|j l IH]; [reflexivity|]. cbn. rewrite Z by now left. apply IH. intros j' J. apply Z. now right. }
    rewrite Z2, (took_at y k _ _ _ data P2), (took_now y k data P2), Q by congruence. reflexivity.
  - rewrite app_nil_r. destruct Rk as ((P1 & _) & _).
    destruct (waiters y) as [|w rest] eqn:El; [discriminate|]. cbn in P1. injection P1 as ->.
    destruct (alive y); [|eapply Front; eauto; discriminate].
    destruct (transform H c Decryption (ds_first (inbox y)) (ds_session (inbox y)) b) as [[pt ss]|e]; [|eapply Front; eauto; discriminate].
    unfold next_packet. destruct (take bid rem); eapply Front; eauto; discriminate.
Qed.
Lemma reader_refused calls y e : reads e -> refused_ok calls y -> refused_ok calls (rproceed H c ttl e y).
Proof.
  intros Re R. assert (E : receivers (rproceed H c ttl e y) = receivers y).
  { destruct e as [k|j now|j now|j now|j|k|j]; try (now destruct Re); cbn [rproceed];
      (destruct (nth_error (readers y) j) as [z|]; [|reflexivity]).
    - destruct z; try reflexivity. now destruct (enter c false (inbox y) (waiters y)) as [[[? ?] ?] ?].
    - destruct z; try reflexivity. now destruct (closing y).
    - now destruct (reader_step H c ttl j now z (inbox y) (waiters y)) as [[[? ?] ?] ?].
    - destruct z as [|[]|[]|[]| | |]; reflexivity. }
  intros k i b rem c1 c2 Q Ec. rewrite E in Q. destruct (R _ _ _ _ _ _ Q Ec) as (pts & ss & A & T). exists pts, ss. split; [|exact T].
  replace (map (took (rproceed H c ttl e y)) (c1 ++ [k])) with (map (took y) (c1 ++ [k])); [exact A|].
  apply map_ext. intros j. unfold ReceiveSpec.took. now rewrite E.
Qed.

Lemma rrun_inv : forall es seen calls ended x a y, undisturbed es -> (forall now, at_moment es now -> P now) ->
  rinv calls ended x a y -> refused_ok calls y ->
  (forall i, (i < length datas)%nat -> (In i seen <-> In i calls)) ->
  exists ended' x' a', rinv (calls ++ filter (valid_index datas) (arrivals seen es)) ended' x' a' (rrun H c ttl es y) /\
    refused_ok (calls ++ filter (valid_index datas) (arrivals seen es)) (rrun H c ttl es y).
Proof.
  induction es as [|e es IH]; intros seen calls ended x a y U Mo I Rf Se.
  - exists ended, x, a. cbn. now rewrite app_nil_r.
  - inversion U as [|e' es' Ue Us]; subst e' es'. unfold rrun. cbn [fold_left]. fold (rrun H c ttl es (rproceed H c ttl e y)).
    assert (Mo' : forall now, at_moment es now -> P now).
    { intros now (j & J). apply Mo. exists j. cbn. tauto. }
    assert (Rd : reads e -> exists ended' x' a',
      rinv (calls ++ filter (valid_index datas) (arrivals seen es)) ended' x' a' (rrun H c ttl es (rproceed H c ttl e y)) /\
      refused_ok (calls ++ filter (valid_index datas) (arrivals seen es)) (rrun H c ttl es (rproceed H c ttl e y))).
    { intros He. destruct (reader_rinv _ _ _ _ _ e I He) as (x' & a' & I'). pose proof (reader_refused _ _ _ He Rf). eapply IH; eauto. }
    destruct e as [i|j now|j now|j now|j|i|j]; try (now destruct Ue);
      try (cbn [arrivals]; apply Rd; cbn; try exact Logic.I; apply Mo; exists j; cbn; now auto).
    cbn [arrivals]. destruct (nth_error (receivers y) i) as [f|] eqn:Q.
    + assert (Li : (i < length datas)%nat) by (rewrite <- (n_len _ _ _ _ _ I); apply nth_error_Some; congruence).
      destruct (receiver_rinv _ _ _ _ _ i f I Q) as (ended' & a' & I').
      pose proof (receiver_refused _ _ _ _ _ i f I Rf Q) as Rf'.
      pose proof (n_recv _ _ _ _ _ I i f Q) as Rk.
      destruct (existsb (Nat.eqb i) seen) eqn:X.
      * apply existsb_in in X. apply (Se i Li) in X.
        assert (Nf : match f with RFresh _ => [i] | _ => [] end = []) by (destruct f; auto; destruct Rk; tauto).
        rewrite Nf, app_nil_r in I', Rf'. eapply IH; eauto.
      * assert (Nx : ~ In i calls). { intros Y. apply (Se i Li), existsb_in in Y. congruence. }
        assert (Fr : match f with RFresh _ => [i] | _ => [] end = [i]).
        { assert (Ci : In i (feeds (waiters y)) -> In i calls).
          { intros Z. assert (Y : In i (lined calls)) by (rewrite (n_calls _ _ _ _ _ I); apply in_or_app; now right).
            now apply filter_In in Y. }
          assert (Hh : hd_error (waiters y) = Some (Feeds i) -> In i calls).
          { intros Z. apply Ci, in_feeds. destruct (waiters y); [discriminate|]. cbn in Z. injection Z as ->. now left. }
          destruct f; auto; exfalso; apply Nx.
          - apply Ci, Rk.
          - apply Hh, Rk.
          - apply Hh. destruct Rk as [[A _] _]. exact A.
          - apply Rk.
          - destruct Rk. }
        rewrite Fr in I', Rf'. cbn [filter]. replace (valid_index datas i) with true by (symmetry; now apply Nat.ltb_lt).
        change (i :: filter (valid_index datas) (arrivals (i :: seen) es)) with ([i] ++ filter (valid_index datas) (arrivals (i :: seen) es)).
        rewrite app_assoc. eapply IH; eauto. intros k Lk. rewrite in_app_iff. cbn. rewrite (Se k Lk). tauto.
    + assert (Li : ~ (i < length datas)%nat) by (rewrite <- (n_len _ _ _ _ _ I), <- nth_error_Some; congruence).
      cbn [rproceed]. rewrite Q. destruct (existsb (Nat.eqb i) seen); [eapply IH; eauto|].
      cbn [filter]. replace (valid_index datas i) with false by (symmetry; apply Nat.ltb_ge; lia).
      eapply IH; eauto. intros k Lk. cbn. rewrite <- (Se k Lk). split; [intros [->|Z]; [tauto|exact Z]|tauto].
Qed.

Lemma delivered_all es y : delivered c datas es y = concat (map (took y) (filter (valid_index datas) (arrivals [] es))).
Proof.
  unfold delivered. generalize (arrivals [] es) as l. induction l as [|i l IH]; [reflexivity|]. cbn [map concat filter].
  destruct (valid_index datas i) eqn:V; cbn [map concat]; rewrite IH; [reflexivity|].
  assert (Z : took y i = []); [|now rewrite Z]. unfold ReceiveSpec.took.
  replace (nth_error datas i) with (@None bytes); [reflexivity|]. symmetry. apply nth_error_None. unfold valid_index in V.
  now apply Nat.ltb_ge in V.
Qed.

(** ** The end of [afinalize] *)
Lemma read_done : forall ops acc out st outs st', dec_inv H c d0 acc out st -> ds_phase st <> DFailed ->
  ds_run H c ttl ops st = (outs, st') -> In (true, Stop) (answers ops outs) ->
  (forall e, In (true, Raised e) (answers ops outs) -> e = CipherStreamIsClosed) -> ds_phase st' = DDone.
Proof.
  induction ops as [|o ops IH]; intros acc out st outs st' I F R S E.
  - cbn in R. injection R as <- <-. destruct S.
  - cbn [ds_run] in R. destruct (dstep_inv H c XL VC VI d0 ttl o acc out st I) as (o' & st1 & Es & I1).
    rewrite Es in R. destruct (ds_run H c ttl ops st1) as [outs1 st2] eqn:R1. injection R as <- <-.
    destruct (dstep_phase H c XL VC VI d0 ttl _ _ _ _ _ _ I Es) as (F1 & F2 & F3).
    assert (Ein : forall z, In z (answers ops outs1) -> In z (answers (o :: ops) (o' :: outs1))).
    { intros z Z. cbn. destruct o; try (now right); exact Z. }
    assert (Fo : finalizes o -> In (true, o') (answers (o :: ops) (o' :: outs1))).
    { destruct o; cbn; intros []; now left. }
    assert (N1 : ds_phase st1 <> DFailed).
    { intros Pf. destruct (F2 F Pf) as (G1 & e & -> & Ne). apply Ne, E, Fo, G1. }
    assert (D : (finalizes o /\ o' = Stop) \/ In (true, Stop) (answers ops outs1)).
    { destruct o; cbn in S |- *; auto; destruct S as [S|S]; auto; try discriminate; injection S as ->; auto. }
    destruct D as [[D1 ->]|D].
    + eapply (done_stays H c XL VC VI d0 ttl); [exact I1| |exact R1]. destruct o as [|now| |now|now]; try destruct D1.
      * apply F3; eauto.
      * cbn [ds_step] in Es. destruct (ds_phase st) eqn:P0; try discriminate.
        assert (Es' : ds_step H c ttl (DFinal now) st = (Stop, st1)) by exact Es.
        destruct (dstep_phase H c XL VC VI d0 ttl _ _ _ _ _ _ I Es') as (_ & _ & F4). apply F4; eauto. congruence.
    + eapply IH; eauto.
Qed.
Lemma rel_done x s a shut : rel x s a shut -> ds_phase a = DDone -> ds_session s = ds_session a.
Proof.
  intros R D. destruct (is_inside x) eqn:O; [|exact (proj1 (rel_session _ _ _ _ R O))].
  destruct x as [|[] stamp|[]|[]| | |rest]; try discriminate O; cbn [rel] in R.
  - destruct R as (_ & a1 & (S & _) & _). congruence.
  - destruct R as (_ & _ & a1 & now & (S & _) & _). congruence.
  - destruct R as (_ & _ & S). congruence.
  - destruct R as (_ & S & _). congruence.
  - destruct R as (_ & now & a1 & _ & R1 & ->). unfold ds_finalize in R1. rewrite D in R1.
    destruct rest as [|z rest]; [|discriminate]. cbn in R1. injection R1 as ->. reflexivity.
Qed.

(** ** A call is refused as too late only if somebody finalizes *)
Definition closed_ok (y : channel) : Prop :=
  forall k, nth_error (receivers y) k = Some (REnded (Raised CipherStreamIsClosed)) -> closing y = true.

Lemma receiver_closed calls ended x a y k : rinv calls ended x a y -> closed_ok y ->
  closed_ok (rproceed H c ttl (Receiver k) y).
Proof.
  intros I C. cbn [rproceed]. destruct (nth_error (receivers y) k) as [f|] eqn:Q; [|exact C].
  pose proof (n_recv _ _ _ _ _ I k f Q) as Rk.
  assert (G : fst (fst (receiver_step H c k f (inbox y) (alive y) (closing y) (waiters y))) = REnded (Raised CipherStreamIsClosed) ->
    closing y = true).
  { destruct f as [d|d|i b rem|i b rem|o|]; cbn [receiver_step].
    - destruct (_ || _); discriminate.
    - destruct (waiters y) as [|[h|h] rest]; try discriminate. destruct (Nat.eqb h k); [|discriminate].
      destruct (closing y); [reflexivity|]. unfold next_packet. destruct (take bid d); discriminate.
    - destruct Rk as (P1 & Ph & data & pre & P2 & Ed & Mp & Li & Lb & Mr).
      destruct (waiters y) as [|w rest] eqn:El; [discriminate|]. cbn in P1. injection P1 as ->.
      pose proof (rel_outside _ _ _ _ _ _ _ I El) as O.
      destruct (rel_session _ _ _ _ (n_rel _ _ _ _ _ I) O) as [Se Sf]. rewrite Se.
      destruct (hist_inv _ _ _ (n_hist _ _ _ _ _ I)) as (out & Di).
      destruct (test_id_ok H c XL VC VI (snd (ds_session a)) b i (inv_open H c _ _ _ _ Di Ph) Li Lb) as (i' & Ti & Tt).
      rewrite Tt. destruct (bytes_eqb i i'); discriminate.
    - destruct Rk as ((P1 & Ph & data & pre & P2 & Ed & Mp & Li & Lb & Mr) & T).
      destruct (waiters y) as [|w rest] eqn:El; [discriminate|]. cbn in P1. injection P1 as ->.
      pose proof (rel_outside _ _ _ _ _ _ _ I El) as O.
      destruct (rel_session _ _ _ _ (n_rel _ _ _ _ _ I) O) as [Se Sf]. rewrite Se, Sf.
      destruct (hist_inv _ _ _ (n_hist _ _ _ _ _ I)) as (out & Di).
      destruct (test_id_ok H c XL VC VI (snd (ds_session a)) b i (inv_open H c _ _ _ _ Di Ph) Li Lb) as (i' & Ti & Tt).
      rewrite T in Tt. destruct (bytes_eqb i i') eqn:Eb; [|discriminate]. apply bytes_eqb_eq in Eb. subst i'.
      destruct (accept_one H c XL VC _ _ _ _ _ _ Di Ph Li Lb Ti) as (pt & ss & Tr & _). rewrite Tr.
      destruct (alive y); [|discriminate]. unfold next_packet. destruct (take bid rem); discriminate.
    - intros E. cbn in E. apply (C k). congruence.
    - discriminate. }
  destruct (receiver_step H c k f (inbox y) (alive y) (closing y) (waiters y)) as [[f' s'] l']. cbn in G.
  intros j. cbn [receivers closing]. rewrite nth_replace. destruct (Nat.eqb_spec k j) as [<-|N]; [|apply C].
  rewrite Q. intros E. injection E as E. auto.
Qed.
Lemma reader_closed e y : reads e -> closed_ok y -> closed_ok (rproceed H c ttl e y) /\
  (match e with RClose _ _ => True | _ => closing (rproceed H c ttl e y) = closing y end).
Proof.
  intros Re C. destruct e as [k|j now|j now|j now|j|k|j]; try (now destruct Re); cbn [rproceed];
      (destruct (nth_error (readers y) j) as [z|]; [|auto]).
  - destruct z; auto. now destruct (enter c false (inbox y) (waiters y)) as [[[? ?] ?] ?].
  - destruct z; auto. destruct (closing y) eqn:Cl; split; auto; intros k E; reflexivity.
  - now destruct (reader_step H c ttl j now z (inbox y) (waiters y)) as [[[? ?] ?] ?].
  - destruct z as [|[]|[]|[]| | |]; auto.
Qed.
Definition some_rinv (y : channel) : Prop := exists calls ended x a, rinv calls ended x a y.
Lemma some_step e y : some_rinv y -> match e with Receiver _ => True | _ => reads e end -> some_rinv (rproceed H c ttl e y).
Proof.
  intros (calls & ended & x & a & I) Re.
  destruct e as [k|j now|j now|j now|j|k|j]; try (destruct (reader_rinv _ _ _ _ _ _ I Re) as (x' & a' & I'); do 4 eexists; exact I').
  destruct (nth_error (receivers y) k) as [f|] eqn:Q.
  - destruct (receiver_rinv _ _ _ _ _ _ _ I Q) as (ended' & a' & I'). do 4 eexists. exact I'.
  - cbn [rproceed]. rewrite Q. do 4 eexists. exact I.
Qed.
Lemma event_reads e es : undisturbed (e :: es) -> (forall now, at_moment (e :: es) now -> P now) ->
  match e with Receiver _ => True | _ => reads e end.
Proof.
  intros U M. inversion U as [|e' es' Ue Us]; subst e' es'.
  destruct e as [k|j now|j now|j now|j|k|j]; try exact Ue; try exact Logic.I; apply M; exists j; cbn; auto.
Qed.
Lemma moment_tl e es : (forall now, at_moment (e :: es) now -> P now) -> forall now, at_moment es now -> P now.
Proof. intros M now (j & J). apply M. exists j. cbn. tauto. Qed.
Lemma some_run : forall es y, undisturbed es -> (forall now, at_moment es now -> P now) -> some_rinv y -> some_rinv (rrun H c ttl es y).
Proof.
  induction es as [|e es IH]; intros y U M S; [exact S|]. change (some_rinv (rrun H c ttl es (rproceed H c ttl e y))).
  pose proof (event_reads _ _ U M) as Re. inversion U; subst. apply IH; [assumption|exact (moment_tl _ _ M)|]. now apply some_step.
Qed.
Lemma closed_run : forall es y, undisturbed es -> (forall now, at_moment es now -> P now) -> some_rinv y -> closed_ok y ->
  closed_ok (rrun H c ttl es y) /\
  (closing (rrun H c ttl es y) = true -> closing y = true \/ exists j now, In (RClose j now) es).
Proof.
  induction es as [|e es IH]; intros y U M S C; [cbn; auto|].
  change (closed_ok (rrun H c ttl es (rproceed H c ttl e y)) /\
    (closing (rrun H c ttl es (rproceed H c ttl e y)) = true -> closing y = true \/ exists j now, In (RClose j now) (e :: es))).
  pose proof (event_reads _ _ U M) as Re. inversion U; subst.
  assert (C' : closed_ok (rproceed H c ttl e y) /\ match e with RClose _ _ => True | _ => closing (rproceed H c ttl e y) = closing y end).
  { destruct e as [k|j now|j now|j now|j|k|j]; try (now apply reader_closed). destruct S as (calls & ended & x & a & I).
    split; [exact (receiver_closed _ _ _ _ _ _ I C)|]. cbn [rproceed]. destruct (nth_error (receivers y) k); [|reflexivity].
    now destruct (receiver_step H c k r (inbox y) (alive y) (closing y) (waiters y)) as [[? ?] ?]. }
  destruct C' as [C1 C2]. destruct (IH (rproceed H c ttl e y)) as [A B]; auto; [exact (moment_tl _ _ M)|now apply some_step|].
  split; [exact A|]. intros Z. destruct (B Z) as [B1|(j & now & B1)].
  - destruct e as [k|j now|j now|j now|j|k|j]; try (left; congruence). right. exists j, now. now left.
  - right. exists j, now. now right.
Qed.

(** ** Every schedule can be completed *)
Section Ends.
Variable now : Z.
Local Notation go := (RGo 0 now).
Local Notation runs := (rrun H c ttl).
Definition idles (y : channel) : Prop :=
  exists n, readers (runs (repeat go n) y) = [RIdle] /\ receivers (runs (repeat go n) y) = receivers y.
Lemma go_receivers y : receivers (rproceed H c ttl go y) = receivers y.
Proof.
  cbn [rproceed]. destruct (nth_error (readers y) 0) as [x|]; [|reflexivity].
  now destruct (reader_step H c ttl 0 now x (inbox y) (waiters y)) as [[[? ?] ?] ?].
Qed.
Lemma idles_step y : idles (rproceed H c ttl go y) -> idles y.
Proof. intros (n & E1 & E2). exists (Datatypes.S n). split; [exact E1|]. rewrite go_receivers in E2. exact E2. Qed.
Lemma idles_go y x : readers y = [x] ->
  (let '(x', s', l', out) := reader_step H c ttl 0 now x (inbox y) (waiters y) in
   idles {| inbox := s'; alive := alive y; closing := closing y; waiters := l'; receivers := receivers y; readers := [x'];
            heard := heard y ++ out |}) -> idles y.
Proof.
  intros E G. apply idles_step. cbn [rproceed]. rewrite E. cbn [nth_error].
  now destruct (reader_step H c ttl 0 now x (inbox y) (waiters y)) as [[[x' s'] l'] out].
Qed.
Lemma idles_idle y : readers y = [RIdle] -> idles y.
Proof. intros E. exists 0%nat. auto. Qed.
Lemma tail_idles : forall rest y, readers y = [RTail rest] -> idles y.
Proof.
  induction rest as [|z rest IH]; intros y E; apply (idles_go y _ E); cbn [reader_step]; [now apply idles_idle|now apply IH].
Qed.
Lemma round_idles final s l y0 : (forall y, readers y = [RYielded final] -> (length (ds_queue (inbox y)) < length (ds_queue s))%nat -> idles y) ->
  let '(x', s', l', out) := round c final s l in
  idles {| inbox := s'; alive := alive y0; closing := closing y0; waiters := l'; receivers := receivers y0; readers := [x'];
            heard := heard y0 ++ out |}.
Proof.
  intros IH. unfold round, ds_loop. destruct (ds_queue s) as [|q queue] eqn:Q.
  - destruct final; [|now apply idles_idle]. rewrite Q. now apply idles_idle.
  - destruct (min_stream_queue c <? blen (q :: queue)).
    + apply IH; [reflexivity|]. cbn. lia.
    + destruct final; [|now apply idles_idle]. destruct (split_last (ds_queue s)) as [[init lst]|]; [|now apply idles_idle].
      eapply tail_idles. reflexivity.
Qed.
Lemma yielded_idles final : forall n y, readers y = [RYielded final] -> (length (ds_queue (inbox y)) < n)%nat -> idles y.
Proof.
  induction n as [|n IH]; intros y E L; [lia|]. apply (idles_go y _ E). cbn [reader_step].
  apply round_idles. intros y' E' L'. apply IH; [exact E'|lia].
Qed.
Lemma round_idles' final s l y0 : 
  let '(x', s', l', out) := round c final s l in
  idles {| inbox := s'; alive := alive y0; closing := closing y0; waiters := l'; receivers := receivers y0; readers := [x'];
            heard := heard y0 ++ out |}.
Proof. apply round_idles. intros y E L. eapply yielded_idles; eauto. Qed.
Lemma head_idles final : forall n s l y0, (length (ds_queue s) < n)%nat ->
  let '(x', s', l', out) := head c final s l in
  idles {| inbox := s'; alive := alive y0; closing := closing y0; waiters := l'; receivers := receivers y0; readers := [x'];
            heard := heard y0 ++ out |}.
Proof.
  induction n as [|n IH]; intros s l y0 L; [lia|]. unfold head.
  destruct (negb (ds_trim s =? 0) && negb (blen (ds_queue s) =? 0)) eqn:B; [|apply round_idles'].
  eapply idles_go; [reflexivity|]. cbn [reader_step inbox waiters].
  destruct (ds_queue s) as [|q queue] eqn:Q; [now apply idles_idle|]. cbv zeta.
  destruct (drop (ds_trim s) q) as [|z zs] eqn:D.
  - match goal with |- context [head c final ?s1 l] => set (s1' := s1) end.
    assert (L1 : (length (ds_queue s1') < n)%nat) by (cbn in *; lia).
    exact (IH s1' l _ L1).
  - assert (Z : ds_trim s - blen (take (ds_trim s) q) = 0).
    { pose proof (blen_drop (ds_trim s) q) as Ld. pose proof (blen_take (ds_trim s) q) as Lt. rewrite D, blen_cons in Ld. lia. }
    rewrite Z. unfold head. cbn [ds_set_queue ds_trim]. cbn [N.eqb negb andb]. apply round_idles'.
Qed.
Lemma enter_idles final s l y0 :
  let '(x', s', l', out) := enter c final s l in
  idles {| inbox := s'; alive := alive y0; closing := closing y0; waiters := l'; receivers := receivers y0; readers := [x'];
            heard := heard y0 ++ out |}.
Proof.
  unfold enter. destruct (ds_streaming s); [eapply head_idles; eauto|]. cbn [ds_set_queue ds_queue].
  destruct (ds_queue s) as [|q queue] eqn:Q; [now apply idles_idle|].
  eapply idles_go; [reflexivity|]. cbn [reader_step inbox waiters].
  destruct (test_timestamp (c_clock c) now (take (c_timestamp_bytes c) q) ttl BigEndian) as [u|e].
  - eapply head_idles; eauto.
  - destruct e; now apply idles_idle.
Qed.
Lemma reader_idles y x : readers y = [x] -> x <> RJoining \/ hd_error (waiters y) = Some (Closes 0) -> idles y.
Proof.
  intros E F. assert (Seal : forall y, readers y = [RSealing] -> idles y).
  { clear y x E F. intros y E. apply (idles_go y _ E). cbn [reader_step]. destruct (ds_session (inbox y)) as [b m].
    destruct (finalize H c b m) as [[t m']|e]; [apply enter_idles|now apply idles_idle]. }
  destruct x as [|final stamp|final|final| | |rest].
  - now apply idles_idle.
  - apply (idles_go y _ E). cbn [reader_step].
    destruct (test_timestamp (c_clock c) now stamp ttl BigEndian) as [u|e]; [eapply head_idles; eauto|].
    destruct e; now apply idles_idle.
  - apply (idles_go y _ E). cbn [reader_step]. destruct (ds_queue (inbox y)) as [|q queue]; [now apply idles_idle|]. cbv zeta.
    eapply head_idles; eauto.
  - eapply yielded_idles; eauto.
  - destruct F as [F|F]; [now destruct F|]. apply (idles_go y _ E). cbn [reader_step].
    destruct (waiters y) as [|w rest]; [discriminate|]. cbn in F. injection F as ->. cbn [Nat.eqb]. now apply Seal.
  - now apply Seal.
  - eapply tail_idles; eauto.
Qed.
End Ends.

(** *** The receivers *)
Definition rweight (f : receiver) : nat :=
  match f with
  | RFresh d => 2 * length d + 4 | RWaiting d => 2 * length d + 3
  | RTesting _ _ rem => 2 * length rem + 2 | RDeciphering _ _ rem => 2 * length rem + 1
  | REnded _ | RGone => 0
  end.
Definition rweights (l : list receiver) : nat := fold_right (fun f n => (rweight f + n)%nat) 0%nat l.
Lemma rweights_replace l i f f' : nth_error l i = Some f -> (rweights (replace i f' l) + rweight f = rweights l + rweight f')%nat.
Proof.
  revert i. induction l as [|g l IH]; intros [|i] E; cbn in E; try discriminate.
  - injection E as ->. unfold replace. cbn. lia.
  - specialize (IH i E). unfold replace in *. cbn [firstn skipn app rweights fold_right] in *. unfold rweights in *. lia.
Qed.
Lemma rweights_pos l : rweights l <> 0%nat -> exists i f, nth_error l i = Some f /\ rweight f <> 0%nat.
Proof.
  induction l as [|g l IH]; cbn; [congruence|]. intros N. destruct (rweight g) eqn:W.
  - destruct (IH N) as (i & f & E & Wf). exists (Datatypes.S i), f. auto.
  - exists 0%nat, g. split; [reflexivity|congruence].
Qed.
Lemma rweights_zero l : rweights l = 0%nat -> forall f, In f l -> rweight f = 0%nat.
Proof.
  induction l as [|g l IH]; cbn; [intros _ f []|]. intros E f [->|J]; [lia|]. apply IH; [unfold rweights; lia|exact J].
Qed.
Lemma next_weight rem l : (rweight (fst (next_packet c rem l)) <= 2 * length rem)%nat.
Proof.
  unfold next_packet. destruct (take bid rem) as [|z zs] eqn:T; [cbn; lia|]. cbn [fst rweight].
  assert (L : (length (drop bid rem) < length rem)%nat).
  { pose proof (take_drop bid rem) as E. rewrite T in E. rewrite <- E at 2. cbn. rewrite app_length. lia. }
  pose proof (take_drop bs (drop bid rem)) as E. apply (f_equal (@length byte)) in E. rewrite app_length in E. lia.
Qed.
Lemma receiver_progress y k f : nth_error (receivers y) k = Some f -> rweight f <> 0%nat ->
  match f with RWaiting _ => hd_error (waiters y) = Some (Feeds k) | _ => True end ->
  (rweights (receivers (rproceed H c ttl (Receiver k) y)) < rweights (receivers y))%nat.
Proof.
  intros Q W F. cbn [rproceed]. rewrite Q.
  assert (G : (rweight (fst (fst (receiver_step H c k f (inbox y) (alive y) (closing y) (waiters y)))) < rweight f)%nat).
  { destruct f as [d|d|i b rem|i b rem|o|]; cbn [receiver_step] in *; try (now destruct W).
    - destruct (_ || _); cbn; lia.
    - destruct (waiters y) as [|w rest]; [discriminate|]. cbn in F. injection F as ->. rewrite Nat.eqb_refl.
      destruct (closing y); [cbn; lia|]. pose proof (next_weight d (Feeds k :: rest)) as L.
      destruct (next_packet c d (Feeds k :: rest)) as [f' l']. cbn in *. lia.
    - destruct (test_next_block_id H c (snd (ds_session (inbox y))) i b []) as [u|[]]; cbn; lia.
    - destruct (alive y); [|cbn; lia].
      destruct (transform H c Decryption (ds_first (inbox y)) (ds_session (inbox y)) b) as [[pt ss]|e]; [|cbn; lia].
      pose proof (next_weight rem (waiters y)) as L. destruct (next_packet c rem (waiters y)) as [f' l']. cbn in *. lia. }
  destruct (receiver_step H c k f (inbox y) (alive y) (closing y) (waiters y)) as [[f' s'] l']. cbn [fst receivers] in *.
  pose proof (rweights_replace _ _ _ f' Q). lia.
Qed.
Lemma rrun_app a b y : rrun H c ttl (a ++ b) y = rrun H c ttl b (rrun H c ttl a y).
Proof. unfold rrun. apply fold_left_app. Qed.

Hypothesis anytime : forall now, P now.

Lemma go_undisturbed now n : undisturbed (repeat (RGo 0 now) n).
Proof. unfold undisturbed. induction n; cbn; constructor; auto. Qed.
Lemma receivers_end (now : Z) : forall n y, some_rinv y -> (rweights (receivers y) < n)%nat ->
  exists es, undisturbed es /\ rweights (receivers (rrun H c ttl es y)) = 0%nat.
Proof.
  induction n as [|n IH]; intros y S L; [lia|]. destruct (Nat.eq_dec (rweights (receivers y)) 0) as [Z|Z].
  { exists []. split; [constructor|exact Z]. }
  assert (Step : forall y, some_rinv y -> (rweights (receivers y) < Datatypes.S n)%nat ->
    (exists k f, nth_error (receivers y) k = Some f /\ rweight f <> 0%nat /\
       match f with RWaiting _ => hd_error (waiters y) = Some (Feeds k) | _ => True end) ->
    exists es, undisturbed es /\ rweights (receivers (rrun H c ttl es y)) = 0%nat).
  { clear y S L Z. intros y S L (k & f & Q & W & F). pose proof (receiver_progress y k f Q W F) as Lt.
    destruct (IH (rproceed H c ttl (Receiver k) y)) as (es & U & E); [now apply some_step|lia|].
    exists (Receiver k :: es). split; [constructor; [exact Logic.I|exact U]|exact E]. }
  (* with no one finalizing in front *)
  assert (Clear : forall y, some_rinv y -> (rweights (receivers y) < Datatypes.S n)%nat -> rweights (receivers y) <> 0%nat ->
    hd_error (waiters y) <> Some (Closes 0) ->
    exists es, undisturbed es /\ rweights (receivers (rrun H c ttl es y)) = 0%nat).
  { clear y S L Z. intros y S L Z Nc. apply Step; [exact S|exact L|]. destruct S as (calls & ended & x & a & I).
    destruct (waiters y) as [|[h|h] rest] eqn:El.
    - destruct (rweights_pos _ Z) as (k & f & Q & W). exists k, f. split; [exact Q|]. split; [exact W|].
      pose proof (n_recv _ _ _ _ _ I k f Q) as R. rewrite El in R. destruct f; auto. destruct R as [[] _].
    - destruct (front _ _ _ _ _ _ _ I El) as (K1 & K2 & K3 & K4 & _).
      assert (Lh : (h < length (receivers y))%nat).
      { rewrite (n_len _ _ _ _ _ I). unfold good in K2. apply nth_error_Some. destruct (nth_error datas h); congruence. }
      destruct (nth_error (receivers y) h) as [f|] eqn:Q; [|apply nth_error_None in Q; lia].
      exists h, f. split; [exact Q|]. pose proof (n_recv _ _ _ _ _ I h f Q) as R.
      destruct f; cbn in R |- *; split; auto; try lia.
      destruct R as [_ R]. rewrite K2 in R. tauto.
    - exfalso. apply Nc. cbn. f_equal. f_equal. apply (n_who _ _ _ _ _ I). rewrite El. now left. }
  destruct (hd_error (waiters y)) as [[h|h]|] eqn:Eh; try (apply Clear; auto; congruence).
  pose proof S as (calls & ended & x & a & I).
  assert (h = 0%nat) as ->. { apply (n_who _ _ _ _ _ I). destruct (waiters y); [discriminate|]. cbn in Eh. injection Eh as ->. now left. }
  destruct (reader_idles now y x (n_read _ _ _ _ _ I) (or_intror Eh)) as (m & E1 & E2).
  assert (S1 : some_rinv (rrun H c ttl (repeat (RGo 0 now) m) y)) by (apply some_run; auto using go_undisturbed).
  destruct (Clear (rrun H c ttl (repeat (RGo 0 now) m) y)) as (es & U & E); auto.
  - now rewrite E2.
  - now rewrite E2.
  - destruct S1 as (calls1 & ended1 & x1 & a1 & I1). pose proof (n_read _ _ _ _ _ I1) as Er. rewrite E1 in Er. injection Er as <-.
    pose proof (n_closer _ _ _ _ _ I1) as C. cbn in C. intros X. apply C. destruct (waiters (rrun H c ttl (repeat (RGo 0 now) m) y)) as [|w l]; [discriminate|]. cbn [hd_error] in X. assert (w = Closes 0) as -> by congruence. now left.
  - exists (repeat (RGo 0 now) m ++ es). split; [apply Forall_app; split; [apply go_undisturbed|exact U]|]. now rewrite rrun_app.
Qed.
Lemma all_end (now : Z) y : some_rinv y ->
  exists es, undisturbed es /\ all_back (rrun H c ttl es y) /\ readers (rrun H c ttl es y) = [RIdle].
Proof.
  intros S. destruct (receivers_end now _ y S (Nat.lt_succ_diag_r _)) as (es & U & E).
  assert (S1 : some_rinv (rrun H c ttl es y)) by (apply some_run; auto).
  pose proof S1 as (calls & ended & x & a & I).
  assert (B : all_back (rrun H c ttl es y)).
  { intros f J. pose proof (rweights_zero _ E f J) as W. apply In_nth_error in J as [k Q].
    pose proof (n_recv _ _ _ _ _ I k f Q) as R. destruct f; cbn in W; try lia; [eauto|destruct R]. }
  destruct (reader_idles now _ x (n_read _ _ _ _ _ I)) as (m & E1 & E2).
  { destruct x; try (left; discriminate). right. pose proof (n_closer _ _ _ _ _ I) as C. cbn in C.
    destruct (waiters (rrun H c ttl es y)) as [|[h|h] rest] eqn:El; [destruct C| |].
    - exfalso. destruct (front _ _ _ _ _ _ _ I El) as (K1 & K2 & K3 & K4 & _).
      assert (Lh : (h < length (receivers (rrun H c ttl es y)))%nat).
      { rewrite (n_len _ _ _ _ _ I). unfold good in K2. apply nth_error_Some. destruct (nth_error datas h); congruence. }
      destruct (nth_error (receivers (rrun H c ttl es y)) h) as [f|] eqn:Q; [|apply nth_error_None in Q; lia].
      destruct (B f (nth_error_In _ _ Q)) as [o ->]. pose proof (n_recv _ _ _ _ _ I h _ Q) as R. cbn in R. rewrite K2 in R. tauto.
    - cbn. f_equal. f_equal. apply (n_who _ _ _ _ _ I). rewrite El. now left. }
  exists (es ++ repeat (RGo 0 now) m). rewrite rrun_app. split; [apply Forall_app; split; [exact U|apply go_undisturbed]|].
  split; [|exact E1]. intros f J. rewrite E2 in J. now apply B.
Qed.
End Receive.
