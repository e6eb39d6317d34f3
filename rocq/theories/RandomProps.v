(** * Randomness: C61, C70-C73 *)
From Verif Require Import Base BaseFacts CanonModel RandomModel RandomSpec RandomProofs.
Local Open Scope N_scope.

(** ** C61 Canonical tokens do not mix their fields *)
Theorem C61_token_layout : forall c, fields_fit c ->
  canonical_token c =
  Ok (be_enc 32 (c_bits c) ++ be_enc 8 (c_time c) ++ be_enc 8 (c_thread c) ++ be_enc 8 (c_process c)).
Proof. exact token_layout. Qed.
Print Assumptions C61_token_layout.

Theorem C61_token_length : forall c t, canonical_token c = Ok t -> length t = 56%nat.
Proof. exact token_length. Qed.
Print Assumptions C61_token_length.

Theorem C61_tokens_differ : forall c d t, fields_fit c -> fields_fit d ->
  canonical_token c = Ok t -> canonical_token d = Ok t -> c = d.
Proof.
  intros c d t C D Ec Ed. pose proof (token_moment c d t t C D Ec Ed eq_refl) as M.
  pose proof (token_layout c C) as Lc. pose proof (token_layout d D) as Ld.
  assert (E : be_enc 32 (c_bits c) ++ be_enc 8 (c_time c) ++ be_enc 8 (c_thread c) ++ be_enc 8 (c_process c) =
              be_enc 32 (c_bits d) ++ be_enc 8 (c_time d) ++ be_enc 8 (c_thread d) ++ be_enc 8 (c_process d)) by congruence.
  apply app_inj_len in E as [E _]; [|now rewrite !be_enc_length].
  apply be_enc_inj in E; [|apply C|apply D].
  destruct c, d. unfold moment in M. cbn in *. congruence.
Qed.
Print Assumptions C61_tokens_differ.

(** Times of more than 64 bits would spill into the random bits. *)
Theorem C61_long_times_refuted : exists c d, c <> d /\ c_time c <> c_time d /\
  c_bits d < 2 ^ 256 /\ c_thread d < 2 ^ 64 /\ c_process d < 2 ^ 64 /\
  exists t, canonical_token c = Ok t /\ canonical_token d = Ok t.
Proof.
  exists {| c_bits := 1; c_time := 0; c_thread := 5; c_process := 6 |}, {| c_bits := 0; c_time := 2 ^ 64; c_thread := 5; c_process := 6 |}.
  split; [discriminate|]. split; [discriminate|]. split; [reflexivity|]. split; [reflexivity|]. split; [reflexivity|].
  eexists. split; vm_compute; reflexivity.
Qed.
Print Assumptions C61_long_times_refuted.

Definition a_context (time thread : N) : context := {| c_bits := 7; c_time := time; c_thread := thread; c_process := 3 |}.
Example C61_applies : fields_fit (a_context 1000 40) /\
  exists t, canonical_token (a_context 1000 40) = Ok t /\ length t = 56%nat.
Proof. split; [repeat split; reflexivity|]. eexists. split; vm_compute; reflexivity. Qed.

(** ** C70 The hashing object is never read twice on one input *)

(** In any interleaving of any calls of any threads, if no token is a prefix of
    another, all outputs are read at different inputs. *)
Theorem C70_inputs_differ : forall shake block_size calls seed fill l,
  apart (tokens (fst (run shake block_size l (launch calls seed fill)))) ->
  NoDup (queries (fst (run shake block_size l (launch calls seed fill)))).
Proof. intros. now apply queries_nodup. Qed.
Print Assumptions C70_inputs_differ.

(** They are apart if no two calls are made by one thread at one time; the random bits
    do not matter, except that those of [csprng] must not look like the header of what
    the pool's hash absorbs when both are used. *)
Theorem C70_calls_at_different_moments : forall shake block_size calls seed fill l,
  (forall i c x, In c (calls i) -> context_of c = Some x -> fields_fit x) ->
  moments_differ calls ->
  (forall i j x e n y p d m, In (Csprng x e n) (calls i) -> In (Hash y p d m) (calls j) -> ~ header_like block_size (c_bits x)) ->
  NoDup (queries (fst (run shake block_size l (launch calls seed fill)))).
Proof.
  intros shake block_size calls seed fill l F M H. apply queries_nodup. apply tokens_apart; [exact F|exact M|].
  intros i j c d C D. destruct c as [x e n|x p d' n|], d as [y e' n'|y p' d'' n'|]; cbn; try exact I; eauto.
Qed.
Print Assumptions C70_calls_at_different_moments.

Definition random_calls (i : nat) : list call :=
  match i with
  | 0%nat => [Csprng (a_context 10 1) [] 4; Hash (a_context 20 1) x36 [[x01]] 4; Push [x05]]
  | 1%nat => [Hash (a_context 10 2) x5c [] 4; Csprng (a_context 15 2) [x09] 4]
  | _ => []
  end.
Definition echo (q : bytes) (n : N) : bytes := firstn (N.to_nat n) (rev q).

Lemma in_random_calls i c x : In c (random_calls i) -> context_of c = Some x ->
  In x [a_context 10 1; a_context 20 1; a_context 10 2; a_context 15 2].
Proof.
  destruct i as [|[|i]]; cbn; intros H E; repeat (destruct H as [<-|H]; [cbn in E; (discriminate E || (injection E as <-; tauto))|]); destruct H.
Qed.

Example C70_applies :
  (forall i c x, In c (random_calls i) -> context_of c = Some x -> fields_fit x) /\
  moments_differ random_calls /\
  (forall i j x e n y p d m, In (Csprng x e n) (random_calls i) -> In (Hash y p d m) (random_calls j) -> ~ header_like 136 (c_bits x)) /\
  length (queries (fst (run echo 136 [0; 1; 0; 0; 1; 1; 0; 1; 1; 0; 0; 1; 1; 0; 0; 1; 0] (launch random_calls [x00] [[x07]])))%nat) = 4%nat.
Proof.
  split; [|split; [|split]].
  - intros i c x H E. apply in_random_calls with (1 := H) in E.
    repeat (destruct E as [<-|E]; [repeat split; reflexivity|]). destruct E.
  - intros i n j m c d x y. destruct i as [|[|i]], j as [|[|j]]; cbn;
      (destruct n as [|[|[|[|n]]]]; cbn; intros C; try discriminate C; injection C as <-);
      (destruct m as [|[|[|[|m]]]]; cbn; intros D; try discriminate D; injection D as <-);
      cbn; intros X Y NE; (discriminate X || discriminate Y || (injection X as <-; injection Y as <-; try (now destruct NE); discriminate)).
  - intros i j x e n y p d m H _ (count & rest & L & E).
    assert (B : c_bits x = 7).
    { apply in_random_calls with (x := x) in H; [|reflexivity]. repeat (destruct H as [<-|H]; [reflexivity|]). destruct H. }
    rewrite B in E. change (be_enc 32 7) with (repeat x00 31 ++ [x07]) in E. cbn in E. discriminate E.
  - vm_compute. reflexivity.
Qed.

(** If two threads draw the same token, they can be given the same output. *)
Theorem C70_same_token_refuted : forall shake block_size c entropy size seed p, fields_fit c ->
  exists l out,
    let es := fst (run shake block_size l (launch (fun i => if Nat.leb i 1 then [Csprng c entropy size] else []) seed [p])) in
    answers_of 0 es = [out] /\ answers_of 1 es = [out].
Proof.
  intros shake block_size c entropy size seed p C. exists [0; 1; 0; 1; 0; 1; 0; 1]%nat.
  pose proof (token_layout c C) as T. set (t := be_enc 32 _ ++ _) in T. clearbody t.
  eexists. cbn -[canonical_token]. rewrite T. cbn -[canonical_token]. rewrite T. cbn. split; reflexivity.
Qed.
Print Assumptions C70_same_token_refuted.

(** No call waits for another thread: after four steps of its own for each call, a
    thread is through with them, and unless one of its calls failed each of the calls
    that wants an answer has got one of the size it asked for, in order. *)
Theorem C70_calls_end : forall shake block_size calls seed fill l i,
  let '(es, s) := run shake block_size l (launch calls seed fill) in
  (4 * length (calls i) <= length (filter (Nat.eqb i) l))%nat ->
  todo (threads s i) = [] /\
  (broken (threads s i) = None ->
   map (fun e => match e with Asked _ _ n _ => n | _ => 0 end)
       (filter (fun e => match e with Asked j _ _ _ => Nat.eqb j i | _ => false end) es) =
   map size_of (filter wanted (calls i)) /\
   length (answers_of i es) = length (filter wanted (calls i))).
Proof. intros shake block_size calls seed fill l i. exact (calls_end shake block_size calls seed fill l i). Qed.
Print Assumptions C70_calls_end.

Example C70_calls_end_applies :
  let '(es, s) := run echo 136 (repeat 0 12 ++ repeat 1 8)%nat (launch random_calls [x00] [[x07]]) in
  (4 * length (random_calls 0) <= length (filter (Nat.eqb 0) (repeat 0 12 ++ repeat 1 8)%nat))%nat /\
  broken (threads s 0) = None /\ length (answers_of 0 es) = 2%nat.
Proof. vm_compute. split; [lia|]. split; reflexivity. Qed.

(** ** C71 Salted multiplications give numbers of 256 bits *)
Theorem C71_results_fit : forall seed bits more history numbers offsets start mix,
  (0 <= bits < 2 ^ 256)%Z -> (0 <= more < 2 ^ 256)%Z ->
  let g := begin_all history (new_globals seed bits more) in
  exists b, to_32_bytes (multiply_end numbers offsets start mix (g_seed g)) = Ok b /\ length b = 32%nat.
Proof.
  intros seed bits more history numbers offsets start mix B M g.
  destruct (to_32_ok (multiply_end numbers offsets start mix (g_seed g))) as (b & E & L & _); [|now exists b].
  apply end_fit. apply begin_all_fit. now apply new_globals_fit.
Qed.
Print Assumptions C71_results_fit.

Theorem C71_synchronous_results_fit : forall seed bits more history tick ints numbers first,
  (0 <= bits < 2 ^ 256)%Z -> (0 <= more < 2 ^ 256)%Z ->
  let g := begin_all history (new_globals seed bits more) in
  exists b, to_32_bytes (fst (salt_multiply tick ints numbers first g)) = Ok b /\ length b = 32%nat.
Proof.
  intros seed bits more history tick ints numbers first B M g.
  assert (G : globals_fit g) by (apply begin_all_fit; now apply new_globals_fit).
  unfold salt_multiply. pose proof (begin_fit tick ints numbers first g G) as G'.
  destruct (multiply_begin tick ints numbers first g) as [start g']. cbn [fst snd] in *.
  destruct (to_32_ok (multiply_end numbers (map (fun _ => g_offset g') numbers) start (g_mix g') (g_seed g'))) as (b & E & L & _);
    [|now exists b].
  apply end_fit. apply G'.
Qed.
Print Assumptions C71_synchronous_results_fit.

(** The offset always begins with the byte 0x99; it is never zero. *)
Theorem C71_offset_not_zero : forall seed bits more history,
  (0 <= bits < 2 ^ 256)%Z -> (0 <= more < 2 ^ 256)%Z ->
  let g := begin_all history (new_globals seed bits more) in
  (g_offset g / 2 ^ 256 = 153)%Z /\ g_offset g <> 0%Z.
Proof.
  intros seed bits more history B M g.
  assert (G : globals_fit g) by (apply begin_all_fit; now apply new_globals_fit).
  destruct G as [_ O]. split; [exact O|]. intros E. rewrite E in O. discriminate O.
Qed.
Print Assumptions C71_offset_not_zero.

Example C71_applies :
  let g := begin_all [{| b_tick := 12345; b_ints := [7; 8]%Z; b_numbers := [-3]%Z; b_first := [x01; x02] |}] (new_globals [x09] 1 2) in
  g_offset g <> g_offset (new_globals [x09] 1 2) /\
  exists b, to_32_bytes (fst (salt_multiply 5 [1; 2]%Z [-7; 9]%Z [xff] g)) = Ok b /\ b <> repeat x00 32.
Proof. vm_compute. split; [discriminate|]. eexists. split; [reflexivity|discriminate]. Qed.

(** ** C72 The daemon's delays *)
Theorem C72_delay_positive : forall second delay ops, (0 < delay)%Z ->
  let d := fold_left (fun d x => daemon_step second x d) ops (new_daemon delay) in
  (0 < max_delay d)%Z /\ (mutating d = false -> max_delay d = initial d).
Proof.
  intros second delay ops D d. assert (S : sound_daemon d).
  { apply daemon_run_sound. split; [|split]; cbn; auto. }
  split; apply S.
Qed.
Print Assumptions C72_delay_positive.

Lemma acknowledged second ops : forall d, mutating d = false ->
  only_acknowledgements ops = true -> fold_left (fun d x => daemon_step second x d) ops d = d.
Proof.
  induction ops as [|[now [|? ?|]] ops IH]; intros d M O; try discriminate O; [reflexivity|].
  cbn [fold_left]. unfold daemon_step at 2. cbn [snd do_daemon]. rewrite M. cbn [negb]. apply IH; assumption.
Qed.
Lemma initial_kept second ops : forall d, only_acknowledgements ops = true ->
  let d' := fold_left (fun d x => daemon_step second x d) ops d in
  initial d' = initial d /\ (mutating d' = true -> deadline d' = deadline d /\ mutating d = true) /\
  (mutating d = false -> mutating d' = false).
Proof.
  induction ops as [|[now [|? ?|]] ops IH]; intros d O; try discriminate O; [now split|].
  cbn [fold_left]. specialize (IH (daemon_step second (now, Acknowledge) d) O). cbn zeta in IH |- *.
  set (d' := fold_left _ ops _) in *. destruct IH as (I1 & I2 & I3).
  unfold daemon_step in I1, I2, I3. cbn [fst snd do_daemon] in I1, I2, I3.
  destruct (mutating d) eqn:M; cbn [negb] in *; [|now rewrite M in *].
  destruct (Z.leb_spec (deadline d - now) 0) as [L|L]; [cbn in *|destruct (Z.ltb_spec second (max_delay d - (deadline d - now)))]; cbn in *; try rewrite M in *.
  - split; [exact I1|]. split; [|discriminate]. intros X. rewrite I3 in X by reflexivity. discriminate X.
  - split; [exact I1|]. split; [exact I2|discriminate].
  - split; [exact I1|]. split; [exact I2|discriminate].
Qed.

(** A temporary delay ends: when the daemon looks at the clock at or after the deadline,
    the delay is again what [set_max_delay] last set, and it stays. *)
Theorem C72_temporary_delay_ends : forall second d now delay duration before later t,
  (0 < delay)%Z ->
  only_acknowledgements before = true -> only_acknowledgements later = true ->
  (now + duration <= t)%Z ->
  let d' := fold_left (fun d x => daemon_step second x d)
              (((now, SetTemporary delay duration) :: before) ++ (t, Acknowledge) :: later) d in
  mutating d' = false /\ max_delay d' = initial d /\ initial d' = initial d.
Proof.
  intros second d now delay duration before later t D OB OL T d'. subst d'. rewrite fold_left_app. cbn [fold_left].
  set (d1 := daemon_step second (now, SetTemporary delay duration) d).
  assert (D1 : d1 = {| max_delay := delay; initial := initial d; mutating := true; deadline := now + duration |}).
  { subst d1. unfold daemon_step. cbn [fst snd do_daemon]. destruct (Z.ltb_spec 0 delay); [reflexivity|lia]. }
  destruct (initial_kept second before d1 OB) as (I1 & I2 & I3).
  set (d2 := fold_left _ before d1) in *. 
  set (d3 := daemon_step second (t, Acknowledge) d2).
  assert (D3 : mutating d3 = false /\ initial d3 = initial d /\ (mutating d2 = true -> max_delay d3 = initial d)).
  { subst d3. unfold daemon_step. cbn [fst snd do_daemon]. destruct (mutating d2) eqn:M; cbn [negb].
    - destruct (I2 eq_refl) as [DL _]. rewrite DL, D1. cbn [deadline]. destruct (Z.leb_spec (now + duration - t) 0); [|lia].
      cbn. rewrite I1, D1. repeat split.
    - rewrite I1, D1. cbn. repeat split; [exact M|discriminate]. }
  destruct D3 as (M3 & I4 & MD). rewrite (acknowledged second later d3 M3 OL).
  split; [exact M3|]. split; [|exact I4]. destruct (mutating d2) eqn:M2; [auto|].
  (* the deadline was already reached before *) subst d3. unfold daemon_step. cbn [fst snd do_daemon]. rewrite M2. cbn [negb].
  subst d2. clear - D1 OB M2. rewrite D1 in *. clear d1 D1.
  assert (G : forall ops e, initial e = initial d -> (mutating e = false -> max_delay e = initial d) -> only_acknowledgements ops = true ->
    mutating (fold_left (fun d x => daemon_step second x d) ops e) = false ->
    max_delay (fold_left (fun d x => daemon_step second x d) ops e) = initial d).
  { induction ops as [|[u [|? ?|]] ops IH]; intros e E1 E2 O M; try discriminate O; [now apply E2|].
    cbn [fold_left] in *. apply IH; auto.
    - unfold daemon_step. cbn [fst snd do_daemon]. destruct (mutating e); cbn [negb]; [|exact E1].
      destruct (Z.leb_spec (deadline e - u) 0); [exact E1|]. destruct (Z.ltb_spec second (max_delay e - (deadline e - u))); exact E1.
    - unfold daemon_step. cbn [fst snd do_daemon]. destruct (mutating e) eqn:ME; cbn [negb]; [|auto].
      destruct (Z.leb_spec (deadline e - u) 0); [intros _; exact E1|].
      destruct (Z.ltb_spec second (max_delay e - (deadline e - u))); cbn; rewrite ?ME; discriminate. }
  apply G; auto. discriminate.
Qed.
Print Assumptions C72_temporary_delay_ends.

(** While a temporary delay lasts, the daemon never plans to sleep more than a second
    past the deadline. *)
Theorem C72_deadline_not_slept_over : forall second now d, (0 <= second)%Z ->
  let d' := daemon_step second (now, Acknowledge) d in
  mutating d' = true -> (now + max_delay d' <= deadline d' + second)%Z.
Proof.
  intros second now d S. unfold daemon_step. cbn [fst snd do_daemon]. destruct (mutating d) eqn:M; cbn [negb].
  - destruct (Z.leb_spec (deadline d - now) 0); [discriminate|].
    destruct (Z.ltb_spec second (max_delay d - (deadline d - now))); cbn; intros _; lia.
  - cbn. congruence.
Qed.
Print Assumptions C72_deadline_not_slept_over.

(** Delays that are not positive are refused. *)
Theorem C72_refused : forall second now d op,
  match op with SetMax x | SetTemporary x _ => (x <= 0)%Z | Acknowledge => False end ->
  do_daemon second now op d = Err ValueErr /\ daemon_step second (now, op) d = d.
Proof.
  intros second now d [x|x y|] H; [| |destruct H];
    (assert (E : forall A (a b : A), (if Z.ltb 0 x then a else b) = b) by (intros; destruct (Z.ltb_spec 0 x); [lia|reflexivity]));
    unfold daemon_step; cbn [fst snd do_daemon]; rewrite E; split; reflexivity.
Qed.
Print Assumptions C72_refused.

(** Until a temporary delay is set, the delay is the one last set, whenever the daemon looks. *)
Fixpoint last_setting (delay : Z) (ops : list (Z * daemon_op)) : Z :=
  match ops with
  | [] => delay
  | (_, SetMax x) :: ops => last_setting (if Z.ltb 0 x then x else delay) ops
  | _ :: ops => last_setting delay ops
  end.
Theorem C72_delay_stays : forall second delay ops, (forall now x y, ~ In (now, SetTemporary x y) ops) ->
  max_delay (fold_left (fun d x => daemon_step second x d) ops (new_daemon delay)) = last_setting delay ops.
Proof.
  intros second delay ops N.
  assert (G : forall d, mutating d = false -> max_delay d = initial d -> (forall now x y, ~ In (now, SetTemporary x y) ops) ->
    max_delay (fold_left (fun d x => daemon_step second x d) ops d) = last_setting (max_delay d) ops).
  { clear N. induction ops as [|[now [x|x y|]] ops IH]; intros d M E N; [reflexivity| | |]; cbn [fold_left last_setting].
    - unfold daemon_step at 2. cbn [fst snd do_daemon].
      destruct (Z.ltb 0 x); rewrite IH by (cbn; auto; intros ? ? ? J; eapply N; right; exact J); reflexivity.
    - exfalso. eapply N. left. reflexivity.
    - unfold daemon_step at 2. cbn [fst snd do_daemon]. rewrite M. cbn [negb]. apply IH; auto. intros ? ? ? J. eapply N. right. exact J. }
  apply (G (new_daemon delay)); auto.
Qed.
Print Assumptions C72_delay_stays.
Example C72_stays_case :
  let ops := [(-9, Acknowledge); (5, SetMax 9000); (6, SetMax 0); (20, Acknowledge)]%Z in
  (forall now x y, ~ In (now, SetTemporary x y) ops) /\ last_setting 1000 ops = 9000%Z.
Proof. split; [|reflexivity]. intros now x y J. repeat (destruct J as [J|J]; [discriminate|]). exact J. Qed.

Example C72_applies :
  let d := fold_left (fun d x => daemon_step 1000 x d)
    [(5, SetMax 9000); (10, SetTemporary 20000 7000); (20, Acknowledge)]%Z (new_daemon 1000) in
  max_delay d = 6990%Z /\ mutating d = true /\
  max_delay (daemon_step 1000 (7010, Acknowledge)%Z d) = 9000%Z.
Proof. vm_compute. repeat split. Qed.

(** ** C73 Generating random numbers renews the pool *)

(** The pool holds the newest 32 values. *)
Theorem C73_newest_values : forall xs pool, (length pool <= POOL_SIZE)%nat ->
  push_all xs pool = firstn POOL_SIZE (rev xs ++ pool).
Proof. exact push_all_pool. Qed.
Print Assumptions C73_newest_values.

(** A freshness of three or more replaces every value of the pool, whatever else other
    threads push meanwhile. *)
Theorem C73_whole_pool_renewed : forall freshness n xs pool,
  (3 <= freshness)%Z -> pushes freshness = Ok n -> n <= blen xs -> (length pool <= POOL_SIZE)%nat ->
  push_all xs pool = firstn POOL_SIZE (rev xs) /\ length (push_all xs pool) = POOL_SIZE.
Proof.
  intros f n xs pool F P L B. assert (N : (33 <= length xs)%nat).
  { unfold pushes in P. destruct (Z.ltb_spec f 0); [lia|]. destruct (Z.eqb_spec f 0); [lia|]. injection P as <-. unfold blen in L. lia. }
  rewrite push_all_pool by exact B. rewrite firstn_app.
  replace (POOL_SIZE - length (rev xs))%nat with 0%nat by (rewrite rev_length; unfold POOL_SIZE; lia).
  rewrite firstn_O, app_nil_r. split; [reflexivity|]. rewrite firstn_length, rev_length. unfold POOL_SIZE. lia.
Qed.
Print Assumptions C73_whole_pool_renewed.

(** Less than that leaves old values in a full pool. *)
Theorem C73_less_fresh : forall freshness n xs pool,
  (0 <= freshness < 3)%Z -> pushes freshness = Ok n -> n = blen xs -> length pool = POOL_SIZE ->
  (10 <= length (skipn (length xs) (push_all xs pool)))%nat /\
  skipn (length xs) (push_all xs pool) = firstn (POOL_SIZE - length xs) pool.
Proof.
  intros f n xs pool F P L B. assert (N : (length xs <= 22)%nat).
  { unfold pushes in P. destruct (Z.ltb_spec f 0); [lia|]. destruct (Z.eqb_spec f 0); injection P as <-; unfold blen in L; lia. }
  assert (E : skipn (length xs) (push_all xs pool) = firstn (POOL_SIZE - length xs) pool).
  { rewrite push_all_pool by lia. rewrite firstn_app, rev_length. rewrite firstn_all2 by (rewrite rev_length; unfold POOL_SIZE; lia).
    apply skipn_exact. apply rev_length. }
  split; [|exact E]. rewrite E.
  rewrite firstn_length, B. unfold POOL_SIZE. lia.
Qed.
Print Assumptions C73_less_fresh.

Example C73_applies : pushes 3 = Ok 33 /\ pushes 2 = Ok 22 /\ pushes 0 = Ok 1 /\ pushes (-1) = Err ValueErr /\
  33 <= blen (repeat [x01] 33) /\ (length (repeat [x02] 32) <= POOL_SIZE)%nat /\
  push_all (repeat [x01] 33) (repeat [x02] 32) = repeat [x01] 32.
Proof. vm_compute. repeat split; try discriminate; lia. Qed.
