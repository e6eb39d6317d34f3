From Verif Require Import Base BaseFacts PermModel PermSpec PermProofs PermProps
  ClockModel ClockProofs ClockProps IdModel IdSpec.
Local Open Scope Z_scope.

(** ** Sequence ids *)
Lemma make_seqid_ok : forall mult size key q, make_seqid mult size key = Ok q ->
  sq_size q = size /\ 1 <= size <= 32 /\ zlen key = 5 * size /\
  exists c, make_chain_config FastChain size mult = Ok c /\ make_chain c key = Ok (sq_perm q).
Proof.
  intros mult size key q H. unfold make_seqid in H.
  destruct (_ && _) eqn:E in H; [|discriminate].
  apply bind_ok in H. destruct H as (c & Hc & H). apply bind_ok in H. destruct H as (p & Hp & H).
  apply Ok_inj in H. subst q. cbn [sq_size sq_perm].
  pose proof (make_chain_len _ _ _ Hp) as L.
  destruct (make_chain_config_ok _ _ _ _ Hc) as (_ & _ & _ & _ & _ & _ & _ & _ & _ & _ & K & _).
  rewrite K in L. split; [reflexivity|]. split; [lia|]. split; [lia|]. exists c. auto.
Qed.

Lemma seqid_bij : forall mult size key q, make_seqid mult size key = Ok q ->
  inverse_bijections size (chain_permute (sq_perm q)) (chain_invert (sq_perm q)).
Proof.
  intros mult size key q H.
  destruct (make_seqid_ok _ _ _ _ H) as (_ & _ & _ & c & Hc & Hp).
  exact (proj1 (C12_chain_bijection _ _ _ _ _ _ [] Hc Hp)).
Qed.

Lemma z_to_bytes_be_z : forall size b, blen b = size -> z_to_bytes size BigEndian (be_z b) = Ok b.
Proof.
  intros size b L. unfold z_to_bytes, be_z.
  replace (Z.of_N (be_int b) <? 0) with false by lia.
  rewrite N2Z.id. subst size. apply to_bytes_be_be_int.
Qed.

Lemma z_to_bytes_domain : forall size v, in_domain (Z.of_N size) v ->
  exists b, z_to_bytes size BigEndian v = Ok b /\ blen b = size /\ be_z b = v.
Proof.
  intros size v H. destruct (z_to_bytes_fit size BigEndian v H) as [b E].
  exists b. split; [exact E|]. apply z_to_bytes_ok in E. destruct E as (A & B & _). auto.
Qed.

Lemma be_z_in_domain : forall size b, blen b = size -> in_domain (Z.of_N size) (be_z b).
Proof.
  intros size b L. apply be_z_domain. unfold zlen. unfold blen in L. lia.
Qed.

Lemma seqid_new_total : forall mult size key q v, make_seqid mult size key = Ok q ->
  in_domain size v ->
  exists b, seqid_new q v = Ok b /\ zlen b = size /\ seqid_read q b = Ok v.
Proof.
  intros mult size key q v H Hv.
  destruct (make_seqid_ok _ _ _ _ H) as (S & R & _).
  destruct (proj1 (seqid_bij _ _ _ _ H) v Hv) as (w & A & B & C).
  rewrite <- (Z2N.id size) in B by lia.
  destruct (z_to_bytes_domain _ _ B) as (b & E & L & Z).
  exists b. unfold seqid_new, seqid_read. rewrite A, S. cbn [bind]. rewrite Z.
  split; [exact E|]. split; [|exact C]. unfold zlen. unfold blen in L. lia.
Qed.

Lemma seqid_read_total : forall mult size key q b, make_seqid mult size key = Ok q ->
  zlen b = size ->
  exists v, seqid_read q b = Ok v /\ in_domain size v /\ seqid_new q v = Ok b.
Proof.
  intros mult size key q b H L.
  destruct (make_seqid_ok _ _ _ _ H) as (S & R & _).
  destruct (proj2 (seqid_bij _ _ _ _ H) (be_z b) (be_z_domain _ _ L)) as (v & A & B & C).
  exists v. split; [exact A|]. split; [exact B|]. unfold seqid_new. rewrite C, S. cbn [bind].
  apply z_to_bytes_be_z. unfold blen. unfold zlen in L. lia.
Qed.

(** ** Raw GUIDs *)
Definition the_config (cid : N) : raw_config :=
  {| rc_timestamp_bytes := 8; rc_prf_bytes := cid - 10; rc_node_id_bytes := 1;
     rc_ticker_bytes := 1; rc_tick_domain := 255; rc_size := cid;
     rc_clock := {| ck_unit := Nanoseconds; ck_epoch := EPOCH_NS |} |}.

Record wf_raw (cid : N) (r : raw_guid) : Prop := {
  wr_cid : (12 <= cid <= 32)%N;
  wr_config : rg_config r = the_config cid;
  wr_node : blen (rg_node r) = 1%N;
  wr_tick : (rg_tick r < 256)%N;
}.

Lemma raw_config_of_ok : forall cid c, raw_config_of cid = Ok c ->
  (12 <= cid <= 32)%N /\ c = the_config cid.
Proof.
  intros cid c H. unfold raw_config_of in H. destruct (_ && _) eqn:E in H; [|discriminate].
  split; [lia|]. unfold make_raw_config in H. cbn [N.eqb] in H.
  replace (cid =? 8 + (cid - 10) + 1 + 1)%N with true in H by lia. cbn [negb] in H.
  apply Ok_inj in H. symmetry. exact H.
Qed.

Lemma raw_config_of_total : forall cid, (12 <= cid <= 32)%N ->
  raw_config_of cid = Ok (the_config cid).
Proof.
  intros cid H. unfold raw_config_of. replace ((12 <=? cid) && (cid <=? 32))%N with true by lia.
  unfold make_raw_config. cbn [N.eqb].
  replace (cid =? 8 + (cid - 10) + 1 + 1)%N with true by lia. reflexivity.
Qed.

Lemma make_raw_guid_ok : forall cid node r, make_raw_guid cid node = Ok r ->
  wf_raw cid r /\ rg_node r = node /\ rg_tick r = 0%N.
Proof.
  intros cid node r H. unfold make_raw_guid in H. apply bind_ok in H. destruct H as (c & Hc & H).
  apply raw_config_of_ok in Hc. destruct Hc as [R ->].
  destruct (negb _) eqn:E in H; [discriminate|]. apply Ok_inj in H. subst r.
  cbn [rc_node_id_bytes the_config] in E.
  split; [|split; reflexivity]. constructor; cbn [rg_config rg_node rg_tick]; try reflexivity; lia.
Qed.

Definition next_tick (r : raw_guid) : N := ((rg_tick r + 1) mod 256)%N.

Lemma incremented_tick_ok : forall cid r, wf_raw cid r ->
  incremented_tick r = Ok ([byte_of (next_tick r)],
    {| rg_config := rg_config r; rg_node := rg_node r; rg_tick := next_tick r |}).
Proof.
  intros cid r W. unfold incremented_tick. rewrite (wr_config _ _ W).
  cbn [rc_tick_domain rc_ticker_bytes the_config].
  change 255%N with (N.ones 8). rewrite N.land_ones. change (2 ^ 8)%N with 256%N.
  fold (next_tick r).
  assert (next_tick r < 256)%N by (apply N.mod_lt; lia).
  rewrite to_bytes_be_fit by (change (256 ^ 1)%N with 256%N; assumption). cbn [bind].
  change (N.to_nat 1) with 1%nat. reflexivity.
Qed.

Lemma raw_new_ok : forall cid r now token g r', wf_raw cid r ->
  raw_new r now token = Ok (g, r') ->
  exists ts, make_timestamp (rc_clock (the_config cid)) now 8 BigEndian = Ok ts /\ blen ts = 8%N /\
    g = ts ++ token ++ rg_node r ++ [byte_of (next_tick r)] /\
    wf_raw cid r' /\ rg_node r' = rg_node r /\ rg_tick r' = next_tick r.
Proof.
  intros cid r now token g r' W H. unfold raw_new in H.
  rewrite (incremented_tick_ok cid r W) in H. apply bind_ok in H. destruct H as (ts & Ht & H).
  rewrite (wr_config _ _ W) in Ht. cbn [rc_timestamp_bytes the_config] in Ht.
  cbn [bind] in H. apply Ok_inj in H. injection H as <- <-.
  exists ts. split; [exact Ht|]. destruct (C20_timestamp_roundtrip _ _ _ _ _ Ht) as [_ L].
  split; [exact L|]. split; [reflexivity|].
  split; [|split; reflexivity]. destruct W. constructor; cbn [rg_config rg_node rg_tick]; auto.
  apply N.mod_lt. lia.
Qed.

Lemma raw_new_total : forall cid r now token, wf_raw cid r ->
  0 <= clock_time (rc_clock (the_config cid)) now < 256 ^ 8 ->
  exists g r', raw_new r now token = Ok (g, r').
Proof.
  intros cid r now token W H. unfold raw_new. rewrite (incremented_tick_ok cid r W).
  rewrite (wr_config _ _ W). cbn [rc_timestamp_bytes the_config].
  destruct (proj2 (C20_timestamp_total (rc_clock (the_config cid)) now 8 BigEndian)) as [ts E].
  - exact H.
  - rewrite E. cbn [bind]. do 2 eexists. reflexivity.
Qed.

Lemma raw_read_layout : forall cid ts token node tick, (12 <= cid <= 32)%N ->
  blen ts = 8%N -> blen token = (cid - 10)%N -> blen node = 1%N -> blen tick = 1%N ->
  raw_read (the_config cid) (ts ++ token ++ node ++ tick) =
  Ok {| co_timestamp := ts; co_token := token; co_node_id := node; co_ticker := tick |}.
Proof.
  intros cid ts token node tick R L1 L2 L3 L4. unfold raw_read.
  cbn [rc_size rc_timestamp_bytes rc_prf_bytes rc_node_id_bytes rc_ticker_bytes the_config].
  rewrite !blen_app, L1, L2, L3, L4.
  replace (8 + (cid - 10 + (1 + 1)) =? cid)%N with true by lia. cbn [negb]. cbv zeta.
  rewrite (take_app 8 ts), (drop_app 8 ts) by assumption.
  rewrite (take_app _ token), (drop_app _ token) by assumption.
  rewrite (take_app 1 node), (drop_app 1 node) by assumption.
  rewrite (take_all 1 tick) by lia. reflexivity.
Qed.

Lemma raw_new_len : forall cid r now token g r', wf_raw cid r ->
  blen token = (cid - 10)%N -> raw_new r now token = Ok (g, r') -> blen g = cid.
Proof.
  intros cid r now token g r' W T H.
  destruct (raw_new_ok _ _ _ _ _ _ W H) as (ts & _ & L & -> & _).
  rewrite !blen_app, L, T, (wr_node _ _ W). pose proof (wr_cid _ _ W).
  change (blen [byte_of (next_tick r)]) with 1%N. lia.
Qed.

(** The fields of two equal GUIDs are equal. *)
Lemma raw_new_inj : forall cid r1 r2 now1 now2 t1 t2 g r1' r2',
  wf_raw cid r1 -> wf_raw cid r2 -> blen t1 = (cid - 10)%N -> blen t2 = (cid - 10)%N ->
  raw_new r1 now1 t1 = Ok (g, r1') -> raw_new r2 now2 t2 = Ok (g, r2') ->
  clock_time (rc_clock (the_config cid)) now1 = clock_time (rc_clock (the_config cid)) now2 /\
  t1 = t2 /\ rg_node r1 = rg_node r2 /\ next_tick r1 = next_tick r2.
Proof.
  intros cid r1 r2 now1 now2 t1 t2 g r1' r2' W1 W2 L1 L2 H1 H2.
  destruct (raw_new_ok _ _ _ _ _ _ W1 H1) as (s1 & T1 & S1 & E1 & _).
  destruct (raw_new_ok _ _ _ _ _ _ W2 H2) as (s2 & T2 & S2 & E2 & _).
  pose proof (wr_cid _ _ W1) as R.
  pose proof (raw_read_layout cid s1 t1 (rg_node r1) [byte_of (next_tick r1)] R S1 L1 (wr_node _ _ W1) eq_refl) as P1.
  pose proof (raw_read_layout cid s2 t2 (rg_node r2) [byte_of (next_tick r2)] R S2 L2 (wr_node _ _ W2) eq_refl) as P2.
  rewrite <- E1 in P1. rewrite <- E2 in P2. rewrite P1 in P2. apply Ok_inj in P2.
  injection P2 as Es Et En Ek.
  destruct (C20_timestamp_roundtrip _ _ _ _ _ T1) as [C1 _].
  destruct (C20_timestamp_roundtrip _ _ _ _ _ T2) as [C2 _].
  split; [congruence|]. split; [exact Et|]. split; [exact En|].
  apply (f_equal bval) in Ek. rewrite !bval_byte_of in Ek.
  unfold next_tick in *. rewrite !N.mod_mod in Ek by lia. exact Ek.
Qed.

(** *** Histories *)
Lemma raw_run_cons : forall r now token h,
  raw_run r ((now, token) :: h) =
  match raw_new r now token with
  | Ok (g, r') => Ok g :: raw_run r' h
  | Err e => Err e :: raw_run r h
  end.
Proof. reflexivity. Qed.

(** What happened at a successful position: the instance then, and how many ticks
    had been made before. *)
Lemma raw_run_nth : forall cid h r j g, wf_raw cid r ->
  nth_error (raw_run r h) j = Some (Ok g) ->
  exists c rj rj' k, nth_error h j = Some c /\ wf_raw cid rj /\ rg_node rj = rg_node r /\
    raw_new rj (fst c) (snd c) = Ok (g, rj') /\
    rg_tick rj = ((rg_tick r + N.of_nat k) mod 256)%N /\ (k <= j)%nat.
Proof.
  intros cid h. induction h as [|[now token] h IH]; intros r j g W H.
  - destruct j; discriminate.
  - rewrite raw_run_cons in H. destruct (raw_new r now token) as [[g0 r']|e] eqn:E.
    + destruct j as [|j]; cbn [nth_error] in H.
      * injection H as <-. exists (now, token), r, r', O. cbn [nth_error fst snd].
        split; [reflexivity|]. split; [exact W|]. split; [reflexivity|]. split; [exact E|].
        split; [|lia]. rewrite N.add_0_r, N.mod_small; [reflexivity|apply (wr_tick _ _ W)].
      * destruct (raw_new_ok _ _ _ _ _ _ W E) as (ts & _ & _ & _ & W' & N' & T').
        destruct (IH r' j g W' H) as (c & rj & rj' & k & A & B & C & D & F & G).
        exists c, rj, rj', (S k). cbn [nth_error]. split; [exact A|]. split; [exact B|].
        split; [congruence|]. split; [exact D|]. split; [|lia].
        rewrite F, T'. unfold next_tick. rewrite N.add_mod_idemp_l by lia. f_equal. lia.
    + destruct j as [|j]; cbn [nth_error] in H; [discriminate|].
      destruct (IH r j g W H) as (c & rj & rj' & k & A & B & C & D & F & G).
      exists c, rj, rj', k. cbn [nth_error]. split; [exact A|]. split; [exact B|].
      split; [exact C|]. split; [exact D|]. split; [exact F|lia].
Qed.

Lemma raw_run_pair : forall cid h r i j gi gj, wf_raw cid r -> (i < j)%nat ->
  nth_error (raw_run r h) i = Some (Ok gi) -> nth_error (raw_run r h) j = Some (Ok gj) ->
  exists ci cj ri rj ri' rj' k,
    nth_error h i = Some ci /\ nth_error h j = Some cj /\
    wf_raw cid ri /\ wf_raw cid rj /\ rg_node ri = rg_node r /\ rg_node rj = rg_node r /\
    raw_new ri (fst ci) (snd ci) = Ok (gi, ri') /\ raw_new rj (fst cj) (snd cj) = Ok (gj, rj') /\
    rg_tick rj = ((next_tick ri + N.of_nat k) mod 256)%N /\ (k < j - i)%nat.
Proof.
  intros cid h. induction h as [|[now token] h IH]; intros r i j gi gj W L Hi Hj.
  - destruct i; discriminate.
  - destruct j as [|j]; [lia|].
    rewrite raw_run_cons in Hi, Hj.
    destruct (raw_new r now token) as [[g0 r']|e] eqn:E.
    + destruct (raw_new_ok _ _ _ _ _ _ W E) as (ts & _ & _ & _ & W' & N' & T').
      destruct i as [|i]; cbn [nth_error] in Hi, Hj.
      * injection Hi as <-.
        destruct (raw_run_nth cid h r' j gj W' Hj) as (c & rj & rj' & k & A & B & C & D & F & G).
        exists (now, token), c, r, rj, r', rj', k. cbn [nth_error fst snd].
        rewrite <- T'.
        split; [reflexivity|]. split; [exact A|]. split; [exact W|]. split; [exact B|].
        split; [reflexivity|]. split; [congruence|]. split; [exact E|]. split; [exact D|].
        split; [exact F|lia].
      * destruct (IH r' i j gi gj W' ltac:(lia) Hi Hj) as (ci & cj & ri & rj & ri' & rj' & k & A & B & C & D & E1 & E2 & F & G & I & J).
        exists ci, cj, ri, rj, ri', rj', k. cbn [nth_error].
        split; [exact A|]. split; [exact B|]. split; [exact C|]. split; [exact D|].
        split; [congruence|]. split; [congruence|]. split; [exact F|]. split; [exact G|].
        split; [exact I|lia].
    + destruct i as [|i]; cbn [nth_error] in Hi, Hj; [discriminate|].
      destruct (IH r i j gi gj W ltac:(lia) Hi Hj) as (ci & cj & ri & rj & ri' & rj' & k & A & B & C & D & E1 & E2 & F & G & I & J).
      exists ci, cj, ri, rj, ri', rj', k. cbn [nth_error].
      split; [exact A|]. split; [exact B|]. split; [exact C|]. split; [exact D|].
      split; [exact E1|]. split; [exact E2|]. split; [exact F|]. split; [exact G|].
      split; [exact I|lia].
Qed.

Lemma good_token_nth : forall cid h i c, Forall (good_token cid) h ->
  nth_error h i = Some c -> blen (snd c) = (cid - 10)%N.
Proof.
  intros cid h i c F H. apply nth_error_In in H. rewrite Forall_forall in F. exact (F c H).
Qed.

(** Equal GUIDs of one instance: same reading, and at least 256 calls apart. *)
Lemma raw_run_equal : forall cid h r i j g, wf_raw cid r -> Forall (good_token cid) h ->
  (i < j)%nat ->
  nth_error (raw_run r h) i = Some (Ok g) -> nth_error (raw_run r h) j = Some (Ok g) ->
  (256 <= j - i)%nat /\
  exists ci cj, nth_error h i = Some ci /\ nth_error h j = Some cj /\ reading ci = reading cj.
Proof.
  intros cid h r i j g W F L Hi Hj.
  destruct (raw_run_pair cid h r i j g g W L Hi Hj) as
    (ci & cj & ri & rj & ri' & rj' & k & A & B & C & D & E1 & E2 & G & H & I & J).
  destruct (raw_new_inj cid ri rj _ _ _ _ _ _ _ C D (good_token_nth _ _ _ _ F A)
    (good_token_nth _ _ _ _ F B) G H) as (X1 & X2 & X3 & X4).
  split.
  - unfold next_tick in X4 at 2. rewrite I in X4. rewrite N.add_mod_idemp_l in X4 by lia.
    assert (next_tick ri < 256)%N by (apply N.mod_lt; lia).
    destruct (le_lt_dec 256 (j - i)) as [|Q]; [assumption|exfalso].
    rewrite <- N.add_assoc in X4.
    assert (0 < N.of_nat k + 1 < 256)%N by lia.
    set (m := (N.of_nat k + 1)%N) in *.
    pose proof (N.div_mod (next_tick ri + m) 256 ltac:(lia)) as DM.
    rewrite <- X4 in DM.
    assert (m = 256 * ((next_tick ri + m) / 256))%N by lia. 
    assert ((next_tick ri + m) / 256 < 1 \/ 1 <= (next_tick ri + m) / 256)%N by lia. lia.
  - exists ci, cj. split; [exact A|]. split; [exact B|]. exact X1.
Qed.

Lemma filter_all_length : forall {A} (f : A -> bool) l, (forall x, In x l -> f x = true) ->
  length (filter f l) = length l.
Proof.
  intros A f l. induction l as [|x l IH]; intros H; [reflexivity|]. cbn [filter].
  rewrite (H x) by (left; reflexivity). cbn [length]. f_equal. apply IH. intros; apply H; right; assumption.
Qed.

Lemma count_window : forall {A} (f : A -> bool) (l : list A) i j, (i <= j)%nat -> (j < length l)%nat ->
  (forall k x, (i <= k <= j)%nat -> nth_error l k = Some x -> f x = true) ->
  (j - i + 1 <= length (filter f l))%nat.
Proof.
  intros A f l i j Lij Lj H.
  set (w := firstn (j - i + 1) (skipn i l)).
  assert (E : l = firstn i l ++ w ++ skipn (j - i + 1) (skipn i l)).
  { unfold w. rewrite firstn_skipn. symmetry. apply firstn_skipn. }
  assert (Lw : length w = (j - i + 1)%nat).
  { unfold w. rewrite firstn_length, skipn_length. lia. }
  assert (Fw : length (filter f w) = length w).
  { apply filter_all_length. intros x Hx. apply In_nth_error in Hx. destruct Hx as [k Hk].
    assert (k < length w)%nat by (apply nth_error_Some; congruence).
    apply (H (i + k)%nat x); [lia|].
    rewrite E. rewrite nth_error_app2 by (rewrite firstn_length; lia).
    rewrite firstn_length, Nat.min_l by lia. replace (i + k - i)%nat with k by lia.
    rewrite nth_error_app1 by assumption. exact Hk. }
  rewrite E, !filter_app, !app_length. lia.
Qed.

Lemma raw_run_unique : forall cid h r i j g, wf_raw cid r -> Forall (good_token cid) h ->
  monotone h -> at_most_256_per_reading h ->
  nth_error (raw_run r h) i = Some (Ok g) -> nth_error (raw_run r h) j = Some (Ok g) -> i = j.
Proof.
  assert (W0 : forall cid h r i j g, wf_raw cid r -> Forall (good_token cid) h ->
    monotone h -> at_most_256_per_reading h ->
    nth_error (raw_run r h) i = Some (Ok g) -> nth_error (raw_run r h) j = Some (Ok g) -> ~ (i < j)%nat).
  { intros cid h r i j g W F M K Hi Hj L.
    destruct (raw_run_equal cid h r i j g W F L Hi Hj) as (D & ci & cj & A & B & E).
    assert (Lj : (j < length h)%nat) by (apply nth_error_Some; congruence).
    pose proof (count_window (fun c => (reading c =? reading ci)%Z) h i j ltac:(lia) Lj) as CW.
    specialize (K (reading ci)). apply Nat.lt_irrefl with 256%nat.
    eapply Nat.lt_le_trans; [|exact K]. eapply Nat.lt_le_trans; [|apply CW]; [lia|].
    intros k x Hk Hx. apply Z.eqb_eq.
    pose proof (M i k ci x ltac:(lia) A Hx). pose proof (M k j x cj ltac:(lia) Hx B). lia. }
  intros cid h r i j g W F M K Hi Hj.
  destruct (Nat.lt_trichotomy i j) as [L|[L|L]]; [exfalso|exact L|exfalso].
  - exact (W0 _ _ _ _ _ _ W F M K Hi Hj L).
  - exact (W0 _ _ _ _ _ _ W F M K Hj Hi L).
Qed.

(** ** GUIDs *)
Lemma make_guid_ok : forall mult dk key node cid g, make_guid mult dk key node cid = Ok g ->
  gd_size g = cid /\ wf_raw cid (gd_raw g) /\ rg_node (gd_raw g) = node /\ rg_tick (gd_raw g) = 0%N /\
  inverse_bijections (Z.of_N cid) (chain_permute (gd_perm g)) (chain_invert (gd_perm g)).
Proof.
  intros mult dk key node cid g H. unfold make_guid in H.
  destruct (_ && _) eqn:E in H; [|discriminate]. cbv zeta in H.
  apply bind_ok in H. destruct H as (r & Hr & H).
  apply bind_ok in H. destruct H as (c & Hc & H).
  apply bind_ok in H. destruct H as (p & Hp & H). apply Ok_inj in H. subst g.
  cbn [gd_size gd_raw gd_perm].
  destruct (make_raw_guid_ok _ _ _ Hr) as (W & N1 & T1).
  split; [reflexivity|]. split; [exact W|]. split; [exact N1|]. split; [exact T1|].
  exact (proj1 (C12_chain_bijection _ _ _ _ _ _ [] Hc Hp)).
Qed.

Record wf_guid (cid : N) (g : guid) : Prop := {
  wg_size : gd_size g = cid;
  wg_raw : wf_raw cid (gd_raw g);
  wg_perm : inverse_bijections (Z.of_N cid) (chain_permute (gd_perm g)) (chain_invert (gd_perm g));
}.

Lemma guid_new_ok : forall cid g now token b g', wf_guid cid g -> blen token = (cid - 10)%N ->
  guid_new g now token = Ok (b, g') ->
  exists raw r', raw_new (gd_raw g) now token = Ok (raw, r') /\
    chain_permute (gd_perm g) (be_z raw) = Ok (be_z b) /\ blen b = cid /\ blen raw = cid /\
    guid_read g b = raw_read (the_config cid) raw /\
    wf_guid cid g' /\ gd_raw g' = r' /\ gd_perm g' = gd_perm g.
Proof.
  intros cid g now token b g' W T H. unfold guid_new in H.
  apply bind_ok in H. destruct H as ([raw r'] & Hr & H).
  apply bind_ok in H. destruct H as (v & Hv & H).
  apply bind_ok in H. destruct H as (b0 & Hb & H). apply Ok_inj in H. injection H as -> <-.
  exists raw, r'.
  pose proof (raw_new_len _ _ _ _ _ _ (wg_raw _ _ W) T Hr) as L.
  destruct (raw_new_ok _ _ _ _ _ _ (wg_raw _ _ W) Hr) as (ts & _ & _ & _ & W' & _).
  rewrite (wg_size _ _ W) in Hb. apply z_to_bytes_ok in Hb. destruct Hb as (B1 & B2 & _).
  cbn [read_timestamp] in B1. fold (be_z b) in B1.
  assert (D : in_domain (Z.of_N cid) (be_z raw)) by (apply be_z_in_domain; exact L).
  destruct (proj1 (wg_perm _ _ W) _ D) as (w & P1 & P2 & P3).
  rewrite Hv in P1. apply Ok_inj in P1. subst w.
  split; [exact Hr|]. split; [rewrite Hv; congruence|]. split; [exact B2|]. split; [exact L|].
  split.
  - unfold guid_read. rewrite (wg_size _ _ W), B2, N.eqb_refl. cbn [negb].
    rewrite B1, P3. cbn [bind]. rewrite z_to_bytes_be_z by exact L. cbn [bind].
    rewrite (wr_config _ _ (wg_raw _ _ W)). reflexivity.
  - split; [|split; reflexivity]. constructor; cbn [gd_size gd_raw gd_perm]; auto.
    + apply (wg_size _ _ W). + apply (wg_perm _ _ W).
Qed.

Lemma guid_new_total : forall cid g now token raw r', wf_guid cid g -> blen token = (cid - 10)%N ->
  raw_new (gd_raw g) now token = Ok (raw, r') ->
  exists b g', guid_new g now token = Ok (b, g') /\ gd_raw g' = r' /\ gd_perm g' = gd_perm g.
Proof.
  intros cid g now token raw r' W T Hr. unfold guid_new. rewrite Hr. cbn [bind].
  pose proof (raw_new_len _ _ _ _ _ _ (wg_raw _ _ W) T Hr) as L.
  destruct (proj1 (wg_perm _ _ W) _ (be_z_in_domain _ _ L)) as (w & P1 & P2 & P3).
  rewrite P1. cbn [bind]. rewrite (wg_size _ _ W).
  destruct (z_to_bytes_domain _ _ P2) as (b & Eb & _ & _). rewrite Eb. cbn [bind].
  do 2 eexists. split; [reflexivity|]. split; reflexivity.
Qed.

(** A run of GUIDs is the run of the raw GUIDs under an injective map. *)
Lemma guid_run_raw : forall cid h g i b, wf_guid cid g -> Forall (good_token cid) h ->
  nth_error (guid_run g h) i = Some (Ok b) ->
  exists raw, nth_error (raw_run (gd_raw g) h) i = Some (Ok raw) /\
    chain_permute (gd_perm g) (be_z raw) = Ok (be_z b) /\ blen raw = cid /\ blen b = cid.
Proof.
  intros cid h. induction h as [|[now token] h IH]; intros g i b W F H.
  - destruct i; discriminate.
  - inversion F as [|? ? F1 F2]; subst. cbn [guid_run] in H. rewrite raw_run_cons.
    unfold good_token in F1; cbn [snd] in F1.
    destruct (guid_new g now token) as [[b0 g']|e] eqn:E.
    + destruct (guid_new_ok _ _ _ _ _ _ W F1 E) as (raw & r' & R1 & R2 & R3 & R4 & R5 & R6 & R7 & R8).
      rewrite R1. destruct i as [|i]; cbn [nth_error] in H |- *.
      * injection H as <-. exists raw. auto.
      * destruct (IH g' i b R6 F2 H) as (raw2 & A & B & C). exists raw2.
        rewrite R7 in A. rewrite R8 in B. auto.
    + destruct i as [|i]; cbn [nth_error] in H; [discriminate|].
      destruct (IH g i b W F2 H) as (raw2 & A & B & C). exists raw2.
      destruct (raw_new (gd_raw g) now token) as [[raw r']|e'] eqn:Er.
      * destruct (guid_new_total _ _ _ _ _ _ W F1 Er) as (b' & g' & X & _). congruence.
      * auto.
Qed.

Lemma be_z_inj : forall a b, blen a = blen b -> be_z a = be_z b -> a = b.
Proof.
  intros a b L E. apply be_int_inj; [unfold blen in L; lia|]. unfold be_z in E. lia.
Qed.

Lemma guid_perm_inj : forall cid g a b ya, wf_guid cid g -> blen a = cid -> blen b = cid ->
  chain_permute (gd_perm g) (be_z a) = Ok ya -> chain_permute (gd_perm g) (be_z b) = Ok ya -> a = b.
Proof.
  intros cid g a b ya W La Lb Ha Hb. apply be_z_inj; [congruence|].
  exact (inverse_bijections_inj _ _ _ (wg_perm _ _ W) _ _ _ (be_z_in_domain _ _ La)
    (be_z_in_domain _ _ Lb) Ha Hb).
Qed.

(** ** Order *)
Lemma bytes_ltb_int : forall a b, length a = length b ->
  bytes_ltb a b = true <-> (be_int a < be_int b)%N.
Proof.
  induction a as [|x a IH]; intros [|y b] L; try discriminate.
  - cbn. split; [discriminate|lia].
  - injection L as L. cbn [bytes_ltb]. rewrite !be_int_cons.
    assert (Lb : blen a = blen b) by (unfold blen; lia).
    pose proof (be_int_bound a) as Ba. pose proof (be_int_bound b) as Bb.
    rewrite Lb in *. set (P := (256 ^ blen b)%N) in *.
    destruct (bval x <? bval y)%N eqn:E1.
    + split; [intros _|reflexivity]. nia.
    + destruct (bval y <? bval x)%N eqn:E2.
      * split; [discriminate|]. nia.
      * assert (bval x = bval y) as -> by lia. rewrite (IH b L). lia.
Qed.

Lemma bytes_ltb_app : forall a1 a2 b1 b2, length a1 = length b1 ->
  bytes_ltb (a1 ++ a2) (b1 ++ b2) = true <->
  (be_int a1 < be_int b1)%N \/ (be_int a1 = be_int b1 /\ bytes_ltb a2 b2 = true).
Proof.
  induction a1 as [|x a1 IH]; intros a2 [|y b1] b2 L; try discriminate.
  - cbn [app]. cbn. split; [auto|]. intros [H|[_ H]]; [lia|exact H].
  - injection L as L. cbn [app bytes_ltb]. rewrite !be_int_cons.
    assert (Lb : blen a1 = blen b1) by (unfold blen; lia).
    pose proof (be_int_bound a1) as Ba. pose proof (be_int_bound b1) as Bb.
    rewrite Lb in *. set (P := (256 ^ blen b1)%N) in *.
    destruct (bval x <? bval y)%N eqn:E1.
    + split; [intros _|reflexivity]. left. nia.
    + destruct (bval y <? bval x)%N eqn:E2.
      * split; [discriminate|]. intros [H|[H _]]; nia.
      * assert (bval x = bval y) as -> by lia. rewrite (IH a2 b1 b2 L).
        split; intros [H|[H1 H2]]; [left|right|left|right]; try split; try assumption; lia.
Qed.

Definition same_shape (a b : container) : Prop :=
  length (co_timestamp a) = length (co_timestamp b) /\
  length (co_node_id a) = length (co_node_id b) /\
  length (co_ticker a) = length (co_ticker b) /\
  length (co_token a) = length (co_token b).

Lemma container_lt_lex : forall a b, same_shape a b ->
  container_ltb a b = true <-> lex_lt (fields a) (fields b).
Proof.
  intros a b (L1 & L2 & L3 & L4). unfold container_ltb, sort_key, fields. cbn [lex_lt].
  rewrite (bytes_ltb_app _ _ _ _ L1), (bytes_ltb_app _ _ _ _ L2), (bytes_ltb_app _ _ _ _ L3).
  rewrite (bytes_ltb_int _ _ L4). tauto.
Qed.

Lemma sort_key_inj : forall a b, same_shape a b -> sort_key a = sort_key b -> a = b.
Proof.
  intros a b (L1 & L2 & L3 & L4) E. unfold sort_key in E.
  apply app_inj_len in E; [|unfold blen; lia]. destruct E as [E1 E].
  apply app_inj_len in E; [|unfold blen; lia]. destruct E as [E2 E].
  apply app_inj_len in E; [|unfold blen; lia]. destruct E as [E3 E4].
  destruct a, b; cbn in *; congruence.
Qed.

Lemma raw_read_shape : forall cid g c, (12 <= cid <= 32)%N -> raw_read (the_config cid) g = Ok c ->
  blen (co_timestamp c) = 8%N /\ blen (co_token c) = (cid - 10)%N /\
  blen (co_node_id c) = 1%N /\ blen (co_ticker c) = 1%N /\
  g = co_timestamp c ++ co_token c ++ co_node_id c ++ co_ticker c.
Proof.
  intros cid g c R H. unfold raw_read in H.
  cbn [rc_size rc_timestamp_bytes rc_prf_bytes rc_node_id_bytes rc_ticker_bytes the_config] in H.
  destruct (negb _) eqn:E in H; [discriminate|]. cbv zeta in H. apply Ok_inj in H. subst c.
  cbn [co_timestamp co_token co_node_id co_ticker].
  assert (L : blen g = cid) by lia.
  rewrite !blen_take, !blen_drop, L.
  split; [lia|]. split; [lia|]. split; [lia|]. split; [lia|].
  rewrite (take_all 1 (drop 1 (drop (cid - 10) (drop 8 g)))) by (rewrite !blen_drop; lia).
  rewrite !take_drop. reflexivity.
Qed.

Lemma raw_read_same_shape : forall cid g g' c c', (12 <= cid <= 32)%N ->
  raw_read (the_config cid) g = Ok c -> raw_read (the_config cid) g' = Ok c' -> same_shape c c'.
Proof.
  intros cid g g' c c' R H H'.
  apply raw_read_shape in H; [|exact R]. apply raw_read_shape in H'; [|exact R].
  unfold same_shape, blen in *. repeat split; lia.
Qed.
