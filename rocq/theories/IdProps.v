(** * C15 - C18: sequence IDs and GUIDs. *)
From Coq Require Import Lia ZifyBool ZifyNat ZifyN.
From Verif Require Import Base BaseFacts PermModel PermSpec ClockModel IdModel IdSpec IdProofs.
Local Open Scope Z_scope.

(** ** C15 *)
(** Every in-range number has an ID of exactly the configured size, which reads
    back as the number; every byte string of that size is the ID of exactly one
    in-range number. *)
Theorem C15_sequence_id_bijection : forall mult size key q,
  make_seqid mult size key = Ok q ->
  (forall v, in_domain size v ->
     exists b, seqid_new q v = Ok b /\ zlen b = size /\ seqid_read q b = Ok v) /\
  (forall b, zlen b = size ->
     exists v, seqid_read q b = Ok v /\ in_domain size v /\ seqid_new q v = Ok b).
Proof.
  intros mult size key q H. split.
  - intros v. exact (seqid_new_total mult size key q v H).
  - intros b. exact (seqid_read_total mult size key q b H).
Qed.
Print Assumptions C15_sequence_id_bijection.

Theorem C15_sequence_id_unique : forall mult size key q v w b,
  make_seqid mult size key = Ok q -> in_domain size v -> in_domain size w ->
  seqid_new q v = Ok b -> seqid_new q w = Ok b -> v = w.
Proof.
  intros mult size key q v w b H Hv Hw Ev Ew.
  destruct (seqid_new_total _ _ _ _ _ H Hv) as (b1 & A & _ & B).
  destruct (seqid_new_total _ _ _ _ _ H Hw) as (b2 & C & _ & D).
  rewrite Ev in A. rewrite Ew in C. apply Ok_inj in A, C. subst b1 b2.
  rewrite B in D. apply Ok_inj in D. exact D.
Qed.
Print Assumptions C15_sequence_id_unique.

(** Every registered size has instances. *)
Theorem C15_sequence_id_exists : forall size off mult key,
  1 <= size <= 32 -> prime_offset size = Some off -> Z.gcd mult (256 ^ size + off) = 1 ->
  zlen key = 5 * size -> exists q, make_seqid mult size key = Ok q.
Proof.
  intros size off mult key R P G L. unfold make_seqid.
  replace ((1 <=? size) && (size <=? 32)) with true by lia.
  destruct (PermProofs.make_aff_config_total size mult off) as [p Hp]; [left; lia|exact P|exact G|].
  assert (Hc : exists c, make_chain_config FastChain size mult = Ok c).
  { unfold make_chain_config, process_size.
    replace ((4096 >=? size) && (size >? 0)) with true by lia. cbn [bind]. rewrite Hp. cbn [bind].
    eexists. reflexivity. }
  destruct Hc as [c Hc]. rewrite Hc. cbn [bind].
  destruct (proj1 (PermProps.C14_chain_key_length _ _ _ _ key Hc) L) as [s Hs].
  rewrite Hs. cbn [bind]. eexists. reflexivity.
Qed.
Print Assumptions C15_sequence_id_exists.

Example C15_case : exists q, make_seqid 37 1 (map byte_of [7; 2; 3; 4; 5]%N) = Ok q /\
  seqid_new q 200 = Ok [xc8] /\ seqid_read q [xc8] = Ok 200.
Proof.
  eexists. split; [vm_compute; reflexivity|]. split; vm_compute; reflexivity.
Qed.

(** The class documents uniqueness whenever the indexes lie within a window of
    256 ** size. Two indexes that are closer than that can have the same ID. *)
Theorem C15_window_uniqueness_refuted :
  exists q v w b, make_seqid 37 1 (map byte_of [7; 2; 3; 4; 5]%N) = Ok q /\
    0 <= v < w /\ w - v < 256 ^ 1 /\ seqid_new q v = Ok b /\ seqid_new q w = Ok b.
Proof.
  eexists. exists 1, 256. eexists.
  split; [vm_compute; reflexivity|]. split; [lia|]. split; [reflexivity|].
  split; vm_compute; reflexivity.
Qed.
Print Assumptions C15_window_uniqueness_refuted.

(** ** C16 *)
Theorem C16_raw_guid_layout : forall cid node r h i now token g,
  make_raw_guid cid node = Ok r -> Forall (good_token cid) h ->
  nth_error h i = Some (now, token) -> nth_error (raw_run r h) i = Some (Ok g) ->
  blen g = cid /\
  exists ts tick, make_timestamp {| ck_unit := Nanoseconds; ck_epoch := EPOCH_NS |} now 8 BigEndian = Ok ts /\
    blen tick = 1%N /\ g = ts ++ token ++ node ++ tick /\
    raw_read (rg_config r) g =
      Ok {| co_timestamp := ts; co_token := token; co_node_id := node; co_ticker := tick |}.
Proof.
  intros cid node r h i now token g H F Hc Hg.
  destruct (make_raw_guid_ok _ _ _ H) as (W & N1 & _).
  destruct (raw_run_nth cid h r i g W Hg) as (c & ri & ri' & k & A & B & C & D & _).
  rewrite Hc in A. injection A as <-. cbn [fst snd] in D.
  pose proof (good_token_nth _ _ _ _ F Hc) as T. cbn [snd] in T.
  split; [exact (raw_new_len _ _ _ _ _ _ B T D)|].
  destruct (raw_new_ok _ _ _ _ _ _ B D) as (ts & E1 & E2 & E3 & _).
  exists ts, [byte_of (next_tick ri)]. split; [exact E1|]. split; [reflexivity|].
  rewrite C, N1 in E3. split; [exact E3|].
  rewrite E3, (wr_config _ _ W). apply raw_read_layout; auto.
  - apply (wr_cid _ _ W). - rewrite <- N1. apply (wr_node _ _ W).
Qed.
Print Assumptions C16_raw_guid_layout.

(** Any 256 successive GUIDs of an instance are pairwise distinct, whatever the
    clock shows and whatever the tokens are. *)
Theorem C16_raw_guid_window : forall cid node r h i j g,
  make_raw_guid cid node = Ok r -> Forall (good_token cid) h ->
  (i < j < i + 256)%nat ->
  nth_error (raw_run r h) i = Some (Ok g) -> nth_error (raw_run r h) j <> Some (Ok g).
Proof.
  intros cid node r h i j g H F L Hi Hj.
  destruct (make_raw_guid_ok _ _ _ H) as (W & _).
  destruct (raw_run_equal cid h r i j g W F ltac:(lia) Hi Hj) as (D & _). lia.
Qed.
Print Assumptions C16_raw_guid_window.

(** While the clock does not go backwards and no reading is seen by more than
    256 calls, all GUIDs of an instance are distinct. *)
Theorem C16_raw_guid_unique : forall cid node r h i j g,
  make_raw_guid cid node = Ok r -> Forall (good_token cid) h ->
  monotone h -> at_most_256_per_reading h ->
  nth_error (raw_run r h) i = Some (Ok g) -> nth_error (raw_run r h) j = Some (Ok g) -> i = j.
Proof.
  intros cid node r h i j g H F M K.
  destruct (make_raw_guid_ok _ _ _ H) as (W & _).
  exact (raw_run_unique cid h r i j g W F M K).
Qed.
Print Assumptions C16_raw_guid_unique.

(** GUIDs of different nodes, or made at different clock readings, differ. *)
Theorem C16_raw_guid_nodes : forall cid node1 node2 r1 r2 h1 h2 i j g c1 c2,
  make_raw_guid cid node1 = Ok r1 -> make_raw_guid cid node2 = Ok r2 ->
  Forall (good_token cid) h1 -> Forall (good_token cid) h2 ->
  nth_error h1 i = Some c1 -> nth_error h2 j = Some c2 ->
  nth_error (raw_run r1 h1) i = Some (Ok g) -> nth_error (raw_run r2 h2) j = Some (Ok g) ->
  node1 = node2 /\ reading c1 = reading c2 /\ snd c1 = snd c2.
Proof.
  intros cid node1 node2 r1 r2 h1 h2 i j g c1 c2 H1 H2 F1 F2 C1 C2 G1 G2.
  destruct (make_raw_guid_ok _ _ _ H1) as (W1 & N1 & _).
  destruct (make_raw_guid_ok _ _ _ H2) as (W2 & N2 & _).
  destruct (raw_run_nth cid _ _ _ _ W1 G1) as (c & ri & ri' & k & A & B & C & D & _).
  destruct (raw_run_nth cid _ _ _ _ W2 G2) as (c' & rj & rj' & k' & A' & B' & C' & D' & _).
  rewrite C1 in A. injection A as <-. rewrite C2 in A'. injection A' as <-.
  destruct (raw_new_inj cid ri rj _ _ _ _ _ _ _ B B' (good_token_nth _ _ _ _ F1 C1)
    (good_token_nth _ _ _ _ F2 C2) D D') as (X1 & X2 & X3 & _).
  split; [congruence|]. split; [exact X1|exact X2].
Qed.
Print Assumptions C16_raw_guid_nodes.

(** GUID() documents that calls on different nanoseconds never collide. Two
    instances of one node can collide: the clock shows several nanoseconds alike. *)
Theorem C16_distinct_nanoseconds_refuted :
  exists r t1 t2 token g, make_raw_guid 16 [x07] = Ok r /\ t1 <> t2 /\
    good_token 16 (t1, token) /\
    raw_run r [(t1, token)] = [Ok g] /\ raw_run r [(t2, token)] = [Ok g].
Proof.
  eexists. exists 1767225600000000000, 1767225600000000001, [x01; x02; x03; x04; x05; x06]. eexists.
  split; [vm_compute; reflexivity|]. split; [discriminate|]. split; [reflexivity|].
  split; vm_compute; reflexivity.
Qed.
Print Assumptions C16_distinct_nanoseconds_refuted.

(** Two threads using one instance can be given the same tick, so that nothing
    but the random token separates GUIDs they make at one clock reading. *)
Theorem C16_shared_by_threads_refuted :
  let start := (0%N, fun _ : nat => {| tt_loaded := 0; tt_result := None |}) in
  let schedule := [(0%nat, LoadTick); (0%nat, StoreTick); (1%nat, LoadTick); (1%nat, StoreTick);
                   (0%nat, ReloadTick); (1%nat, ReloadTick)] in
  let final := fold_left (tick_step 255) schedule start in
  tt_result (snd final 0%nat) = Some 2%N /\ tt_result (snd final 1%nat) = Some 2%N.
Proof. split; vm_compute; reflexivity. Qed.
Print Assumptions C16_shared_by_threads_refuted.

Definition ex_calls : list call :=
  [(1767225600000000000, [x01; x02]); (1767225600000000000, [x01; x02]); (1767225600000000999, [x01; x02])].
Example C16_case : exists r g1 g2 g3, make_raw_guid 12 [x09] = Ok r /\
  raw_run r ex_calls = [Ok g1; Ok g2; Ok g3] /\ last_n 1 g2 = [x02].
Proof.
  do 4 eexists. split; [vm_compute; reflexivity|]. split; vm_compute; reflexivity.
Qed.
Example C16_hypotheses_case :
  Forall (good_token 12) ex_calls /\ monotone ex_calls /\ at_most_256_per_reading ex_calls.
Proof.
  split; [repeat constructor|]. split.
  - intros i j a b L Ha Hb.
    destruct i as [|[|[|i]]], j as [|[|[|j]]]; try lia;
    cbn [ex_calls nth_error] in Ha, Hb;
    try (destruct i; discriminate Ha); try (destruct j; discriminate Hb);
    injection Ha as <-; injection Hb as <-; vm_compute; discriminate.
  - intro t. cbn [ex_calls filter]. repeat (destruct (_ =? _)); cbn; lia.
Qed.

(** ** C17 *)
(** Reading a GUID gives the fields of the raw GUID it was made from: the time,
    the token, the node, and the tick. *)
Theorem C17_guid_roundtrip : forall mult dk key node cid g h i now token b,
  make_guid mult dk key node cid = Ok g -> Forall (good_token cid) h ->
  nth_error h i = Some (now, token) -> nth_error (guid_run g h) i = Some (Ok b) ->
  blen b = cid /\
  exists raw c, nth_error (raw_run (gd_raw g) h) i = Some (Ok raw) /\
    guid_read g b = Ok c /\ raw_read (rg_config (gd_raw g)) raw = Ok c /\
    co_token c = token /\ co_node_id c = node /\
    make_timestamp {| ck_unit := Nanoseconds; ck_epoch := EPOCH_NS |} now 8 BigEndian = Ok (co_timestamp c).
Proof.
  intros mult dk key node cid g h i now token b H F Hc Hb.
  destruct (make_guid_ok _ _ _ _ _ _ H) as (S & W & N1 & T1 & P).
  assert (WG : wf_guid cid g) by (constructor; assumption).
  destruct (guid_run_raw cid h g i b WG F Hb) as (raw & A & B & C & D).
  split; [exact D|].
  assert (exists r0, make_raw_guid cid node = Ok r0 /\ r0 = gd_raw g) as (r0 & R0 & ->).
  { unfold make_guid in H. destruct (_ && _) in H; [|discriminate H]. cbv zeta in H.
    apply bind_ok in H. destruct H as (r & Hr & H).
    apply bind_ok in H. destruct H as (c & _ & H).
    apply bind_ok in H. destruct H as (p & _ & H). apply Ok_inj in H. subst g.
    exists r. split; [exact Hr|reflexivity]. }
  destruct (C16_raw_guid_layout _ _ _ _ _ _ _ _ R0 F Hc A) as (_ & ts & tick & E1 & E2 & E3 & E4).
  exists raw. eexists. split; [exact A|].
  split; [|split; [exact E4|split; [reflexivity|split; [reflexivity|exact E1]]]].
  destruct (proj1 P _ (be_z_in_domain _ _ C)) as (w & P1 & P2 & P3).
  rewrite B in P1. apply Ok_inj in P1. subst w.
  unfold guid_read. rewrite S, D, N.eqb_refl. cbn [negb]. rewrite P3. cbn [bind].
  rewrite z_to_bytes_be_z by exact C. cbn [bind]. exact E4.
Qed.
Print Assumptions C17_guid_roundtrip.

Theorem C17_guid_wrong_length : forall mult dk key node cid g b,
  make_guid mult dk key node cid = Ok g -> blen b <> cid -> guid_read g b = Err InvalidLength.
Proof.
  intros mult dk key node cid g b H L.
  destruct (make_guid_ok _ _ _ _ _ _ H) as (S & _). unfold guid_read. rewrite S.
  apply N.eqb_neq in L. rewrite L. reflexivity.
Qed.
Print Assumptions C17_guid_wrong_length.

(** There are generators of GUIDs of 12 to 32 bytes with node IDs of one byte, and of no other sizes. *)
Theorem C17_guid_sizes : forall mult dk key b k cid,
  (~ (12 <= cid <= 32)%N -> forall node, make_guid mult dk key node cid = Err KeyErr) /\
  ((12 <= cid <= 32)%N -> key = Some (b :: k) -> forall node c p,
     make_chain_config FastChain (Z.of_N cid) mult = Ok c -> make_chain c (b :: k) = Ok p ->
     if (blen node =? 1)%N then exists g, make_guid mult dk key node cid = Ok g
     else make_guid mult dk key node cid = Err InvalidLength).
Proof.
  intros mult dk key b k cid. unfold make_guid. split.
  - intros N node. destruct ((12 <=? cid) && (cid <=? 32))%N eqn:E; [lia|reflexivity].
  - intros L -> node c p MC MP.
    assert (E : ((12 <=? cid) && (cid <=? 32))%N = true) by lia. unfold make_raw_guid, raw_config_of. rewrite E.
    unfold make_raw_config. assert (E2 : (cid =? 8 + (cid - 10) + 1 + 1)%N = true) by lia. rewrite E2.
    change (1 =? 0)%N with false. cbn [negb bind rc_node_id_bytes].
    destruct (blen node =? 1)%N; cbn [negb bind]; [|reflexivity]. rewrite MC. cbn [bind]. rewrite MP. cbn [bind]. eauto.
Qed.
Print Assumptions C17_guid_sizes.

(** Any string of the right length is read without an error. *)
Theorem C17_guid_read_total : forall mult dk key node cid g b,
  make_guid mult dk key node cid = Ok g -> blen b = cid -> exists c, guid_read g b = Ok c.
Proof.
  intros mult dk key node cid g b H L.
  destruct (make_guid_ok _ _ _ _ _ _ H) as (S & W & _ & _ & P).
  destruct (proj2 P _ (be_z_in_domain _ _ L)) as (v & P1 & P2 & _).
  unfold guid_read. rewrite S, L, N.eqb_refl. cbn [negb]. rewrite P1. cbn [bind].
  destruct (z_to_bytes_domain _ _ P2) as (raw & E & LR & _). rewrite E. cbn [bind].
  rewrite (wr_config _ _ W). unfold raw_read. cbn [rc_size the_config].
  rewrite LR, N.eqb_refl. cbn [negb]. cbv zeta. eexists. reflexivity.
Qed.
Print Assumptions C17_guid_read_total.

(** Under one key, GUIDs of any two instances collide only if their raw GUIDs do. *)
Theorem C17_guid_collision : forall mult dk key node1 node2 cid g1 g2 h1 h2 i j b,
  make_guid mult dk key node1 cid = Ok g1 -> make_guid mult dk key node2 cid = Ok g2 ->
  Forall (good_token cid) h1 -> Forall (good_token cid) h2 ->
  nth_error (guid_run g1 h1) i = Some (Ok b) -> nth_error (guid_run g2 h2) j = Some (Ok b) ->
  exists raw, nth_error (raw_run (gd_raw g1) h1) i = Some (Ok raw) /\
              nth_error (raw_run (gd_raw g2) h2) j = Some (Ok raw).
Proof.
  intros mult dk key node1 node2 cid g1 g2 h1 h2 i j b H1 H2 F1 F2 B1 B2.
  assert (PE : gd_perm g1 = gd_perm g2).
  { unfold make_guid in H1, H2. destruct (_ && _) in H1, H2; [|discriminate H1]. cbv zeta in H1, H2.
    apply bind_ok in H1. destruct H1 as (r1 & _ & H1). apply bind_ok in H2. destruct H2 as (r2 & _ & H2).
    apply bind_ok in H1. destruct H1 as (c1 & C1 & H1). apply bind_ok in H2. destruct H2 as (c2 & C2 & H2).
    rewrite C1 in C2. apply Ok_inj in C2. subst c2.
    apply bind_ok in H1. destruct H1 as (p1 & P1 & H1). apply bind_ok in H2. destruct H2 as (p2 & P2 & H2).
    rewrite P1 in P2. apply Ok_inj in P2. subst p2.
    apply Ok_inj in H1. apply Ok_inj in H2. subst g1 g2. reflexivity. }
  destruct (make_guid_ok _ _ _ _ _ _ H1) as (S1 & W1 & _ & _ & Q1).
  destruct (make_guid_ok _ _ _ _ _ _ H2) as (S2 & W2 & _ & _ & Q2).
  assert (WG1 : wf_guid cid g1) by (constructor; assumption).
  assert (WG2 : wf_guid cid g2) by (constructor; assumption).
  destruct (guid_run_raw cid h1 g1 i b WG1 F1 B1) as (ra & A1 & A2 & A3 & A4).
  destruct (guid_run_raw cid h2 g2 j b WG2 F2 B2) as (rb & C1 & C2 & C3 & C4).
  rewrite <- PE in C2.
  rewrite (guid_perm_inj cid g1 ra rb _ WG1 A3 C3 A2 C2) in *.
  exists rb. split; assumption.
Qed.
Print Assumptions C17_guid_collision.

(** Hence the uniqueness of raw GUIDs carries over. *)
Theorem C17_guid_unique : forall mult dk key node cid g h i j b,
  make_guid mult dk key node cid = Ok g -> Forall (good_token cid) h ->
  nth_error (guid_run g h) i = Some (Ok b) -> nth_error (guid_run g h) j = Some (Ok b) ->
  (i < j)%nat ->
  (256 <= j - i)%nat /\ ~ (monotone h /\ at_most_256_per_reading h).
Proof.
  intros mult dk key node cid g h i j b H F Bi Bj L.
  destruct (make_guid_ok _ _ _ _ _ _ H) as (S1 & W1 & _ & _ & Q1).
  assert (WG : wf_guid cid g) by (constructor; assumption).
  destruct (C17_guid_collision _ _ _ _ _ _ _ _ _ _ i j b H H F F Bi Bj) as (raw & R1 & R2).
  destruct (raw_run_equal cid h _ i j raw W1 F L R1 R2) as (D & _). split; [exact D|].
  intros [M K]. pose proof (raw_run_unique cid h _ i j raw W1 F M K R1 R2). lia.
Qed.
Print Assumptions C17_guid_unique.

Definition ex_guid_key : bytes := map (fun i => byte_of (N.of_nat i * 11 + 5)) (seq 0 60).
Example C17_case : exists g b1 b2 b3 c, make_guid 12345677 [] (Some ex_guid_key) [x09] 12 = Ok g /\
  guid_run g ex_calls = [Ok b1; Ok b2; Ok b3] /\ guid_read g b2 = Ok c /\ co_ticker c = [x02].
Proof.
  do 5 eexists. split; [vm_compute; reflexivity|]. split; [vm_compute; reflexivity|].
  split; vm_compute; reflexivity.
Qed.

(** ** C18 *)
(** Parsed GUIDs of one configuration are ordered by time, node, tick and token,
    in that order of precedence, and are equal exactly if the GUIDs are. *)
Theorem C18_sort_order : forall cid c g1 g2 c1 c2,
  raw_config_of cid = Ok c -> raw_read c g1 = Ok c1 -> raw_read c g2 = Ok c2 ->
  (container_ltb c1 c2 = true <-> lex_lt (fields c1) (fields c2)) /\
  (container_gtb c1 c2 = true <-> lex_lt (fields c2) (fields c1)) /\
  (container_eqb c1 c2 = true <-> g1 = g2) /\
  (container_hash c1 = container_hash c2 <-> g1 = g2).
Proof.
  intros cid c g1 g2 c1 c2 Hc R1 R2.
  destruct (raw_config_of_ok _ _ Hc) as (R & ->).
  pose proof (raw_read_same_shape _ _ _ _ _ R R1 R2) as Sh.
  pose proof (raw_read_same_shape _ _ _ _ _ R R2 R1) as Sh'.
  destruct (raw_read_shape _ _ _ R R1) as (_ & _ & _ & _ & E1).
  destruct (raw_read_shape _ _ _ R R2) as (_ & _ & _ & _ & E2).
  assert (EQ : sort_key c1 = sort_key c2 <-> g1 = g2).
  { split.
    - intro E. apply sort_key_inj in E; [|exact Sh]. subst c2. congruence.
    - intros ->. rewrite R1 in R2. apply Ok_inj in R2. subst c2. reflexivity. }
  split; [exact (container_lt_lex _ _ Sh)|]. split; [exact (container_lt_lex _ _ Sh')|].
  split.
  - unfold container_eqb. rewrite bytes_eqb_eq. exact EQ.
  - unfold container_hash. split.
    + intro E. apply EQ. apply be_int_inj; [|exact E].
      destruct Sh as (L1 & L2 & L3 & L4). unfold sort_key. rewrite !app_length. lia.
    + intros ->. rewrite R1 in R2. apply Ok_inj in R2. subst c2. reflexivity.
Qed.
Print Assumptions C18_sort_order.

(** GUIDs made at a later clock reading sort after earlier ones, on any nodes. *)
Theorem C18_later_sorts_after : forall cid r1 r2 n1 n2 h1 h2 i j a b ca cb g1 g2,
  make_raw_guid cid n1 = Ok r1 -> make_raw_guid cid n2 = Ok r2 ->
  Forall (good_token cid) h1 -> Forall (good_token cid) h2 ->
  nth_error h1 i = Some ca -> nth_error h2 j = Some cb -> reading ca < reading cb ->
  nth_error (raw_run r1 h1) i = Some (Ok g1) -> nth_error (raw_run r2 h2) j = Some (Ok g2) ->
  raw_read (rg_config r1) g1 = Ok a -> raw_read (rg_config r2) g2 = Ok b ->
  container_ltb a b = true.
Proof.
  intros cid r1 r2 n1 n2 h1 h2 i j a b [t1 k1] [t2 k2] g1 g2 H1 H2 F1 F2 C1 C2 L G1 G2 R1 R2.
  destruct (make_raw_guid_ok _ _ _ H1) as (W1 & _). destruct (make_raw_guid_ok _ _ _ H2) as (W2 & _).
  destruct (C16_raw_guid_layout _ _ _ _ _ _ _ _ H1 F1 C1 G1) as (_ & s1 & x1 & T1 & _ & _ & P1).
  destruct (C16_raw_guid_layout _ _ _ _ _ _ _ _ H2 F2 C2 G2) as (_ & s2 & x2 & T2 & _ & _ & P2).
  assert (Sh : same_shape a b).
  { apply (raw_read_same_shape cid g1 g2); [apply (wr_cid _ _ W1)| |].
    - rewrite <- (wr_config _ _ W1). exact R1. - rewrite <- (wr_config _ _ W2). exact R2. }
  apply container_lt_lex; [exact Sh|].
  rewrite R1 in P1. apply Ok_inj in P1. subst a. rewrite R2 in P2. apply Ok_inj in P2. subst b.
  unfold fields. cbn [co_timestamp co_node_id co_ticker co_token lex_lt]. left.
  destruct (ClockProps.C20_timestamp_roundtrip _ _ _ _ _ T1) as [Q1 _].
  destruct (ClockProps.C20_timestamp_roundtrip _ _ _ _ _ T2) as [Q2 _].
  cbn [read_timestamp] in Q1, Q2. unfold reading in L. cbn [fst] in L. lia.
Qed.
Print Assumptions C18_later_sorts_after.

Example C18_case : exists c c1 c2, raw_config_of 12 = Ok c /\
  raw_read c (map byte_of [0;0;0;0;0;0;0;9; 255;255; 3; 7])%N = Ok c1 /\
  raw_read c (map byte_of [0;0;0;0;0;0;0;9; 0;0; 3; 8])%N = Ok c2 /\
  container_ltb c1 c2 = true /\ container_gtb c1 c2 = false.
Proof.
  do 3 eexists. split; [vm_compute; reflexivity|]. split; [vm_compute; reflexivity|].
  split; [vm_compute; reflexivity|]. split; vm_compute; reflexivity.
Qed.
