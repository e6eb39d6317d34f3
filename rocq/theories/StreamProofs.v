(** * Proofs about the encrypting stream *)
From Coq Require Import ZArith.
From Verif Require Import Base BaseFacts CanonModel CanonSpec PermModel ClockModel GentoolsModel
  GentoolsSpec GentoolsProofs CipherModel CipherSpec CipherProofs SessionProofs BindingProofs
  StreamModel StreamSpec.
Local Open Scope N_scope.

Lemma split_last_snoc {A} (l : list A) x : split_last (l ++ [x]) = Some (l, x).
Proof.
  induction l as [|y l IH]; [reflexivity|]. cbn [app split_last].
  destruct (l ++ [x]) eqn:E; [destruct l; discriminate|]. now rewrite IH.
Qed.
Lemma concat_snoc {A} (l : list (list A)) x : concat (l ++ [x]) = concat l ++ x.
Proof. rewrite concat_app. cbn. now rewrite app_nil_r. Qed.

Ltac ccat := rewrite ?concat_app; cbn [concat]; rewrite ?app_nil_r, <- ?app_assoc.

Section Streams.
Variable H : hasher.
Variable c : cfg.
Hypothesis XL : forall m n, blen (h_digest H m n) = n.
Hypothesis VC : valid_cfg H c.
Hypothesis VI : valid_ids c.

Local Notation bs := (c_blocksize c).

Lemma full_app a b : full c (a ++ b) <-> full c a /\ full c b.
Proof. unfold full. now rewrite Forall_app. Qed.

(** ** Buffering *)
Lemma read_blocks_ok : forall fuel rem buf, (length rem < fuel)%nat ->
  exists l x, read_blocks c fuel rem buf = buf ++ l ++ [x] /\ full c l /\ concat l ++ x = rem.
Proof.
  pose proof (blocksize_pos H c VC) as Bp.
  induction fuel as [|fuel IH]; intros rem buf F; [lia|]. cbn [read_blocks].
  destruct (N.eqb_spec (blen (take bs rem)) bs) as [E|E].
  - destruct (IH (drop bs rem) (buf ++ [take bs rem])) as (l & x & E1 & Fl & Ec).
    { assert (L : (length (drop bs rem) < length rem)%nat); [|lia].
      rewrite blen_take in E. pose proof (blen_drop bs rem) as D. unfold blen in *. lia. }
    exists (take bs rem :: l), x. rewrite E1, <- !app_assoc. split; [reflexivity|].
    split; [constructor; assumption|]. cbn [concat]. rewrite <- app_assoc, Ec. apply take_drop.
  - exists [], (take bs rem). split; [reflexivity|]. split; [constructor|]. cbn.
    rewrite blen_take in E. apply take_all. lia.
Qed.

Lemma digest_ok init lst data : full c init ->
  exists init' lst', digest_plaintext c data (init ++ [lst]) = init' ++ [lst'] /\ full c init' /\
    concat (init' ++ [lst']) = concat (init ++ [lst]) ++ data.
Proof.
  intros F. unfold digest_plaintext. rewrite split_last_snoc.
  destruct (N.eqb_spec (blen lst) bs) as [E|E].
  - destruct (read_blocks_ok (S (length data)) data (init ++ [lst])) as (l & x & -> & Fl & Ec); [lia|].
    exists ((init ++ [lst]) ++ l), x. split; [now rewrite app_assoc|].
    split; [rewrite !full_app; repeat split; auto; constructor; [exact E|constructor]|].
    rewrite <- Ec, !concat_app. cbn [concat]. rewrite ?app_nil_r, <- ?app_assoc. reflexivity.
  - unfold read_z. destruct (Z.ltb_spec (Z.of_N bs - Z.of_N (blen lst)) 0) as [Ng|Ng].
    + replace (Z.of_N (blen data) =? Z.of_N bs - Z.of_N (blen lst))%Z with false by lia.
      exists init, (lst ++ data). split; [reflexivity|]. split; [exact F|].
      ccat. reflexivity.
    + set (m := Z.to_N (Z.of_N bs - Z.of_N (blen lst))).
      assert (Em : (Z.of_N bs - Z.of_N (blen lst) = Z.of_N m)%Z) by lia. rewrite Em.
      destruct (Z.eqb_spec (Z.of_N (blen (take m data))) (Z.of_N m)) as [Q|Q].
      * assert (Lm : blen (take m data) = m) by lia.
        destruct (read_blocks_ok (S (length data)) (drop m data) (init ++ [lst ++ take m data]))
          as (l & x & -> & Fl & Ec).
        { pose proof (blen_drop m data). unfold blen in *. lia. }
        exists ((init ++ [lst ++ take m data]) ++ l), x. split; [now rewrite app_assoc|].
        split.
        { rewrite !full_app. repeat split; auto. constructor; [|constructor].
          rewrite blen_app, Lm. lia. }
        rewrite !concat_app. cbn [concat]. rewrite ?app_nil_r, <- ?app_assoc, Ec. do 2 f_equal. apply take_drop.
      * exists init, (lst ++ take m data). split; [reflexivity|]. split; [exact F|].
        ccat. do 2 f_equal. rewrite take_all; [reflexivity|].
        rewrite blen_take in Q. lia.
Qed.

(** ** The cipher generator, block by block *)
Lemma blocks_snoc m f : forall l st x outs st1 out st2,
  transform_blocks H c m f st l = Ok (outs, st1) ->
  transform H c m (match l with [] => f | _ => false end) st1 x = Ok (out, st2) ->
  transform_blocks H c m f st (l ++ [x]) = Ok (outs ++ [out], st2).
Proof.
  intros l. revert f. induction l as [|y l IH]; intros f st x outs st1 out st2 T1 T2.
  - cbn in T1. apply Ok_inj in T1. injection T1 as <- <-. cbn [app transform_blocks]. rewrite T2.
    reflexivity.
  - cbn [transform_blocks] in T1. apply bind_ok in T1 as ([o s1] & E1 & T1).
    apply bind_ok in T1 as ([os s2] & E2 & T1). apply Ok_inj in T1.
    apply pair_equal_spec in T1 as [<- <-].
    cbn [app transform_blocks]. rewrite E1. cbn [bind].
    rewrite (IH false s1 x os s2 out st2 E2); [reflexivity|]. destruct l; exact T2.
Qed.

(** The digest from which a block's ID is derived is the same on both sides. *)
Lemma transform_prev f st x out st1 : transform H c Encryption f st x = Ok (out, st1) ->
  s_prev (snd st1) = s_cur (snd st).
Proof.
  destruct st as [b s]. unfold transform. destruct (c_type c); [|destruct f].
  - unfold shake_encipher. destruct (s_finalized s); [discriminate|]. cbv zeta. intros E.
    apply bind_ok in E as (? & _ & E). apply bind_ok in E as (? & _ & E). apply Ok_inj in E.
    apply pair_equal_spec in E as [_ <-]. reflexivity.
  - unfold dual_first_encipher. intros E. apply bind_ok in E as (? & _ & E).
    apply bind_ok in E as (? & _ & E). destruct (s_finalized s); [discriminate|]. cbv zeta in E.
    destruct (keystream_send _ _ _) as [k b']. apply bind_ok in E as (? & _ & E). apply Ok_inj in E.
    apply pair_equal_spec in E as [_ <-]. reflexivity.
  - unfold dual_encipher. destruct (s_finalized s); [discriminate|]. cbv zeta.
    destruct (keystream_send _ _ _) as [k b']. intros E. apply bind_ok in E as (? & _ & E).
    apply Ok_inj in E. apply pair_equal_spec in E as [_ <-]. reflexivity.
Qed.

Lemma blocksize_small : bs < 2 ^ 64.
Proof.
  pose proof (vc_rate _ _ VC) as R. pose proof (vc_checked _ _ VC) as K. unfold check_config in K.
  change (2 ^ 56) with 72057594037927936 in R. change (2 ^ 64) with 18446744073709551616.
  destruct (c_type c); [unfold check_shake_config in K|unfold check_dual_config in K];
    repeat match type of K with (if ?x then _ else _) = _ => destruct x eqn:?; [discriminate|] end;
    unfold rate in *; lia.
Qed.
Lemma to_bytes_be_total w n : n < 256 ^ w -> exists x, to_bytes_be w n = Ok x.
Proof. intros L. eexists. now apply to_bytes_be_fit. Qed.

Lemma block_id_total s x : s_finalized s = false -> blen x < 2 ^ 64 ->
  exists i, next_block_id H c s x None [] = Ok i /\ blen i = c_block_id_bytes c.
Proof.
  intros F L. destruct VI as (I1 & I2 & I3 & I4). unfold next_block_id, size_or.
  unfold test_block_id_size.
  destruct (N.ltb_spec (c_block_id_bytes c) (c_min_block_id_bytes c)); [lia|].
  destruct (N.ltb_spec (c_max_block_id_bytes c) (c_block_id_bytes c)); [lia|]. cbn [bind].
  destruct (vc_kdfs _ _ VC (c_block_id_kdf c)) as [f Ef]; [cbn; auto|]. rewrite Ef. cbn [bind].
  unfold get_block_id_mac. rewrite F.
  assert (G : exists d, match s_mode s with Some Encryption => Ok (s_prev s) | _ => Ok (s_cur s) end = Ok d)
    by (destruct (s_mode s) as [[]|]; eauto). destruct G as [d ->]. cbn [bind].
  unfold block_id_payload.
  destruct (to_bytes_be_total 1 (c_block_id_bytes c)) as [a Ea]; [change (256 ^ 1) with 256; lia|]. rewrite Ea. cbn [bind].
  destruct (to_bytes_be_total 8 (blen (@nil byte))) as [a' Ea']; [vm_compute; reflexivity|]. rewrite Ea'. cbn [bind].
  destruct (to_bytes_be_total 8 (blen x)) as [a'' Ea'']; [exact L|]. rewrite Ea''. cbn [bind].
  eexists. split; [reflexivity|]. apply XL.
Qed.
Lemma block_id_agree e d f x ct e1 : live H c e -> core e = core d ->
  transform H c Encryption f e x = Ok (ct, e1) -> live H c e1 ->
  s_mode (snd e1) = Some Encryption -> s_mode (snd d) = Some Decryption ->
  next_block_id H c (snd e1) ct None [] = next_block_id H c (snd d) ct None [].
Proof.
  intros L E T L1 M1 M2. pose proof (transform_prev _ _ _ _ _ T) as P.
  unfold next_block_id. do 2 (match goal with |- bind ?a _ = bind ?a _ => destruct a; [cbn [bind]|reflexivity] end).
  replace (get_block_id_mac (snd d)) with (get_block_id_mac (snd e1)); [reflexivity|].
  unfold get_block_id_mac. rewrite (lv_open _ _ _ L1), (lv_open _ _ _ (live_core _ _ _ _ E L)), M1, M2, P.
  unfold core in E. congruence.
Qed.

(** What a receiver with session [d] accepts: the IDs are right, and the blocks
    decipher to these. *)
Inductive accepts : bool -> session -> list (bytes * bytes) -> list bytes -> session -> Prop :=
| acc_nil f d : accepts f d [] [] d
| acc_cons f d i ct pt d1 out pts d2 :
    blen i = c_block_id_bytes c -> blen ct = bs ->
    next_block_id H c (snd d) ct None [] = Ok i ->
    transform H c Decryption f d ct = Ok (pt, d1) ->
    accepts false d1 out pts d2 ->
    accepts f d ((i, ct) :: out) (pt :: pts) d2.

Lemma accepts_snoc f d out pts d1 i ct pt d2 :
  accepts f d out pts d1 ->
  blen i = c_block_id_bytes c -> blen ct = bs ->
  next_block_id H c (snd d1) ct None [] = Ok i ->
  transform H c Decryption (match out with [] => f | _ => false end) d1 ct = Ok (pt, d2) ->
  accepts f d (out ++ [(i, ct)]) (pts ++ [pt]) d2.
Proof.
  intros A. revert i ct pt d2. induction A as [f d|f d i ct pt d1 out pts d2 A1 A2 A3 A4 A5 IH]; intros.
  - cbn [app]. econstructor; eauto. constructor.
  - cbn [app]. econstructor; eauto. apply IH; auto. destruct out; assumption.
Qed.

(** ** The invariant of the encrypting stream *)
Definition seed_of (st : cstream) := (cs_first st, cs_session st).

Record enc_inv (e0 d0 : session) (start extra data : bytes) (out : list (bytes * bytes))
    (st : cstream) : Prop := {
  ei_blocks : exists pbs ss,
    full c pbs /\
    transform_blocks H c Encryption true e0 pbs = Ok (map snd out, ss) /\
    live H c ss /\ fixed ss = fixed e0 /\
    cs_first st = (match pbs with [] => true | _ => false end) /\
    (exists ds, accepts true d0 out pbs ds /\ core ss = core ds /\ fixed ds = fixed d0) /\
    length out = length pbs /\
    match cs_phase st with
    | Open =>
      cs_session st = ss /\ cs_count st = blen data /\
      exists init lst, cs_buffer st = init ++ [lst] /\ full c init /\
        concat pbs ++ concat (cs_buffer st) = start ++ data
    | Finalizing =>
      cs_session st = ss /\
      exists end_, end_padding c (blen data) extra = Ok end_ /\
        pbs ++ cs_buffer st = batch (start ++ data ++ end_) bs
    | Closed =>
      cs_buffer st = [] /\
      (exists end_, end_padding c (blen data) extra = Ok end_ /\
        pbs = batch (start ++ data ++ end_) bs) /\
      exists s', finalize H c (fst ss) (snd ss) = Ok (tag_of H c (b_mac (fst ss)), s') /\
        cs_session st = (fst ss, s') /\ result_of s' = Ok (tag_of H c (b_mac (fst ss)))
    end
}.

Section Run.
Variables (e0 d0 : session) (start : bytes) (r : coins).
Hypothesis L0 : live H c e0.
Hypothesis C0 : core e0 = core d0.
Hypothesis ME : s_mode (snd e0) = Some Encryption.
Hypothesis MD : s_mode (snd d0) = Some Decryption.
Hypothesis VR : valid_coins c r.
Hypothesis Ls : blen start = inner_header_bytes c.
Local Notation extra := (r_extra r).
Local Notation inv := (enc_inv e0 d0 start extra).

(** Pulling a full block always yields a packet. *)
Lemma pull_ok pbs ss out st x rest :
  full c pbs -> transform_blocks H c Encryption true e0 pbs = Ok (map snd out, ss) ->
  live H c ss -> fixed ss = fixed e0 ->
  cs_first st = (match pbs with [] => true | _ => false end) ->
  (exists ds, accepts true d0 out pbs ds /\ core ss = core ds /\ fixed ds = fixed d0) ->
  length out = length pbs ->
  cs_session st = ss -> cs_buffer st = x :: rest -> blen x = bs ->
  exists i ct ss1,
    cs_pull H c st = (Packet i ct, {| cs_buffer := rest; cs_count := cs_count st; cs_session := ss1;
                                      cs_first := false; cs_phase := cs_phase st |}) /\
    full c (pbs ++ [x]) /\
    transform_blocks H c Encryption true e0 (pbs ++ [x]) = Ok (map snd (out ++ [(i, ct)]), ss1) /\
    live H c ss1 /\ fixed ss1 = fixed e0 /\
    (exists ds, accepts true d0 (out ++ [(i, ct)]) (pbs ++ [x]) ds /\ core ss1 = core ds /\ fixed ds = fixed d0) /\
    length (out ++ [(i, ct)]) = length (pbs ++ [x]).
Proof.
  intros Fp T L X First (ds & Ac & Cd & Fd) Ln Es Eb Lx.
  pose proof (blocksize_pos H c VC) as Bp.
  destruct (proj1 (transform_lockstep H c XL VC (cs_first st)) ss ds x L Cd Lx)
    as (ct & ss1 & ds1 & T1 & T2 & Lc & C1 & L1 & X1 & X2).
  assert (M1 : s_mode (snd ss1) = Some Encryption).
  { rewrite X in X1. unfold fixed in X1. congruence. }
  assert (Md : s_mode (snd ds) = Some Decryption) by (unfold fixed in Fd; congruence).
  destruct (block_id_total (snd ss1) ct (lv_open _ _ _ L1)) as (i & Hi & Li).
  { rewrite Lc. apply blocksize_small. }
  exists i, ct, ss1. unfold cs_pull. rewrite Eb, Es, T1, Hi. split; [reflexivity|].
  split; [apply full_app; split; [exact Fp|constructor; [exact Lx|constructor]]|].
  split. { rewrite map_app. cbn [map snd]. eapply blocks_snoc; [exact T|]. rewrite <- T1. f_equal. now rewrite First. }
  split; [exact L1|]. split; [congruence|]. split.
  { exists ds1. split; [|split; [exact C1|congruence]].
    apply (accepts_snoc _ _ _ _ ds i ct x ds1 Ac Li Lc).
    - rewrite <- (block_id_agree ss ds (cs_first st) x ct ss1); auto.
    - replace (match out with [] => true | _ => false end) with (cs_first st); [exact T2|].
      rewrite First. destruct out, pbs; cbn in Ln; try lia; reflexivity. }
  rewrite !app_length. cbn. lia.
Qed.

Lemma total_whole data end_ : end_padding c (blen data) extra = Ok end_ ->
  blen (start ++ data ++ end_) mod bs = 0 /\ start ++ data ++ end_ <> [].
Proof.
  intros E. pose proof (frame_pos H c VC) as Fp. pose proof (blocksize_pos H c VC) as Bp.
  destruct (pad_ok c r data Fp VR) as (p & ts & e & Hp & Ep & _ & Ee & _ & _ & Lh & Le & _).
  rewrite E in Ee. apply Ok_inj in Ee. subst e.
  pose proof (padding_size_bounds c (blen data) Fp) as B.
  assert (Lt : blen (start ++ data ++ end_) = inner_header_bytes c + blen data + padding_size c (blen data)).
  { rewrite !blen_app, Ls, Le. lia. }
  split.
  - rewrite Lt. pose proof (padded_total c (blen data) Fp) as M.
    apply N.mod_divide in M; [|lia]. apply N.mod_divide; [lia|].
    eapply N.divide_trans; [|exact M]. apply N.mod_divide; [lia|]. apply (frame_blocks H c VC).
  - intros Z. rewrite Z, (@blen_nil byte) in Lt. lia.
Qed.

Lemma flush_inv data out st : inv data out st -> cs_phase st = Finalizing ->
  exists o st', cs_flush H c st = (o, st') /\ inv data (out ++ packets [o]) st' /\
    ((exists i b, o = Packet i b) \/ (o = Stop /\ cs_phase st' = Closed)).
Proof.
  intros [(pbs & ss & Fp & T & L & X & First & Ac & Ln & Ph)] P. rewrite P in Ph.
  destruct Ph as (Es & end_ & Ee & Eb). destruct (total_whole data end_ Ee) as [Mw _].
  pose proof (batch_full _ _ (blocksize_pos H c VC) Mw) as Fb. fold (full c) in Fb.
  unfold cs_flush. destruct (cs_buffer st) as [|x rest] eqn:Q.
  - rewrite app_nil_r in Eb. rewrite Es. destruct ss as [b s].
    unfold finalize. pose proof (lv_open _ _ _ L) as Lo. cbn [snd] in Lo. rewrite Lo.
    eexists Stop, _. split; [reflexivity|]. split; [|right; split; reflexivity].
    cbn [packets]. rewrite app_nil_r. constructor. exists pbs, (b, s).
    do 7 (split; [first [assumption|cbn; assumption]|]). cbn [cs_phase cs_buffer cs_session].
    split; [reflexivity|]. split; [eauto|].
    eexists. unfold finalize. cbn [fst snd]. rewrite Lo, (tag_of_result H c XL VC).
    split; [reflexivity|]. split; reflexivity.
  - assert (Lx : blen x = bs).
    { rewrite <- Eb in Fb. apply full_app in Fb as [_ Fb]. inversion Fb; assumption. }
    destruct (pull_ok pbs ss out st x rest Fp T L X First Ac Ln Es Q Lx)
      as (i & ct & ss1 & Ep & F1 & T1 & L1 & X1 & Ac1 & Ln1).
    eexists _, _. split; [exact Ep|]. split; [|left; eauto].
    cbn [packets]. constructor. exists (pbs ++ [x]), ss1.
    do 4 (split; [assumption|]). split; [now destruct pbs|]. split; [assumption|]. split; [assumption|].
    cbn [cs_phase cs_buffer cs_session]. rewrite P. split; [reflexivity|]. exists end_. split; [exact Ee|].
    rewrite <- Eb, <- app_assoc. reflexivity.
Qed.

Lemma batch_app_full init rest : full c init -> batch (concat init ++ rest) bs = init ++ batch rest bs.
Proof.
  pose proof (blocksize_pos H c VC) as Bp.
  induction 1 as [|x l Lx Fl IH]; [reflexivity|]. cbn [concat app]. rewrite <- app_assoc.
  rewrite batch_cons by assumption. now rewrite IH.
Qed.

(** One call: what it may show, and the invariant after it. *)
Lemma step_inv o data out st : inv data out st ->
  exists o' st', cs_step H c extra o st = (o', st') /\
    inv (data ++ fed [o] [o']) (out ++ packets [o']) st' /\
    match o, cs_phase st with
    | EFeed _, Open => o' = Done /\ cs_phase st' = Open
    | EFeed _, Finalizing => o' = Hangs /\ st' = st
    | EFeed _, Closed => o' = Raised CipherStreamIsClosed /\ st' = st
    | ENext, p => ((exists i b, o' = Packet i b) \/ o' = Stop) /\ cs_phase st' = p
    | EFinalAgain, Finalizing | EFinalAgain, Closed => o' = Raised CipherStreamIsClosed /\ st' = st
    | EFinal, Closed => o' = Stop /\ st' = st
    | _, _ => (exists i b, o' = Packet i b /\ cs_phase st' = Finalizing) \/
              (o' = Stop /\ cs_phase st' = Closed)
    end.
Proof.
  intros I.
  assert (Fin : cs_phase st = Open ->
    exists o' st', cs_finalize H c extra st = (o', st') /\ inv data (out ++ packets [o']) st' /\
      ((exists i b, o' = Packet i b /\ cs_phase st' = Finalizing) \/ (o' = Stop /\ cs_phase st' = Closed))).
  { intros P. destruct I as [(pbs & ss & Fp & T & L & X & First & Ac & Ln & Ph)]. rewrite P in Ph.
    destruct Ph as (Es & Ec & init & lst & Eb & Fi & Et).
    unfold cs_finalize. rewrite P, Eb, split_last_snoc, Ec.
    destruct (pad_ok c r data (frame_pos H c VC) VR) as (p & ts & e & _ & _ & _ & Ee & _).
    rewrite Ee.
    match goal with |- context [cs_flush H c ?s] => set (st1 := s) end.
    assert (I1 : inv data out st1).
    { constructor. exists pbs, ss. do 7 (split; [assumption|]). cbn [cs_phase st1 cs_session cs_buffer].
      split; [exact Es|]. exists e. split; [exact Ee|].
      rewrite app_assoc. rewrite <- (batch_app_full (pbs ++ init)) by now apply full_app.
      f_equal. rewrite (app_assoc start). rewrite <- Et, Eb. ccat. reflexivity. }
    destruct (flush_inv data out st1 I1 eq_refl) as (o' & st' & E' & I' & Q).
    exists o', st'. split; [exact E'|]. split; [exact I'|]. destruct Q as [(i & b & ->)|Q]; [left|right; exact Q].
    exists i, b. split; [reflexivity|].
    unfold cs_flush in E'. destruct (cs_buffer st1) eqn:Qb.
    - destruct (cs_session st1). destruct (finalize _ _ _ _) as [[]|]; discriminate.
    - unfold cs_pull in E'. rewrite Qb in E'. destruct (transform _ _ _ _ _ _) as [[ct s']|]; [|discriminate].
      destruct (next_block_id _ _ _ _ _ _); [|discriminate]. injection E' as _ _ <-. reflexivity. }
  destruct o as [d| | |]; cbn [cs_step].
  - unfold cs_feed. destruct (cs_phase st) eqn:P.
    + eexists _, _. split; [reflexivity|]. cbn [fed packets]. rewrite !app_nil_r.
      split; [|split; reflexivity].
      destruct I as [(pbs & ss & Fp & T & L & X & First & Ac & Ln & Ph)]. rewrite P in Ph.
      destruct Ph as (Es & Ec & init & lst & Eb & Fi & Et).
      constructor. exists pbs, ss. do 7 (split; [assumption|]). cbn [cs_phase cs_session cs_count cs_buffer].
      split; [exact Es|]. split; [rewrite Ec, blen_app; lia|].
      destruct (digest_ok init lst d Fi) as (i' & l' & Ed & Fi' & Ed').
      exists i', l'. rewrite Eb, Ed. split; [reflexivity|]. split; [exact Fi'|].
      rewrite Ed', <- Eb, app_assoc, Et, app_assoc. reflexivity.
    + eexists _, _. split; [reflexivity|]. cbn [fed packets]. rewrite !app_nil_r. auto.
    + eexists _, _. split; [reflexivity|]. cbn [fed packets]. rewrite !app_nil_r. auto.
  - assert (Fd : forall o', fed [ENext] [o'] = []) by reflexivity.
    unfold cs_next. destruct (N.ltb_spec (min_stream_queue c) (blen (cs_buffer st))) as [G|G].
    2:{ eexists _, _. split; [reflexivity|]. cbn [fed packets]. rewrite !app_nil_r. split; [exact I|].
        split; [right; reflexivity|reflexivity]. }
    destruct I as [(pbs & ss & Fp & T & L & X & First & Ac & Ln & Ph)].
    destruct (cs_buffer st) as [|x rest] eqn:Qb; [unfold blen in G; cbn in G; lia|].
    assert (A : cs_session st = ss /\ blen x = bs).
    { destruct (cs_phase st).
      - destruct Ph as (Es & _ & init & lst & Eb & Fi & _). split; [exact Es|].
        destruct init as [|y init]; cbn [app] in Eb.
        + injection Eb as -> ->. unfold blen, min_stream_queue in G. cbn in G. lia.
        + injection Eb as -> ->. inversion Fi; assumption.
      - destruct Ph as (Es & end_ & Ee & Eb). split; [exact Es|].
        destruct (total_whole data end_ Ee) as [Mw _].
        pose proof (batch_full _ _ (blocksize_pos H c VC) Mw) as Fb.
        rewrite <- Eb in Fb. apply full_app in Fb as [_ Fb]. inversion Fb; assumption.
      - destruct Ph as (Eb & _). discriminate. }
    destruct A as [Es Lx].
    destruct (pull_ok pbs ss out st x rest Fp T L X First Ac Ln Es Qb Lx)
      as (i & ct & ss1 & Ep & F1 & T1 & L1 & X1 & Ac1 & Ln1).
    eexists _, _. split; [exact Ep|]. rewrite Fd, app_nil_r. split; [|split; [left; eauto|reflexivity]].
    cbn [packets]. constructor. exists (pbs ++ [x]), ss1.
    do 4 (split; [assumption|]). split; [now destruct pbs|]. split; [assumption|]. split; [assumption|].
    cbn [cs_phase cs_buffer cs_session cs_count]. destruct (cs_phase st) eqn:P.
    + destruct Ph as (_ & Ec & init & lst & Eb & Fi & Et). split; [reflexivity|]. split; [exact Ec|].
      destruct init as [|y init]; cbn [app] in Eb.
      * injection Eb as -> ->. unfold blen, min_stream_queue in G. cbn in G. lia.
      * injection Eb as -> ->. exists init, lst. split; [reflexivity|]. split; [now inversion Fi|].
        rewrite <- Et. cbn [app concat]. ccat. reflexivity.
    + destruct Ph as (_ & end_ & Ee & Eb). split; [reflexivity|]. exists end_. split; [exact Ee|].
      rewrite <- Eb, <- app_assoc. reflexivity.
    + destruct Ph as (Eb & _). discriminate.
  - assert (Fd : forall o', fed [EFinal] [o'] = []) by reflexivity.
    destruct (cs_phase st) eqn:P.
    + destruct (Fin eq_refl) as (o' & st' & E & I' & Q). exists o', st'. rewrite Fd, app_nil_r. auto.
    + destruct (flush_inv data out st I P) as (o' & st' & E & I' & Q). exists o', st'.
      unfold cs_finalize. rewrite P, Fd, app_nil_r. split; [exact E|]. split; [exact I'|].
      destruct Q as [(i & b & ->)|Q]; [left|right; exact Q]. exists i, b. split; [reflexivity|].
      unfold cs_flush in E. destruct (cs_buffer st) eqn:Qb.
      * destruct (cs_session st). destruct (finalize _ _ _ _) as [[]|]; discriminate.
      * unfold cs_pull in E. rewrite Qb in E. destruct (transform _ _ _ _ _ _) as [[ct s']|]; [|discriminate].
        destruct (next_block_id _ _ _ _ _ _); [|discriminate]. injection E as _ _ <-. exact P.
    + unfold cs_finalize. rewrite P. eexists _, _. split; [reflexivity|]. cbn [fed packets].
      rewrite !app_nil_r. auto.
  - assert (Fd : forall o', fed [EFinalAgain] [o'] = []) by reflexivity.
    destruct (cs_phase st) eqn:P.
    + destruct (Fin eq_refl) as (o' & st' & E & I' & Q). exists o', st'. rewrite Fd, app_nil_r. auto.
    + eexists _, _. split; [reflexivity|]. cbn [fed packets]. rewrite !app_nil_r. auto.
    + eexists _, _. split; [reflexivity|]. cbn [fed packets]. rewrite !app_nil_r. auto.
Qed.

Lemma fed_cons o ops o' outs : fed (o :: ops) (o' :: outs) = fed [o] [o'] ++ fed ops outs.
Proof. destruct o, o'; cbn [fed]; rewrite ?app_nil_r; reflexivity. Qed.
Lemma packets_cons o outs : packets (o :: outs) = packets [o] ++ packets outs.
Proof. destruct o; reflexivity. Qed.

Lemma run_inv : forall ops data out st outs st', inv data out st ->
  cs_run H c extra ops st = (outs, st') ->
  inv (data ++ fed ops outs) (out ++ packets outs) st'.
Proof.
  induction ops as [|o ops IH]; intros data out st outs st' I R.
  - cbn in R. injection R as <- <-. cbn. now rewrite !app_nil_r.
  - cbn [cs_run] in R. destruct (step_inv o data out st I) as (o' & st1 & E & I1 & _).
    rewrite E in R. destruct (cs_run H c extra ops st1) as [outs1 st2] eqn:R1.
    injection R as <- <-. rewrite fed_cons, packets_cons, !app_assoc. eapply IH; eauto.
Qed.

End Run.
End Streams.
