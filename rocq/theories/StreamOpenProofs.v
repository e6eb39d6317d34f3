(** * Proofs about the decrypting stream *)
From Coq Require Import ZArith.
From Verif Require Import Base BaseFacts CanonModel CanonSpec PermModel ClockModel GentoolsModel
  GentoolsSpec GentoolsProofs CipherModel CipherSpec CipherProofs SessionProofs BindingProofs
  StreamModel StreamSpec StreamProofs.
Local Open Scope N_scope.

Lemma drop_app_le {A} n (a b : list A) : n <= blen a -> drop n (a ++ b) = drop n a ++ b.
Proof.
  intros L. rewrite !drop_skipn, skipn_app.
  replace (N.to_nat n - length a)%nat with 0%nat by (unfold blen in L; lia). reflexivity.
Qed.
Lemma take_app_le {A} n (a b : list A) : n <= blen a -> take n (a ++ b) = take n a.
Proof.
  intros L. rewrite !take_firstn, firstn_app.
  replace (N.to_nat n - length a)%nat with 0%nat by (unfold blen in L; lia). cbn.
  apply app_nil_r.
Qed.
Lemma drop_drop {A} n m (l : list A) : drop n (drop m l) = drop (m + n) l.
Proof. rewrite !drop_skipn, <- skipn_add. f_equal. lia. Qed.
Lemma full_len c l : full c l -> blen (concat l) = blen l * c_blocksize c.
Proof.
  induction 1 as [|x l Lx Fl IH]; [reflexivity|]. cbn [concat]. rewrite blen_app, IH, Lx.
  unfold blen. cbn [length]. lia.
Qed.
Lemma blen_cons {A} (x : A) l : blen (x :: l) = blen l + 1.
Proof. unfold blen. cbn [length]. lia. Qed.

Section Streams.
Variable H : hasher.
Variable c : cfg.
Hypothesis XL : forall m n, blen (h_digest H m n) = n.
Hypothesis VC : valid_cfg H c.
Hypothesis VI : valid_ids c.
Local Notation bs := (c_blocksize c).
Local Notation ih := (inner_header_bytes c).
Local Notation bid := (c_block_id_bytes c).
Local Notation ps := (packetsize c).
Local Notation minq := (min_stream_queue c).

Lemma bid_pos : 0 < bid. Proof. destruct VI as (? & ? & ? & ?). lia. Qed.
Lemma bs_pos : 0 < bs. Proof. exact (blocksize_pos H c VC). Qed.
Lemma ps_pos : 0 < ps. Proof. unfold packetsize. pose proof bs_pos. lia. Qed.

(** ** The queue of results *)
Record qinv (pts : list bytes) (out : bytes) (trim : N) (queue : list bytes) : Prop := {
  q_trim : trim <= ih;
  q_have : ih - trim <= blen (concat pts);
  q_text : out ++ concat queue = drop (ih - trim) (concat pts);
  q_none : trim <> 0 -> out = [];
  q_head : match queue with [] => True | q :: _ => 0 < blen q <= bs end;
  q_tail : full c (tl queue);
  q_kept : out <> [] -> full c queue /\ minq <= blen queue;
}.

Lemma q_feed pts out trim queue pt : qinv pts out trim queue -> blen pt = bs ->
  qinv (pts ++ [pt]) out trim (queue ++ [pt]).
Proof.
  intros [Q1 Q2 Q3 Q4 Q5 Q6 Q7] L. pose proof bs_pos as Bp. constructor; auto.
  - rewrite concat_app, blen_app. lia.
  - rewrite !concat_app. cbn [concat]. rewrite app_nil_r, app_assoc, Q3, drop_app_le by assumption. reflexivity.
  - destruct queue; cbn [app]; [lia|assumption].
  - destruct queue; cbn [app tl]; [constructor|]. apply full_app. split; [exact Q6|].
    constructor; [exact L|constructor].
  - intros Ne. destruct (Q7 Ne) as [F G]. split.
    + apply full_app. split; [exact F|]. constructor; [exact L|constructor].
    + rewrite blen_app. lia.
Qed.

Lemma trim_queue_ok : forall queue trim,
  match queue with [] => True | q :: _ => 0 < blen q <= bs end -> full c (tl queue) ->
  forall t q', trim_queue trim queue = (t, q') ->
  t <= trim /\ trim - t <= blen (concat queue) /\ concat q' = drop (trim - t) (concat queue) /\
  match q' with [] => True | q :: _ => 0 < blen q <= bs end /\ full c (tl q') /\
  (t = 0 \/ q' = []).
Proof.
  induction queue as [|q queue IH]; intros trim Hh Ht t q' E; cbn [trim_queue] in E.
  - injection E as <- <-. cbn [concat]. rewrite (@blen_nil byte), N.sub_diag, drop_0. repeat split; auto; lia.
  - destruct (N.eqb_spec trim 0) as [->|Ne].
    + injection E as <- <-. rewrite N.sub_diag, drop_0. repeat split; auto; try lia; apply Hh.
    + cbn [tl] in Ht. pose proof (blen_take trim q) as Lt. pose proof (blen_drop trim q) as Ld.
      destruct (drop trim q) as [|y ys] eqn:D.
      * rewrite (@blen_nil byte) in Ld.
        assert (Lq : blen (take trim q) = blen q) by lia. rewrite Lq in E.
        destruct (IH (trim - blen q)) with (t := t) (q' := q') as (A1 & A2 & A3 & A4 & A5 & A6); auto.
        { destruct queue; [trivial|]. inversion Ht; subst. pose proof bs_pos. lia. }
        { destruct queue; [constructor|]. now inversion Ht. }
        cbn [concat]. rewrite blen_app. repeat split; auto; try lia.
        rewrite A3. replace (trim - t) with (blen q + (trim - blen q - t)) by lia.
        rewrite <- drop_drop, drop_app by reflexivity. reflexivity.
      * injection E as <- <-. assert (Lq : blen (take trim q) = trim).
        { rewrite blen_cons in Ld. lia. }
        rewrite Lq, N.sub_diag, N.sub_0_r. cbn [concat]. rewrite <- D.
        repeat split; auto.
        -- lia.
        -- rewrite blen_app. rewrite blen_cons in Ld. lia.
        -- symmetry. apply drop_app_le. rewrite blen_cons in Ld. lia.
        -- rewrite D, blen_cons. lia.
        -- rewrite blen_drop. lia.
Qed.

Lemma q_trimmed pts out trim queue t q' : qinv pts out trim queue ->
  trim_queue trim queue = (t, q') -> qinv pts out t q' /\ (t = 0 \/ q' = []).
Proof.
  intros [Q1 Q2 Q3 Q4 Q5 Q6 Q7] E.
  destruct (N.eq_dec trim 0) as [->|Ne].
  - assert (E' : trim_queue 0 queue = (0, queue)) by (destruct queue; reflexivity).
    rewrite E' in E. injection E as <- <-. split; [constructor; auto|now left].
  - specialize (Q4 Ne). subst out. cbn [app] in Q3.
    destruct (trim_queue_ok queue trim Q5 Q6 t q' E) as (A1 & A2 & A3 & A4 & A5 & A6).
    split; [|exact A6]. assert (Lc : blen (concat queue) = blen (concat pts) - (ih - trim)).
    { rewrite Q3, blen_drop. reflexivity. }
    constructor; auto; try lia.
    + cbn [app]. rewrite A3, Q3, drop_drop. f_equal. lia.
    + intros []. reflexivity.
Qed.

Lemma q_pop pts out q queue : qinv pts out 0 (q :: queue) -> minq < blen (q :: queue) ->
  qinv pts (out ++ q) 0 queue.
Proof.
  intros [Q1 Q2 Q3 Q4 Q5 Q6 Q7] G. cbn [tl] in Q6. rewrite blen_cons in G.
  constructor; auto.
  - rewrite <- Q3. cbn [concat]. now rewrite app_assoc.
  - congruence.
  - destruct queue; [trivial|]. inversion Q6; subst. pose proof bs_pos. lia.
  - destruct queue; [constructor|]. now inversion Q6.
  - intros _. split; [exact Q6|]. unfold min_stream_queue in *. lia.
Qed.

(** ** Feeding *)
Lemma block_id_size s (x i : bytes) : blen i = bid ->
  next_block_id H c s x (Some (blen i)) [] = next_block_id H c s x None [].
Proof.
  intros L. pose proof bid_pos. unfold next_block_id, size_or. rewrite L.
  destruct (N.eqb_spec bid 0); [lia|]. reflexivity.
Qed.
Lemma test_id_ok s (x i : bytes) : s_finalized s = false -> blen i = bid -> blen x = bs ->
  exists i', next_block_id H c s x None [] = Ok i' /\
    test_next_block_id H c s i x [] = if bytes_eqb i i' then Ok tt else Err InvalidBlockID.
Proof.
  intros F L Lx. destruct (block_id_total H c XL VC VI s x F) as (i' & Hi & _).
  { rewrite Lx. apply (blocksize_small H c VC). }
  exists i'. split; [exact Hi|]. unfold test_next_block_id. rewrite block_id_size, Hi by assumption.
  reflexivity.
Qed.

Lemma parse_cons (i b rest : bytes) : blen i = bid -> blen b = bs ->
  parse c (i ++ b ++ rest) = (i, b) :: parse c rest.
Proof.
  intros Li Lb. unfold parse. rewrite app_assoc, batch_cons; [|exact ps_pos|rewrite blen_app; unfold packetsize; lia].
  cbn [map]. now rewrite take_app, drop_app by exact Li.
Qed.
Lemma parse_nil : parse c [] = [].
Proof. unfold parse. now rewrite batch_nil by exact ps_pos. Qed.
Lemma parse_app (a b : bytes) : blen a mod ps = 0 -> parse c (a ++ b) = parse c a ++ parse c b.
Proof.
  intros M. unfold parse. rewrite batch_app by (exact ps_pos || exact M). now rewrite map_app.
Qed.

(** A whole first packet of a piece. *)
Lemma first_packet (data : bytes) : data <> [] -> blen data mod ps = 0 ->
  exists (i b rest : bytes), data = i ++ b ++ rest /\ blen i = bid /\ blen b = bs /\ blen rest mod ps = 0 /\
    take bid data = i /\ drop bid data = b ++ rest /\
    take bs (b ++ rest) = b /\ drop bs (b ++ rest) = rest.
Proof.
  intros Ne M. pose proof ps_pos as Pp. pose proof bs_pos. pose proof bid_pos.
  assert (G : ps <= blen data).
  { apply N.mod_divide in M as [k K]; [|lia]. destruct (N.eq_dec k 0) as [->|]; [|nia].
    exfalso. apply Ne, blen_0. lia. }
  unfold packetsize in *.
  exists (take bid data), (take bs (drop bid data)), (drop bs (drop bid data)).
  pose proof (blen_take bid data) as L1. pose proof (blen_drop bid data) as L2.
  pose proof (blen_take bs (drop bid data)) as L3. pose proof (blen_drop bs (drop bid data)) as L4.
  split; [now rewrite !take_drop|]. split; [lia|]. split; [lia|].
  split. { rewrite L4, L2. replace (blen data - bid - bs) with (blen data - (bid + bs)) by lia.
           apply N.mod_divide in M as [k K]; [|lia]. rewrite K.
           replace (k * (bid + bs) - (bid + bs)) with ((k - 1) * (bid + bs)) by nia.
           apply N.mod_mul. lia. }
  rewrite take_drop. auto.
Qed.


(** ** The invariant of the decrypting stream *)

(** The part about the results, for the deciphered blocks [pts] of which [out]
    has been released by iterators. *)
Record cinv (pts : list bytes) (out : bytes) (st : dstream) : Prop := {
  ci_queue : qinv pts out (ds_trim st) (ds_queue st);
  ci_fresh : ds_streaming st = false -> ds_trim st = ih /\ out = [] /\ ds_queue st = pts;
  ci_iter : ds_iterating st = true -> ds_trim st = 0 /\ ds_streaming st = true;
}.

Definition same_rest (a b : dstream) : Prop :=
  ds_session a = ds_session b /\ ds_first a = ds_first b /\ ds_phase a = ds_phase b.

Lemma prologue_ok pts out st now ttl oe st1 : cinv pts out st ->
  ds_prologue c now ttl st = (oe, st1) ->
  cinv pts out st1 /\ same_rest st1 st /\
  (oe = None -> ds_streaming st1 = true /\ (ds_trim st1 = 0 \/ ds_queue st1 = [])) /\
  (ds_streaming st = true -> ds_trim st = 0 -> st1 = st).
Proof.
  intros [Q F I] E. unfold ds_prologue in E.
  assert (Go : forall t q, trim_queue (ds_trim st) (ds_queue st) = (t, q) ->
    cinv pts out (ds_set_queue st t true q) /\ same_rest (ds_set_queue st t true q) st /\
    (@None exn = None -> ds_streaming (ds_set_queue st t true q) = true /\ (t = 0 \/ q = [])) /\
    (ds_streaming st = true -> ds_trim st = 0 -> ds_set_queue st t true q = st)).
  { intros t q Et. destruct (q_trimmed _ _ _ _ _ _ Q Et) as [Q' Z].
    split; [|split; [repeat split|split; [auto|]]].
    - constructor; cbn; [exact Q'|discriminate|]. intros J. destruct (I J) as [Tz _]. split; [|reflexivity].
      rewrite Tz in Et. destruct (ds_queue st); cbn in Et; injection Et as <- _; reflexivity.
    - intros Hs Tz. rewrite Tz in Et. destruct st as [qu tr sm se fi it ph]. cbn in *. subst.
      destruct qu; cbn in Et; injection Et as <- <-; reflexivity. }
  destruct (trim_queue (ds_trim st) (ds_queue st)) as [t q] eqn:Et.
  specialize (Go t q eq_refl).
  destruct (ds_streaming st) eqn:S.
  - injection E as <- <-. exact Go.
  - destruct (F eq_refl) as (F1 & F2 & F3).
    assert (Same : forall b e, cinv pts out (ds_set_queue st (ds_trim st) b (ds_queue st)) /\
       same_rest (ds_set_queue st (ds_trim st) b (ds_queue st)) st /\
       (@Some exn e = None -> ds_streaming (ds_set_queue st (ds_trim st) b (ds_queue st)) = true /\
          (ds_trim (ds_set_queue st (ds_trim st) b (ds_queue st)) = 0 \/
           ds_queue (ds_set_queue st (ds_trim st) b (ds_queue st)) = [])) /\
       (false = true -> ds_trim st = 0 -> ds_set_queue st (ds_trim st) b (ds_queue st) = st)).
    { intros b e. split; [|split; [repeat split|split; discriminate]]. constructor; cbn; auto.
      intros J. destruct (I J). discriminate. }
    destruct (ds_queue st) as [|q0 qu] eqn:Qe.
    + injection E as <- <-. apply Same.
    + destruct (test_timestamp _ _ _ _ _) as [u|e].
      * injection E as <- <-. destruct Go as (G1 & G2 & G3 & G4). split; [exact G1|]. split; [exact G2|].
        split; [exact G3|discriminate].
      * destruct e; injection E as <- <-; apply Same.
Qed.

Lemma loop_ok pts out st o st1 : cinv pts out st -> (ds_trim st = 0 \/ ds_queue st = []) ->
  ds_streaming st = true -> ds_loop c st = (o, st1) ->
  (o = Stop /\ st1 = st /\ blen (ds_queue st) <= minq) \/
  (exists q, o = Plain q /\ ds_queue st = q :: ds_queue st1 /\ cinv pts (out ++ q) st1 /\
     ds_trim st1 = 0 /\ ds_streaming st1 = true /\ ds_queue st1 <> [] /\ same_rest st1 st).
Proof.
  intros [Q F I] Z S E. unfold ds_loop in E. destruct (ds_queue st) as [|q qu] eqn:Qe.
  - left. injection E as <- <-. repeat split. rewrite (@blen_nil bytes). lia.
  - destruct Z as [Z|]; [|discriminate]. destruct (N.ltb_spec minq (blen (q :: qu))) as [G|G].
    + right. injection E as <- <-. exists q. split; [reflexivity|]. split; [reflexivity|].
      split; [|cbn; repeat split; auto; destruct qu; [unfold blen, min_stream_queue in G; cbn in G; lia|discriminate]]. rewrite Z in *. constructor; cbn [ds_set_iterating ds_set_queue ds_trim ds_queue ds_streaming ds_iterating].
      * apply q_pop; [exact Q|exact G].
      * congruence.
      * auto.
    + left. injection E as <- <-. auto.
Qed.

Definition ended (ss : session) (st : dstream) : Prop :=
  exists s', finalize H c (fst ss) (snd ss) = Ok (tag_of H c (b_mac (fst ss)), s') /\
    ds_session st = (fst ss, s') /\ result_of s' = Ok (tag_of H c (b_mac (fst ss))).

(** What the last pieces amount to. *)
Definition tail_of (out0 out : bytes) (rest : list bytes) (st : dstream) : Prop :=
  ds_trim st = 0 /\ ds_streaming st = true /\ blen (ds_queue st) <= minq /\
  exists init lst t, ds_queue st = init ++ [lst] /\ out = out0 ++ t /\
    t ++ concat rest = but_last_n (depadding_end_index c lst) (concat (ds_queue st)).

Record dec_inv (d0 : session) (acc : list (bytes * bytes)) (out : bytes) (st : dstream) : Prop := {
  di_run : exists pts ss out0,
    accepts H c true d0 acc pts ss /\ full c pts /\ live H c ss /\ fixed ss = fixed d0 /\
    cinv pts out0 st /\
    ds_first st = match acc with [] => true | _ => false end /\
    match ds_phase st with
    | DOpen => ds_session st = ss /\ out = out0
    | DIter => ended ss st /\ out = out0 /\ ds_trim st = 0 /\ ds_streaming st = true /\ ds_queue st <> []
    | DTail rest => ended ss st /\ tail_of out0 out rest st
    | DDone => ended ss st /\ tail_of out0 out [] st
    | DFailed => ended ss st /\ out = out0
    end
}.

Section Run.
Variable d0 : session.
Variable ttl : option Z.
Local Notation inv := (dec_inv d0).

Lemma accept_one acc out st i b : inv acc out st -> ds_phase st = DOpen ->
  blen i = bid -> blen b = bs -> next_block_id H c (snd (ds_session st)) b None [] = Ok i ->
  exists pt ss,
    transform H c Decryption (ds_first st) (ds_session st) b = Ok (pt, ss) /\
    inv (acc ++ [(i, b)]) out
      {| ds_queue := ds_queue st ++ [pt]; ds_trim := ds_trim st;
         ds_streaming := ds_streaming st; ds_session := ss; ds_first := false;
         ds_iterating := ds_iterating st; ds_phase := ds_phase st |}.
Proof.
  intros [(pts & ss & out0 & Ac & Fp & L & X & [Q FS IT] & F & Ph)] P Li Lb Hi.
  rewrite P in Ph. destruct Ph as [Es ->]. rewrite Es in *.
  destruct (proj2 (transform_lockstep H c XL VC (ds_first st)) ss ss b L eq_refl Lb)
    as (pt & s1 & s2 & T1 & _ & Lp & C1 & L1 & _ & X2).
  exists pt, s2. split; [exact T1|]. constructor; cbn [ds_phase ds_first].
  exists (pts ++ [pt]), s2, out0. split.
  { eapply accepts_snoc; try eassumption. rewrite <- F. exact T1. }
  split; [apply full_app; split; [exact Fp|constructor; [exact Lp|constructor]]|].
  split; [exact (live_core _ _ _ _ C1 L1)|]. split; [congruence|]. split.
  { constructor; cbn.
    - now apply q_feed.
    - intros S. destruct (FS S) as (-> & -> & ->). auto.
    - exact IT. }
  split; [now destruct acc|]. rewrite P. cbn. auto.
Qed.

Lemma inv_open acc out st : inv acc out st -> ds_phase st = DOpen ->
  s_finalized (snd (ds_session st)) = false.
Proof.
  intros [(pts & ss & out0 & Ac & Fp & L & X & CI & F & Ph)] P. rewrite P in Ph.
  destruct Ph as [-> _]. exact (lv_open _ _ _ L).
Qed.

Lemma digest_inv : forall fuel data acc out st, (length data <= fuel)%nat ->
  inv acc out st -> ds_phase st = DOpen -> blen data mod ps = 0 ->
  exists o st', ds_digest H c fuel data st = (o, st') /\ ds_phase st' = DOpen /\
    ((o = Done /\ inv (acc ++ parse c data) out st') \/
     (exists good i b rest i', o = Refused i b rest /\ data = good ++ i ++ b ++ rest /\
        blen good mod ps = 0 /\ blen i = bid /\ blen b = bs /\
        next_block_id H c (snd (ds_session st')) b None [] = Ok i' /\ i <> i' /\
        inv (acc ++ parse c good) out st')).
Proof.
  induction fuel as [|fuel IH]; intros data acc out st Lf I P M.
  - destruct data; [|cbn in Lf; lia]. exists Done, st. split; [reflexivity|]. split; [exact P|].
    left. split; [reflexivity|]. now rewrite parse_nil, app_nil_r.
  - destruct data as [|y ys].
    { exists Done, st. cbn [ds_digest]. replace (take bid []) with (@nil byte) by (rewrite take_firstn; now rewrite firstn_nil).
      split; [reflexivity|]. split; [exact P|]. left. split; [reflexivity|]. now rewrite parse_nil, app_nil_r. }
    assert (Ne : y :: ys <> []) by discriminate.
    destruct (first_packet _ Ne M) as (i & b & rest & E & Li & Lb & Mr & Ti & Di & Tb & Db).
    cbn [ds_digest]. rewrite Ti, Di, Tb, Db.
    destruct (test_id_ok (snd (ds_session st)) b i (inv_open _ _ _ I P) Li Lb) as (i' & Hi' & Ht).
    pose proof bid_pos as Bp.
    assert (exists z zs, i = z :: zs) as (z & zs & Ez).
    { destruct i as [|z zs]; [rewrite (@blen_nil byte) in Li; lia|eauto]. }
    rewrite Ht. destruct (bytes_eqb i i') eqn:Q.
    + apply bytes_eqb_eq in Q. subst i'.
      destruct (accept_one acc out st i b I P Li Lb Hi') as (pt & ss & T & I1). rewrite T.
      assert (Lr : (length rest <= fuel)%nat).
      { apply (f_equal (@length byte)) in E. rewrite Ez, !app_length in E. cbn [length] in E, Lf. lia. }
      destruct (IH rest _ out _ Lr I1 P Mr) as (o & st' & Ed & P' & Cs).
      exists o, st'. rewrite Ez. split; [exact Ed|]. split; [exact P'|].
      destruct Cs as [[-> I']|(good & i2 & b2 & rest2 & i2' & -> & Er & Mg & C1 & C2 & C3 & C4 & I')].
      * left. split; [reflexivity|]. rewrite E, parse_cons by assumption.
        rewrite <- app_assoc in I'. exact I'.
      * right. exists (i ++ b ++ good), i2, b2, rest2, i2'. split; [reflexivity|].
        split; [rewrite E, Er, <- !app_assoc; reflexivity|]. split.
        { rewrite !blen_app, Li, Lb. unfold packetsize. rewrite N.add_assoc.
          rewrite <- (N.mul_1_l (bid + bs)) at 1. rewrite N.add_comm, N.mod_add by lia. exact Mg. }
        do 4 (split; [assumption|]). rewrite parse_cons by assumption. rewrite <- app_assoc in I'. exact I'.
    + rewrite Ez. exists (Refused i b rest), st. split; [now rewrite Ez|]. split; [exact P|]. right.
      exists [], i, b, rest, i'. split; [reflexivity|]. split; [exact E|].
      split; [rewrite (@blen_nil byte); apply N.mod_0_l; pose proof ps_pos; lia|].
      split; [exact Li|]. split; [exact Lb|]. split; [exact Hi'|].
      split; [now apply bytes_eqb_neq|]. now rewrite parse_nil, app_nil_r.
Qed.

Lemma feed_inv data acc out st : inv acc out st ->
  exists o st', ds_feed H c data st = (o, st') /\ inv (acc ++ taken c (DFeed data) o) out st' /\
    match ds_phase st with
    | DOpen =>
      if (blen data =? 0) || negb (blen data mod ps =? 0) then o = Raised InvalidLength /\ st' = st
      else ds_phase st' = DOpen /\ (o = Done \/ exists i b rest, o = Refused i b rest)
    | _ => st' = st /\ (o = Raised InvalidLength \/ o = Hangs \/ o = Raised CipherStreamIsClosed)
    end /\ released [o] = [].
Proof.
  intros I. unfold ds_feed.
  destruct ((blen data =? 0) || negb (blen data mod ps =? 0)) eqn:B.
  { eexists _, _. split; [reflexivity|]. cbn [taken]. rewrite app_nil_r. split; [exact I|].
    destruct (ds_phase st); auto. }
  apply Bool.orb_false_iff in B as [_ B]. apply Bool.negb_false_iff, N.eqb_eq in B.
  destruct (ds_phase st) eqn:P;
    try (eexists _, _; split; [reflexivity|]; cbn [taken]; rewrite app_nil_r; solve [auto 10]).
  destruct (digest_inv (length data) data acc out st (Nat.le_refl _) I P B) as (o & st' & E & P' & Cs).
  exists o, st'. split; [exact E|].
  destruct Cs as [[-> I']|(good & i & b & rest & i' & -> & Er & Mg & C1 & C2 & C3 & C4 & I')].
  - cbn [taken]. auto.
  - cbn [taken]. replace (blen data - (blen i + blen b + blen rest)) with (blen good)
      by (rewrite Er, !blen_app; lia).
    rewrite Er at 1. rewrite take_app by reflexivity. split; [exact I'|].
    split; [|reflexivity]. split; [exact P'|]. right; eauto.
Qed.

(** A step of an iterator. *)
Lemma next_inv now acc out st : inv acc out st ->
  exists o st', ds_next c now ttl st = (o, st') /\ inv acc (out ++ released [o]) st' /\
    ds_phase st' = ds_phase st /\
    ((exists e, fst (ds_prologue c now ttl st) = Some e /\ o = Raised e) \/
     (fst (ds_prologue c now ttl st) = None /\ ((exists q, o = Plain q) \/ o = Stop))).
Proof.
  intros [(pts & ss & out0 & Ac & Fp & L & X & CI & F & Ph)]. unfold ds_next.
  destruct (ds_prologue c now ttl st) as [oe st1] eqn:E.
  destruct (prologue_ok _ _ _ _ _ _ _ CI E) as (C1 & (R1 & R2 & R3) & Nn & Keep).
  assert (End : forall a b, ds_session a = ds_session b -> ended ss b -> ended ss a).
  { intros a b Eq (s' & A1 & A2 & A3). exists s'. rewrite Eq. auto. }
  assert (I1 : inv acc out st1).
  { constructor. exists pts, ss, out0. do 5 (split; [assumption|]). split; [congruence|].
    rewrite R3. destruct (ds_phase st).
    - now rewrite R1.
    - destruct Ph as (P1 & P2 & P3 & P4 & P5). rewrite (Keep P4 P3). auto.
    - destruct Ph as (P1 & P2). pose proof P2 as (T1 & T2 & _). rewrite (Keep T2 T1). auto.
    - destruct Ph as (P1 & P2). pose proof P2 as (T1 & T2 & _). rewrite (Keep T2 T1). auto.
    - destruct Ph as (P1 & P2). split; [|exact P2]. now apply (End st1 st). }
  destruct oe as [e|].
  { exists (Raised e), st1. cbn [released fst]. rewrite app_nil_r. split; [reflexivity|].
    split; [exact I1|]. split; [exact R3|]. left. eauto. }
  destruct (Nn eq_refl) as [Sm Z]. destruct (ds_loop c st1) as [o st2] eqn:El.
  exists o, st2. split; [reflexivity|]. cbn [fst].
  destruct (loop_ok _ _ _ _ _ C1 Z Sm El) as [(-> & -> & _)|(q & -> & Qq & C2 & Z2 & Sm2 & Qn2 & (S1 & S2 & S3))].
  - cbn [released]. rewrite app_nil_r. split; [exact I1|]. split; [exact R3|]. right. auto.
  - cbn [released]. rewrite app_nil_r. split.
    2:{ split; [congruence|]. right. split; [reflexivity|]. left; eauto. }
    assert (Gt : minq < blen (ds_queue st1)).
    { unfold ds_loop in El. destruct (ds_queue st1); [discriminate|].
      destruct (N.ltb_spec minq (blen (b :: l))); [assumption|discriminate]. }
    constructor. exists pts, ss, (out0 ++ q). do 5 (split; [assumption|]). split; [congruence|].
    rewrite S3, R3. destruct (ds_phase st).
    + destruct Ph as [P1 ->]. split; [congruence|reflexivity].
    + destruct Ph as (P1 & -> & P3 & P4 & P5). split; [|auto]. apply (End st2 st); [congruence|exact P1].
    + destruct Ph as (P1 & T1 & T2 & T3 & _). rewrite (Keep T2 T1) in Gt. lia.
    + destruct Ph as (P1 & T1 & T2 & T3 & _). rewrite (Keep T2 T1) in Gt. lia.
    + destruct Ph as (P1 & ->). split; [|auto]. apply (End st2 st); [congruence|exact P1].
Qed.

Lemma more_inv acc out st : inv acc out st ->
  exists o st', ds_more c st = (o, st') /\ inv acc (out ++ released [o]) st' /\
    ds_phase st' = ds_phase st /\ ((exists q, o = Plain q) \/ o = Stop).
Proof.
  intros I. unfold ds_more. destruct (ds_iterating st) eqn:J.
  2:{ exists Stop, st. cbn [released]. rewrite app_nil_r. auto. }
  pose proof I as [(pts & ss & out0 & _ & _ & _ & _ & CI & _ & _)].
  destruct (ci_iter _ _ _ CI J) as [Tz Sm].
  assert (E : ds_prologue c 0%Z ttl st = (None, st)).
  { unfold ds_prologue. rewrite Sm, Tz. destruct st as [qu tr sm se fi it ph]. cbn in *. subst.
    destruct qu; reflexivity. }
  destruct (next_inv 0%Z acc out st I) as (o & st' & En & I' & P' & Cs).
  unfold ds_next in En. rewrite E in En. exists o, st'. split; [exact En|]. split; [exact I'|].
  split; [exact P'|]. rewrite E in Cs. destruct Cs as [(e & C1 & _)|[_ C]]; [discriminate|exact C].
Qed.

(** Inside the finalization. *)
Lemma final_iter_ok acc pts ss out st :
  accepts H c true d0 acc pts ss -> full c pts -> live H c ss -> fixed ss = fixed d0 ->
  ds_first st = match acc with [] => true | _ => false end ->
  cinv pts out st -> ended ss st -> (ds_trim st = 0 \/ ds_queue st = []) -> ds_streaming st = true ->
  exists o st', ds_final_iter c st = (o, st') /\ inv acc (out ++ released [o]) st' /\
    ((ds_queue st = [] /\ o = Raised IndexErr /\ ds_phase st' = DFailed) \/
     (exists q, o = Plain q /\ ds_phase st' = DIter /\ ds_queue st = q :: ds_queue st') \/
     (exists q rest, o = Plain q /\ ds_phase st' = DTail rest) \/
     (o = Stop /\ ds_phase st' = DDone)).
Proof.
  intros Ac Fp L X F CI En Z Sm. unfold ds_final_iter.
  destruct (ds_loop c st) as [o st1] eqn:El.
  destruct (loop_ok _ _ _ _ _ CI Z Sm El) as [(-> & -> & Le)|(q & -> & Qq & C2 & Z2 & Sm2 & Qn2 & (S1 & S2 & S3))].
  2:{ exists (Plain q), (ds_set_phase st1 DIter). split; [reflexivity|]. cbn [released]. rewrite app_nil_r.
      split; [|right; left; eauto]. constructor. exists pts, ss, (out ++ q).
      do 4 (split; [assumption|]). split; [destruct C2; constructor; assumption|].
      split; [cbn; congruence|]. cbn [ds_phase ds_set_phase]. split; [|auto].
      destruct En as (s' & A1 & A2 & A3). exists s'. cbn. rewrite S1. auto. }
  pose proof bs_pos as Bp.
  destruct (split_last (ds_queue st)) as [[init lst]|] eqn:Sl.
  2:{ assert (Qn : ds_queue st = []).
      { destruct (ds_queue st) as [|y l] using rev_ind; [reflexivity|]. rewrite split_last_snoc in Sl. discriminate. }
      exists (Raised IndexErr), (ds_set_phase st DFailed). split; [reflexivity|]. cbn [released].
      rewrite app_nil_r. split; [|left; auto]. constructor. exists pts, ss, out.
      do 4 (split; [assumption|]). split; [destruct CI; constructor; assumption|].
      split; [exact F|]. cbn [ds_phase ds_set_phase]. auto. }
  assert (Qe : ds_queue st = init ++ [lst]).
  { destruct (ds_queue st) as [|y l] using rev_ind; [discriminate|]. rewrite split_last_snoc in Sl.
    injection Sl as -> ->. reflexivity. }
  assert (Tz : ds_trim st = 0) by (destruct Z as [|Q0]; [assumption|rewrite Q0 in Qe; destruct init; discriminate]).
  set (text := but_last_n (depadding_end_index c lst) (concat (ds_queue st))).
  assert (Ct : concat (batch text bs) = text) by now apply batch_concat.
  assert (Tail : forall t rest o p, t ++ concat rest = text -> released [o] = t ->
     (p = DTail rest \/ (p = DDone /\ rest = [])) ->
     inv acc (out ++ released [o]) (ds_set_phase st p)).
  { intros t rest o p Et Er Pp. constructor. exists pts, ss, out.
    do 4 (split; [assumption|]). split; [destruct CI; constructor; assumption|].
    split; [exact F|]. assert (Tl : tail_of out (out ++ released [o]) rest (ds_set_phase st p)).
    { split; [exact Tz|]. split; [exact Sm|]. split; [exact Le|]. exists init, lst, t.
      split; [exact Qe|]. split; [now rewrite Er|]. exact Et. }
    destruct Pp as [->|[-> ->]]; cbn [ds_phase ds_set_phase]; split; assumption. }
  unfold ds_yield_tail. destruct (batch text bs) as [|x rest].
  - exists Stop, (ds_set_phase st DDone). split; [reflexivity|]. split; [|right; right; right; auto].
    apply (Tail [] []); auto.
  - exists (Plain x), (ds_set_phase st (DTail rest)). split; [reflexivity|].
    split; [|right; right; left; exists x, rest; split; reflexivity].
    apply (Tail x rest); [exact Ct|apply app_nil_r|auto].
Qed.

Lemma final_inv now acc out st : inv acc out st ->
  exists o st', ds_finalize H c now ttl st = (o, st') /\ inv acc (out ++ released [o]) st' /\
    match ds_phase st with
    | DDone | DFailed => o = Stop /\ st' = st
    | DTail rest => (exists x rest', rest = x :: rest' /\ o = Plain x /\ ds_phase st' = DTail rest') \/
                    (rest = [] /\ o = Stop /\ ds_phase st' = DDone)
    | DIter => (ds_queue st = [] /\ o = Raised IndexErr /\ ds_phase st' = DFailed) \/
               (exists q, o = Plain q /\ ds_phase st' = DIter /\ ds_queue st = q :: ds_queue st') \/
               (exists q rest, o = Plain q /\ ds_phase st' = DTail rest) \/
               (o = Stop /\ ds_phase st' = DDone)
    | DOpen => (exists e, fst (ds_prologue c now ttl st) = Some e /\ o = Raised e /\ ds_phase st' = DFailed) \/
               (fst (ds_prologue c now ttl st) = None /\
                ((ds_queue (snd (ds_prologue c now ttl st)) = [] /\ o = Raised IndexErr /\ ds_phase st' = DFailed) \/
                 (exists q, o = Plain q /\ (ds_phase st' = DIter \/ exists rest, ds_phase st' = DTail rest)) \/
                 (o = Stop /\ ds_phase st' = DDone)))
    end.
Proof.
  intros I. pose proof I as [(pts & ss & out0 & Ac & Fp & L & X & CI & F & Ph)]. unfold ds_finalize.
  destruct (ds_phase st) as [| |rest| |] eqn:P.
  - destruct Ph as [Es ->]. rewrite Es. destruct ss as [b s]. unfold finalize.
    pose proof (lv_open _ _ _ L) as Lo. cbn [snd] in Lo. rewrite Lo.
    match goal with |- context [ds_prologue c now ttl ?s0] =>
      match s0 with st => fail 1 | _ => set (st0 := s0) end end.
    assert (En : ended (b, s) st0).
    { eexists. unfold finalize. cbn [fst snd]. rewrite Lo, (tag_of_result H c XL VC).
      split; [reflexivity|]. split; [|reflexivity]. cbn. now rewrite (tag_of_result H c XL VC). }
    assert (C0 : cinv pts out0 st0) by (destruct CI; constructor; assumption).
    assert (Pro : fst (ds_prologue c now ttl st0) = fst (ds_prologue c now ttl st) /\
                  ds_queue (snd (ds_prologue c now ttl st0)) = ds_queue (snd (ds_prologue c now ttl st))).
    { unfold ds_prologue. cbn [st0 ds_streaming ds_trim ds_queue].
      destruct (ds_streaming st); [destruct (trim_queue _ _); split; reflexivity|].
      destruct (ds_queue st) as [|q0 qu]; [split; reflexivity|].
      destruct (test_timestamp _ _ _ _ _) as [u|e]; [destruct (trim_queue _ _); split; reflexivity|].
      destruct e; split; reflexivity. }
    destruct Pro as [Pr1 Pr2]. rewrite <- Pr1, <- Pr2.
    destruct (ds_prologue c now ttl st0) as [oe st1] eqn:E. cbn [fst snd].
    destruct (prologue_ok _ _ _ _ _ _ _ C0 E) as (C1 & (R1 & R2 & R3) & Nn & _).
    assert (En1 : ended (b, s) st1) by (destruct En as (s' & A1 & A2 & A3); exists s'; rewrite R1; auto).
    destruct oe as [e|].
    + eexists _, _. split; [reflexivity|]. cbn [released]. rewrite app_nil_r. split.
      2:{ left. exists e. auto. }
      constructor. exists pts, (b, s), out0. do 4 (split; [assumption|]).
      split; [destruct C1; constructor; assumption|]. split; [cbn; rewrite R2; exact F|].
      cbn [ds_phase ds_set_phase]. split; [|reflexivity]. exact En1.
    + destruct (Nn eq_refl) as [Sm Z].
      destruct (final_iter_ok acc pts (b, s) out0 st1 Ac Fp L X) as (o & st' & E' & I' & Cs); auto.
      { rewrite R2. exact F. }
      exists o, st'. split; [exact E'|]. split; [exact I'|]. right. split; [reflexivity|].
      destruct Cs as [?|[(q & -> & P' & _)|[(q & rest & -> & P')|?]]]; eauto 10.
  - destruct Ph as (En & -> & Tz & Sm & _).
    destruct (final_iter_ok acc pts ss out0 st) as (o & st' & E' & I' & Cs); auto.
    exists o, st'. auto.
  - destruct Ph as (En & Tz & Sm & Le & init & lst & t & Qe & -> & Et). unfold ds_yield_tail.
    assert (Cp : forall p, cinv pts out0 (ds_set_phase st p)) by (intros; destruct CI; constructor; assumption).
    destruct rest as [|x rest].
    + eexists _, _. split; [reflexivity|]. cbn [released]. rewrite app_nil_r. split; [|right; auto].
      constructor. exists pts, ss, out0. do 4 (split; [assumption|]). split; [apply Cp|].
      split; [exact F|]. cbn [ds_phase ds_set_phase]. split; [exact En|].
      split; [exact Tz|]. split; [exact Sm|]. split; [exact Le|]. exists init, lst, t. auto.
    + eexists _, _. split; [reflexivity|]. cbn [released]. rewrite app_nil_r. split; [|left; eauto].
      constructor. exists pts, ss, out0. do 4 (split; [assumption|]). split; [apply Cp|].
      split; [exact F|]. cbn [ds_phase ds_set_phase]. split; [exact En|].
      split; [exact Tz|]. split; [exact Sm|]. split; [exact Le|]. exists init, lst, (t ++ x).
      split; [exact Qe|]. split; [now rewrite app_assoc|]. rewrite <- app_assoc. exact Et.
  - exists Stop, st. cbn [released]. rewrite app_nil_r. auto.
  - exists Stop, st. cbn [released]. rewrite app_nil_r. auto.
Qed.

Lemma dstep_inv o acc out st : inv acc out st ->
  exists o' st', ds_step H c ttl o st = (o', st') /\
    inv (acc ++ taken c o o') (out ++ released [o']) st'.
Proof.
  intros I. destruct o as [d|now| |now|now]; cbn [ds_step].
  - destruct (feed_inv d acc out st I) as (o' & st' & E & I' & _ & R). exists o', st'.
    rewrite R, app_nil_r. auto.
  - destruct (next_inv now acc out st I) as (o' & st' & E & I' & _). exists o', st'.
    cbn [taken]. rewrite app_nil_r. auto.
  - destruct (more_inv acc out st I) as (o' & st' & E & I' & _). exists o', st'.
    cbn [taken]. rewrite app_nil_r. auto.
  - destruct (final_inv now acc out st I) as (o' & st' & E & I' & _). exists o', st'.
    cbn [taken]. rewrite app_nil_r. auto.
  - cbn [taken]. rewrite app_nil_r. destruct (ds_phase st) eqn:P.
    1:{ destruct (final_inv now acc out st I) as (o' & st' & E & I' & _). exists o', st'. auto. }
    all: eexists _, _; split; [reflexivity|]; cbn [released]; now rewrite app_nil_r.
Qed.

Lemma released_cons o outs : released (o :: outs) = released [o] ++ released outs.
Proof. destruct o; cbn [released]; rewrite ?app_nil_r; reflexivity. Qed.

Lemma drun_inv : forall ops acc out st outs st', inv acc out st ->
  ds_run H c ttl ops st = (outs, st') ->
  inv (acc ++ accepted c ops outs) (out ++ released outs) st'.
Proof.
  induction ops as [|o ops IH]; intros acc out st outs st' I R.
  - cbn in R. injection R as <- <-. cbn. now rewrite !app_nil_r.
  - cbn [ds_run] in R. destruct (dstep_inv o acc out st I) as (o' & st1 & E & I1).
    rewrite E in R. destruct (ds_run H c ttl ops st1) as [outs1 st2] eqn:R1.
    injection R as <- <-. cbn [accepted]. rewrite released_cons, !app_assoc. eapply IH; eauto.
Qed.

End Run.
End Streams.
