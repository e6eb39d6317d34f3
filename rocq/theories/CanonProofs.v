(** * Lemmas about the canonical encoding. *)
From Verif Require Import Base BaseFacts CanonModel CanonSpec.
From Coq Require Import ZifyBool ZifyNat ZifyN.
Local Open Scope N_scope.

Lemma bval_x00 : bval x00 = 0. Proof. reflexivity. Qed.

Lemma be_int_single b : be_int [b] = bval b.
Proof. reflexivity. Qed.

Lemma to_bytes_be_1 n s : to_bytes_be 1 n = Ok s <-> exists b, s = [b] /\ bval b = n.
Proof.
  rewrite to_bytes_be_ok. rewrite N.pow_1_r. split.
  - intros [H ->]. change (be_enc (N.to_nat 1) n) with [byte_of n].
    exists (byte_of n). split; [reflexivity|].
    rewrite bval_byte_of. now apply N.mod_small.
  - intros (b & -> & <-). split; [apply bval_lt|].
    change (be_enc (N.to_nat 1) (bval b)) with [byte_of (bval b)].
    now rewrite byte_of_bval.
Qed.

(** ** Encoding *)
Lemma mapM_encode_framed w items cs :
  mapM (encode_item w) items = Ok cs -> framed w items (concat cs).
Proof.
  revert cs. induction items as [|i items IH]; intros cs H; cbn in H.
  - injection H as <-. constructor.
  - apply bind_ok in H as (c & Hc & H). apply bind_ok in H as (cs' & Hcs & H).
    injection H as <-. unfold encode_item in Hc.
    apply bind_ok in Hc as (l & Hl & Hc). injection Hc as <-.
    cbn [concat]. rewrite <- app_assoc. constructor.
    + now apply to_bytes_be_len in Hl.
    + now apply to_bytes_be_int in Hl.
    + now apply IH.
Qed.

Lemma mapM_encode_total w items :
  Forall (fun i => blen i < 256 ^ w) items -> exists cs, mapM (encode_item w) items = Ok cs.
Proof.
  induction 1 as [|i items Hi _ [cs IH]]; cbn [mapM]; [eauto|].
  unfold encode_item at 1. rewrite to_bytes_be_fit by exact Hi. cbn [bind].
  rewrite IH. cbn [bind]. eauto.
Qed.

Lemma mapM_encode_bound w items cs :
  mapM (encode_item w) items = Ok cs -> Forall (fun i => blen i < 256 ^ w) items.
Proof.
  revert cs. induction items as [|i items IH]; intros cs H; cbn in H; constructor.
  - apply bind_ok in H as (c & Hc & _). unfold encode_item in Hc.
    apply bind_ok in Hc as (l & Hl & _). now apply to_bytes_be_ok in Hl.
  - apply bind_ok in H as (c & _ & H). apply bind_ok in H as (cs' & Hcs & _). eauto.
Qed.

Lemma fullblock_ljust_ok data bs pad x :
  fullblock_ljust data bs pad = Ok x <->
  exists p k, pad = [p] /\ bs <> 0 /\ x = data ++ repeat p k /\
              N.of_nat k < bs /\ blen x mod bs = 0.
Proof.
  unfold fullblock_ljust. destruct (N.eqb_spec bs 0) as [->|Hbs].
  - split; [discriminate|]. intros (p & k & _ & H & _). congruence.
  - unfold ljust. pose proof (ceil_div_mul_ge (blen data) bs Hbs) as G1.
    pose proof (ceil_div_mul_lt (blen data) bs Hbs) as G2.
    set (W := bs * ceil_div (blen data) bs) in *.
    assert (HW : W mod bs = 0).
    { unfold W. rewrite N.mul_comm. now apply N.mod_mul. }
    destruct pad as [|p [|q pad]].
    + split; [discriminate|]. intros (p & k & [=] & _).
    + split.
      * intros [= <-]. exists p, (N.to_nat (W - blen data)).
        repeat split; try easy.
        -- lia.
        -- rewrite blen_app, blen_repeat.
           replace (blen data + N.of_nat (N.to_nat (W - blen data))) with W by lia. exact HW.
      * intros (p' & k & [= <-] & _ & -> & Hk & Hm). f_equal. f_equal. f_equal.
        rewrite blen_app, blen_repeat in Hm.
        set (d := blen data) in *. clearbody W d.
        apply N.mod_divides in Hm as [c Hc]; [|exact Hbs].
        apply N.mod_divides in HW as [c' Hc']; [|exact Hbs].
        assert (c = c') by nia. subst c'. lia.
    + split; [discriminate|]. intros (p' & k & [=] & _).
Qed.

Lemma canonical_pack_layout items bs pad w x :
  canonical_pack items bs pad w = Ok x ->
  exists p k blob, pad = [p] /\ fits w bs items /\
    layout w blob p items k x /\ blen blob = w /\ be_int blob = bs /\
    N.of_nat k < bs /\ blen x mod bs = 0.
Proof.
  unfold canonical_pack. intros H.
  apply bind_ok in H as (blob & Hblob & H).
  apply bind_ok in H as (chunks & Hch & H).
  unfold encode_items in Hch.
  apply bind_ok in Hch as (c0 & Hc0 & Hch).
  apply bind_ok in Hch as (c1 & Hc1 & Hch).
  apply bind_ok in Hch as (cs & Hcs & Hch). injection Hch as <-.
  apply fullblock_ljust_ok in H as (p & k & -> & Hbs & -> & Hk & Hm).
  exists p, k, blob.
  pose proof (mapM_encode_bound _ _ _ Hcs) as HB.
  apply Forall_inv_tail, Forall_inv_tail in HB.
  apply to_bytes_be_1 in Hc0 as (s & -> & Hs).
  assert (Hw1 : w <> 0).
  { intros ->. apply to_bytes_be_ok in Hc1 as [Hc1 _].
    rewrite !blen_cons in Hc1. rewrite N.pow_0_r in Hc1. lia. }
  pose proof (bval_lt s).
  split; [reflexivity|]. split.
  - unfold fits. split; [lia|]. split.
    + apply to_bytes_be_ok in Hblob as [? _]. lia.
    + split; [|exact HB]. apply to_bytes_be_ok in Hc1 as [? _].
      rewrite !blen_cons in *. lia.
  - split; [|split; [now apply to_bytes_be_len in Hblob|
             split; [now apply to_bytes_be_int in Hblob|auto]]].
    exists s, c1, (concat cs). split; [exact Hs|].
    split; [now apply to_bytes_be_len in Hc1|].
    split; [apply to_bytes_be_int in Hc1; rewrite !blen_cons in Hc1; lia|].
    split; [now apply mapM_encode_framed|].
    cbn [concat]. cbn [app]. now rewrite <- app_assoc.
Qed.

Lemma canonical_pack_total items bs p w :
  fits w bs items -> exists x, canonical_pack items bs [p] w = Ok x.
Proof.
  intros ([Hw1 Hw2] & [Hb1 Hb2] & Hn & HF). unfold canonical_pack.
  rewrite to_bytes_be_fit by exact Hb2. cbn [bind].
  unfold encode_items. rewrite to_bytes_be_fit by (rewrite N.pow_1_r; lia). cbn [bind].
  rewrite to_bytes_be_fit by (rewrite !blen_cons; lia). cbn [bind].
  assert (HF' : Forall (fun i => blen i < 256 ^ w) (be_enc (N.to_nat w) bs :: [p] :: items)).
  { constructor; [|constructor; [|exact HF]].
    - rewrite blen_be_enc, N2Nat.id. now apply N.pow_gt_lin_r.
    - rewrite blen_cons, blen_nil. lia. }
  destruct (mapM_encode_total w _ HF') as [cs Hcs].
  - change (@cons (list byte)) with (@cons bytes) in *. rewrite Hcs. cbn [bind]. unfold fullblock_ljust. destruct (N.eqb_spec bs 0); [lia|].
    cbn. eauto.
Qed.

(** ** The framing is uniquely readable *)
Lemma framed_inj w i1 i2 b1 b2 t1 t2 :
  length i1 = length i2 ->
  framed w i1 b1 -> framed w i2 b2 -> b1 ++ t1 = b2 ++ t2 ->
  i1 = i2 /\ b1 = b2 /\ t1 = t2.
Proof.
  intros L H1. revert i2 b2 L. induction H1 as [|len item items rest Hw Hl H1 IH];
    intros i2 b2 L H2 E; inversion H2; subst; cbn in L; try discriminate.
  - auto.
  - rewrite <- !app_assoc in E.
    apply app_inj_len in E as [-> E]; [|unfold blen in *; lia].
    apply app_inj_len in E as [-> E]; [|unfold blen in *; lia].
    edestruct IH as (-> & -> & ->); [|eassumption|exact E|]; [lia|]. auto.
Qed.

Lemma repeat_inj {A} (x y : A) k : repeat x k = repeat y k -> k <> O -> x = y.
Proof. destruct k; [congruence|]. cbn. congruence. Qed.

Lemma layout_inj w1 b1 p1 i1 k1 w2 b2 p2 i2 k2 x :
  layout w1 b1 p1 i1 k1 x -> layout w2 b2 p2 i2 k2 x ->
  w1 = w2 /\ b1 = b2 /\ p1 = p2 /\ i1 = i2 /\ k1 = k2.
Proof.
  intros (s1 & c1 & y1 & Hs1 & Hc1 & Hn1 & F1 & ->) (s2 & c2 & y2 & Hs2 & Hc2 & Hn2 & F2 & E).
  injection E as -> E. subst w2.
  assert (w1 = bval s2) as -> by congruence.
  apply app_inj_len in E as [-> E]; [|unfold blen in *; lia].
  assert (HL : length i1 = length i2) by (unfold blen in *; lia).
  edestruct (framed_inj (bval s2)) as (Ei & _ & Er); [|exact F1|exact F2|exact E|].
  - cbn. congruence.
  - injection Ei as -> -> ->. repeat split; auto.
    apply (f_equal (@length byte)) in Er. now rewrite !repeat_length in Er.
Qed.

(** ** Decoding *)
Lemma bio_read_ok n rem a b :
  bio_read n rem = Ok (a, b) <-> n < ssize_limit /\ a = take n rem /\ b = drop n rem.
Proof.
  unfold bio_read. destruct (N.ltb_spec n ssize_limit); split.
  - intros [= <- <-]. auto.
  - intros (_ & -> & ->). reflexivity.
  - discriminate.
  - lia.
Qed.

Lemma decode_items_framed w items body tail :
  w < ssize_limit -> blen body < ssize_limit ->
  framed w items body ->
  decode_items (length items) w (body ++ tail) = Ok (items, tail).
Proof.
  intros Hw HB F. induction F as [|len item items rest Hl Hn F IH]; [reflexivity|].
  cbn [length decode_items].
  rewrite !blen_app in HB.
  rewrite <- !app_assoc.
  unfold bio_read at 1. destruct (N.ltb_spec w ssize_limit); [|lia]. cbn [bind].
  rewrite take_app by exact Hl. rewrite drop_app by exact Hl.
  rewrite Hn. unfold bio_read at 1. destruct (N.ltb_spec (blen item) ssize_limit); [|lia].
  cbn [bind]. rewrite take_app by reflexivity. rewrite drop_app by reflexivity.
  rewrite N.eqb_refl. cbn [negb]. rewrite IH by lia. reflexivity.
Qed.

Lemma be_int_0_repeat l : be_int l = 0 -> l = repeat x00 (length l).
Proof.
  intros H. apply be_int_inj; [now rewrite repeat_length|]. rewrite H.
  induction (length l) as [|n IH]; [reflexivity|].
  cbn [repeat]. rewrite be_int_cons, <- IH, bval_x00. lia.
Qed.
Lemma be_int_repeat_0 n : be_int (repeat x00 n) = 0.
Proof.
  induction n as [|n IH]; [reflexivity|].
  cbn [repeat]. rewrite be_int_cons, IH, bval_x00. lia.
Qed.

Lemma framed_nil_inv w items : framed w items [] -> w <> 0 -> items = [].
Proof.
  intros H Hw. inversion H as [|len item items' rest Hl]; [reflexivity|].
  destruct len; [|discriminate]. rewrite blen_nil in Hl. congruence.
Qed.

Lemma decode_items_inv n w rem items tail :
  decode_items n w rem = Ok (items, tail) ->
  length items = n /\
  exists body j, framed w items body /\
    ((j = O /\ rem = body ++ tail) \/
     (j <> O /\ tail = [] /\ rem ++ repeat x00 j = body /\
      exists init, items = init ++ [[]])).
Proof.
  revert rem items tail. induction n as [|n IH]; intros rem items tail H; cbn in H.
  - injection H as <- <-. split; [reflexivity|]. exists [], O. split; [constructor|auto].
  - apply bind_ok in H as ([size rem1] & H1 & H).
    apply bind_ok in H as ([item rem2] & H2 & H).
    apply bio_read_ok in H1 as (Hw & -> & ->).
    apply bio_read_ok in H2 as (Hn & -> & ->).
    destruct (N.eqb_spec (blen (take (be_int (take w rem)) (drop w rem))) (be_int (take w rem)))
      as [E|]; [cbn in H|discriminate].
    apply bind_ok in H as ([its t] & HI & H). injection H as <- <-.
    apply IH in HI as (HL & body & j & F & HC).
    split; [cbn; congruence|].
    destruct (N.le_gt_cases w (blen rem)) as [Hfull|Hshort].
    + exists (take w rem ++ take (be_int (take w rem)) (drop w rem) ++ body), j.
      split.
      { constructor; [rewrite blen_take; lia|congruence|exact F]. }
      assert (Erem : rem = take w rem ++ take (be_int (take w rem)) (drop w rem)
                           ++ drop (be_int (take w rem)) (drop w rem)).
      { rewrite (take_drop (be_int (take w rem)) (drop w rem)). symmetry. apply take_drop. }
      destruct HC as [(-> & Er)|(Hj & -> & Er & init & Hinit)].
      * left. split; [reflexivity|]. rewrite Er in Erem.
        rewrite Erem at 1. now rewrite <- !app_assoc.
      * right. split; [exact Hj|]. split; [reflexivity|]. split.
        { rewrite Erem at 1. rewrite <- !app_assoc. f_equal. f_equal. exact Er. }
        { eexists (_ :: init). rewrite Hinit. reflexivity. }
    + rewrite (take_all w) in * by lia. rewrite (drop_all w) in * by lia.
      assert (Hnil : forall m : N, take m (@nil byte) = []).
      { intros m. rewrite take_firstn. apply firstn_nil. }
      assert (Hnil' : forall m : N, drop m (@nil byte) = []).
      { intros m. rewrite drop_skipn. apply skipn_nil. }
      rewrite Hnil in *. rewrite Hnil' in *. rewrite blen_nil in E. symmetry in E.
      pose proof (be_int_0_repeat rem E) as Erem.
      set (m := (N.to_nat w - length rem)%nat).
      assert (Hm : m <> O) by (unfold m, blen in *; lia).
      assert (Hhdr : blen (rem ++ repeat x00 m) = w).
      { rewrite blen_app, blen_repeat. unfold m, blen in *. lia. }
      assert (Hz : be_int (rem ++ repeat x00 m) = 0).
      { rewrite Erem, <- repeat_app. apply be_int_repeat_0. }
      exists ((rem ++ repeat x00 m) ++ [] ++ body), (m + j)%nat.
      split; [constructor; [exact Hhdr|rewrite Hz; reflexivity|exact F]|].
      right. split; [lia|].
      destruct HC as [(-> & Er)|(Hj & -> & Er & init & Hinit)].
      * symmetry in Er. apply app_eq_nil in Er as [-> ->].
        split; [reflexivity|].
        split; [cbn; now rewrite Nat.add_0_r, app_nil_r|].
        apply framed_nil_inv in F; [|lia]. subst its. exists []. reflexivity.
      * split; [reflexivity|]. cbn [app] in *. split.
        { rewrite repeat_app, app_assoc. now rewrite Er. }
        { exists ([] :: init). now rewrite Hinit. }
Qed.

Lemma forallb_byte_eqb_repeat p l : forallb (byte_eqb p) l = true <-> l = repeat p (length l).
Proof.
  induction l as [|b l IH]; cbn; [easy|]. split.
  - intros H. apply andb_prop in H as [H1 H2]. apply byte_eqb_eq in H1 as <-.
    f_equal. now apply IH.
  - intros [= E1 E2]. apply andb_true_intro. split; [now apply byte_eqb_eq|now apply IH].
Qed.

Lemma forallb_repeat p k : forallb (byte_eqb p) (repeat p k) = true.
Proof. apply forallb_byte_eqb_repeat. now rewrite repeat_length. Qed.

Lemma ssize_255 : 255 < ssize_limit. Proof. reflexivity. Qed.

Lemma canonical_unpack_complete w blob p items k x :
  python_sized x ->
  layout w blob p items k x -> be_int blob <> 0 -> blen x mod be_int blob = 0 ->
  canonical_unpack x = Ok items.
Proof.
  intros Hsz (s & count & body & Hs & Hc & Hn & F & ->) Hb Hm.
  unfold python_sized in Hsz. fold ssize_limit in Hsz.
  pose proof (bval_lt s) as Hlt. pose proof ssize_255 as H255.
  unfold canonical_unpack. set (total := blen (s :: count ++ body ++ repeat p k)) in *.
  unfold bio_read at 1. destruct (N.ltb_spec 1 ssize_limit) as [_|]; [|lia]. cbn [bind].
  replace (take 1 (s :: count ++ body ++ repeat p k)) with [s]
    by (symmetry; apply (take_app 1 [s]); reflexivity).
  replace (drop 1 (s :: count ++ body ++ repeat p k)) with (count ++ body ++ repeat p k)
    by (symmetry; apply (drop_app 1 [s]); reflexivity).
  rewrite be_int_single, Hs.
  unfold bio_read at 1. destruct (N.ltb_spec w ssize_limit) as [_|]; [|lia]. cbn [bind].
  rewrite take_app by exact Hc. rewrite drop_app by exact Hc. rewrite Hn.
  assert (HT : total = 1 + w + blen body + N.of_nat k).
  { unfold total. rewrite blen_cons, !blen_app, blen_repeat. lia. }
  assert (Hbody : (blen items + 2) * w + 2 <= blen body).
  { inversion F as [|l1 i1 is1 r1 Hl1 Hn1 F1 E1 E2]; subst.
    inversion F1 as [|l2 i2 is2 r2 Hl2 Hn2 F2 E3 E4]; subst.
    assert (HF : forall is0 r0, framed (bval s) is0 r0 -> blen is0 * bval s <= blen r0).
    { induction 1 as [|l i is0 r Hl Hl' FF IH]; [unfold blen; cbn [length]; lia|].
      rewrite blen_cons, !blen_app. lia. }
    apply HF in F2. rewrite !blen_app, blen_cons, (@blen_nil byte).
    assert (blen blob <> 0).
    { intros Hz. apply blen_0 in Hz. subst blob. apply Hb. reflexivity. }
    lia. }
  destruct (N.ltb_spec total (w * (blen items + 2 + 1) + 3)) as [Hbad|_]; [lia|].
  replace (N.to_nat (blen items + 2)) with (length (blob :: [p] :: items))
    by (cbn [length]; unfold blen; lia).
  rewrite decode_items_framed; [|lia|lia|exact F]. cbn [bind].
  unfold test_canonical_padding.
  destruct (N.eqb_spec (be_int blob) 0); [congruence|].
  rewrite Hm. cbn [N.eqb negb]. rewrite forallb_repeat. reflexivity.
Qed.

Lemma canonical_unpack_sound x items :
  canonical_unpack x = Ok items ->
  exists w blob p k j,
    layout w blob p items k (x ++ repeat x00 j) /\ be_int blob <> 0 /\
    blen x mod be_int blob = 0 /\
    (j = O \/ (k = O /\ exists init, items = init ++ [[]])).
Proof.
  unfold canonical_unpack. intros H.
  apply bind_ok in H as ([s rem0] & H1 & H).
  apply bind_ok in H as ([c rem1] & H2 & H).
  apply bio_read_ok in H1 as (_ & -> & ->).
  apply bio_read_ok in H2 as (Hw & -> & ->).
  destruct x as [|s x].
  { discriminate. }
  replace (take 1 (s :: x)) with [s] in *
    by (symmetry; apply (take_app 1 [s] x); reflexivity).
  replace (drop 1 (s :: x)) with x in *
    by (symmetry; apply (drop_app 1 [s] x); reflexivity).
  rewrite be_int_single in *.
  set (count := take (bval s) x) in *.
  destruct (N.ltb_spec (blen (s :: x)) (bval s * (be_int count + 1) + 3)) as [|Hsize]; [discriminate|].
  rewrite blen_cons in Hsize.
  assert (Hcount : blen count = bval s).
  { unfold count. rewrite blen_take. nia. }
  apply bind_ok in H as ([its tail] & HD & HT).
  apply decode_items_inv in HD as (HL & body & j & F & HC).
  unfold test_canonical_padding in HT.
  destruct its as [|blob [|pad its]]; try discriminate.
  destruct (N.eqb_spec (be_int blob) 0) as [|Hb]; [discriminate|].
  destruct (N.eqb_spec (blen (s :: x) mod be_int blob) 0) as [Hm|]; [|discriminate].
  cbn [negb] in HT. destruct pad as [|p [|]]; try discriminate.
  destruct (forallb (byte_eqb p) tail) eqn:Ep; [|discriminate].
  injection HT as <-.
  apply forallb_byte_eqb_repeat in Ep.
  exists (bval s), blob, p, (length tail), j.
  assert (Hcnt : be_int count = blen its + 2).
  { cbn [length] in HL. unfold blen. lia. }
  assert (Hx : x = count ++ drop (bval s) x) by (symmetry; apply take_drop).
  split; [|split; [exact Hb|split; [exact Hm|]]].
  - exists s, count, body. split; [reflexivity|]. split; [exact Hcount|]. split; [exact Hcnt|].
    split; [exact F|].
    destruct HC as [(-> & Er)|(Hj & -> & Er & _)].
    + cbn [repeat app]. rewrite app_nil_r. f_equal. rewrite Hx at 1. rewrite Er.
      now rewrite <- Ep.
    + cbn [length repeat app]. rewrite app_nil_r. f_equal. rewrite Hx at 1.
      rewrite <- app_assoc. now rewrite Er.
  - destruct HC as [(-> & _)|(Hj & -> & _ & init & Hi)]; [auto|].
    right. split; [reflexivity|].
    destruct (exists_last (l := its)) as (init' & y & ->).
    { intros ->. change [blob; [p]] with ([blob] ++ [[p]]) in Hi.
      apply app_inj_tail in Hi as [_ [=]]. }
    rewrite !app_comm_cons in Hi. apply app_inj_tail in Hi as [_ ->].
    exists init'. reflexivity.
Qed.

(** A truncated encoding is accepted: count says 4 fields, the length of the
    last (empty) field is missing. *)
Definition truncated_witness : bytes :=
  [x01; x04; x01; x01; x01; x00; x05; x61; x61; x61; x61; x61].
Lemma truncated_accepted :
  canonical_unpack truncated_witness = Ok [[x61; x61; x61; x61; x61]; []].
Proof. vm_compute. reflexivity. Qed.

Lemma truncated_no_layout w blob p items k : ~ layout w blob p items k truncated_witness.
Proof.
  intros L.
  assert (Hpad : layout 1 [x01] x00 [[x61; x61; x61; x61; x61]; []] 0
                   (truncated_witness ++ [x00])).
  { exists x01, [x04],
      (([x01] ++ [x01] ++ ([x01] ++ [x00] ++ ([x05] ++ [x61; x61; x61; x61; x61] ++ ([x00] ++ [] ++ []))))).
    do 3 (split; [reflexivity|]). split; [|reflexivity].
    repeat (constructor; try reflexivity). }
  assert (L' : layout w blob p items k truncated_witness) by exact L.
  destruct L as (s & c & body & Hs & Hc & Hn & F & E).
  unfold truncated_witness in E. injection E as <- E. cbn in Hs. subst w.
  destruct c as [|c0 [|]]; try (unfold blen in Hc; cbn [length] in Hc; lia).
  cbn [app] in E. injection E as <- E. cbn in Hn.
  assert (HI : length items = 2%nat) by (unfold blen in Hn; lia).
  destruct items as [|i1 [|i2 [|]]]; try discriminate.
  inversion F as [|l1 a1 t1 r1 W1 N1 F1]; subst. 
  inversion F1 as [|l2 a2 t2 r2 W2 N2 F2]; subst.
  inversion F2 as [|l3 a3 t3 r3 W3 N3 F3]; subst.
  inversion F3 as [|l4 a4 t4 r4 W4 N4 F4]; subst.
  inversion F4; subst.
  destruct l1 as [|q1 [|]]; try (unfold blen in W1; cbn [length] in W1; lia).
  destruct l2 as [|q2 [|]]; try (unfold blen in W2; cbn [length] in W2; lia).
  destruct l3 as [|q3 [|]]; try (unfold blen in W3; cbn [length] in W3; lia).
  destruct l4 as [|q4 [|]]; try (unfold blen in W4; cbn [length] in W4; lia).
  cbn [app] in E. injection E as <- E.
  rewrite be_int_single in *.
  destruct blob as [|b0 [|]]; try (unfold blen in N1; cbn in N1; lia).
  cbn [app] in E. injection E as <- <- <- <- E.
  destruct i1 as [|e1 [|e2 [|e3 [|e4 [|e5 [|]]]]]]; 
    try (unfold blen in N3; cbn in N3; lia); cbn in E; discriminate.
Qed.

(** ** Errors of unpacking *)
Lemma decode_items_err n w rem e :
  w <= 255 ->
  decode_items n w rem = Err e ->
  e = CanonicalEncodingError ItemLengthMismatch \/ e = OverflowErr.
Proof.
  intros Hw. revert rem. induction n as [|n IH]; intros rem H; cbn in H; [discriminate|].
  pose proof ssize_255.
  unfold bio_read at 1 in H. destruct (N.ltb_spec w ssize_limit); [cbn in H|lia].
  unfold bio_read in H. destruct (N.ltb_spec (be_int (take w rem)) ssize_limit); cbn in H.
  - destruct (N.eqb _ _); cbn in H; [|injection H as <-; auto].
    apply bind_err in H as [H|([? ?] & _ & H)]; [eauto|discriminate].
  - injection H as <-. auto.
Qed.

Lemma be_int_take1 x : be_int (take 1 x) <= 255.
Proof.
  pose proof (be_int_bound (take 1 x)) as H. rewrite blen_take in H.
  assert (256 ^ N.min 1 (blen x) <= 256 ^ 1) by (apply N.pow_le_mono_r; lia).
  rewrite N.pow_1_r in *. lia.
Qed.

Lemma canonical_unpack_err x e :
  canonical_unpack x = Err e ->
  canonical_error e \/ e = ZeroDivisionErr \/ e = OverflowErr.
Proof.
  unfold canonical_unpack, canonical_error. intros H.
  pose proof ssize_255. pose proof (be_int_take1 x) as Hw.
  unfold bio_read at 1 in H. destruct (N.ltb_spec 1 ssize_limit); [cbn [bind] in H|lia].
  unfold bio_read at 1 in H.
  destruct (N.ltb_spec (be_int (take 1 x)) ssize_limit); [cbn [bind] in H|lia].
  match type of H with (if ?c then _ else _) = _ => destruct c end;
    [injection H as <-; eauto|].
  apply bind_err in H as [H|([its rem] & _ & H)].
  - apply decode_items_err in H as [->| ->]; eauto.
  - unfold test_canonical_padding in H.
    destruct its as [|b [|p its]]; try (injection H as <-; eauto; fail).
    destruct (N.eqb (be_int b) 0); [injection H as <-; eauto|].
    destruct (negb _); [injection H as <-; eauto|].
    destruct p as [|p0 [|]]; try (injection H as <-; eauto; fail).
    destruct (forallb _ _); [discriminate|injection H as <-; eauto].
Qed.

(** ** encode_key *)
Lemma encode_key_ok key bs pad x :
  encode_key key bs pad = Ok x <->
  exists p k, pad = [p] /\ key <> [] /\ bs <> 0 /\ bs < 2 ^ 64 /\ blen key < 2 ^ 64 /\
    x = key ++ le_enc 8 (blen key) ++ le_enc 8 bs ++ repeat p (S k) /\
    N.of_nat k < bs /\ blen x mod bs = 0.
Proof.
  assert (E64 : 256 ^ 8 = 2 ^ 64) by reflexivity.
  split.
  - unfold encode_key. intros H. destruct key as [|b key]; [discriminate|].
    set (K := b :: key) in *.
    apply bind_ok in H as (kl & Hkl & H). apply bind_ok in H as (bz & Hbz & H).
    apply to_bytes_le_ok in Hkl as [? ->]. apply to_bytes_le_ok in Hbz as [? ->].
    apply fullblock_ljust_ok in H as (p & k & -> & Hbs & -> & Hk & Hm).
    exists p, k. rewrite E64 in *.
    split; [reflexivity|]. split; [discriminate|].
    split; [exact Hbs|]. split; [assumption|]. split; [assumption|].
    split; [|auto]. cbn [repeat]. rewrite <- !app_assoc. reflexivity.
  - intros (p & k & -> & Hkey & Hbs & Hb & Hl & -> & Hk & Hm).
    unfold encode_key. destruct key as [|b key]; [congruence|].
    set (K := b :: key) in *.
    rewrite !to_bytes_le_fit by (rewrite E64; assumption). cbn [bind].
    apply fullblock_ljust_ok. exists p, k. split; [reflexivity|]. split; [exact Hbs|].
    split; [|auto]. cbn [repeat]. rewrite <- !app_assoc. reflexivity.
Qed.

(** Position of the last byte which differs from [p]. *)
Lemma pad_strip (p : byte) (a b : bytes) x y k j :
  x <> p -> y <> p ->
  a ++ [x] ++ repeat p k = b ++ [y] ++ repeat p j -> a = b /\ x = y /\ k = j.
Proof.
  intros Hx Hy E. apply (f_equal (@rev byte)) in E.
  rewrite !rev_app_distr in E. cbn [rev app] in E.
  assert (R : forall n, rev (repeat p n) = repeat p n).
  { induction n as [|n IH]; [reflexivity|]. cbn [repeat rev]. rewrite IH.
    symmetry. apply (repeat_cons n p). }
  rewrite !R in E. rewrite <- !app_assoc in E. cbn [app] in E.
  revert j E. induction k as [|k IH]; intros [|j] E; cbn in E.
  - injection E as E1 E2. apply (f_equal (@rev byte)) in E2. rewrite !rev_involutive in E2. auto.
  - injection E as E1 _. congruence.
  - injection E as E1 _. congruence.
  - injection E as E. destruct (IH _ E) as (-> & -> & ->). auto.
Qed.

(** A string that is not all [p] splits at its last non-[p] byte. *)
Lemma last_non_pad p (l : bytes) :
  l <> repeat p (length l) -> exists a x k, x <> p /\ l = a ++ [x] ++ repeat p k.
Proof.
  induction l as [|b l IH] using rev_ind; [cbn; congruence|].
  intros H. destruct (byte_eqb b p) eqn:E.
  - apply byte_eqb_eq in E as ->.
    destruct IH as (a & x & k & Hx & ->).
    + intros Hl. apply H. rewrite app_length. cbn [length].
      rewrite Nat.add_comm. cbn [Nat.add repeat]. rewrite (repeat_cons (length l) p).
      now rewrite <- Hl.
    + exists a, x, (S k). split; [exact Hx|].
      cbn [repeat]. rewrite (repeat_cons k p). rewrite <- !app_assoc. reflexivity.
  - exists l, b, O. split; [|reflexivity].
    intros ->. assert (byte_eqb p p = true) by now apply byte_eqb_eq. congruence.
Qed.

Lemma le_enc_bs_not_pad p bs : bs <> 0 -> bs < 2 ^ 56 -> le_enc 8 bs <> repeat p 8.
Proof.
  intros H0 H1 E.
  assert (Hval : le_int (le_enc 8 bs) = bs).
  { rewrite le_int_le_enc. apply N.mod_small. change (256 ^ N.of_nat 8) with (2 ^ 64). lia. }
  rewrite E in Hval. cbn [repeat le_int] in Hval.
  destruct (N.eq_dec (bval p) 0) as [Hp|Hp]; [rewrite Hp in Hval; cbn in Hval; lia|].
  change (2 ^ 56) with 72057594037927936 in H1. lia.
Qed.

Lemma encode_key_inj k1 k2 bs p1 p2 x :
  bs < 2 ^ 56 ->
  encode_key k1 bs p1 = Ok x -> encode_key k2 bs p2 = Ok x -> k1 = k2 /\ p1 = p2.
Proof.
  intros Hbs H1 H2.
  apply encode_key_ok in H1 as (q1 & n1 & -> & Hk1 & Hb & _ & L1 & -> & _).
  apply encode_key_ok in H2 as (q2 & n2 & -> & Hk2 & _ & _ & L2 & E & _).
  assert (q1 = q2) as <-.
  { cbn [repeat] in E. rewrite (repeat_cons n1 q1), (repeat_cons n2 q2) in E.
    rewrite !app_assoc in E. apply app_inj_tail in E as [_ E]. exact E. }
  destruct (last_non_pad q1 (le_enc 8 bs)) as (a & x & k & Hx & Ebs).
  { rewrite le_enc_length. now apply le_enc_bs_not_pad. }
  rewrite Ebs in E. rewrite <- !app_assoc in E. rewrite <- !repeat_app in E.
  rewrite !(app_assoc _ a) in E. rewrite !(app_assoc _ (_ ++ a)) in E.
  apply pad_strip in E as (E & _ & Ek); [|exact Hx|exact Hx].
  apply app_inj_len_r in E as [-> _]; [auto|].
  rewrite !app_length, !le_enc_length. reflexivity.
Qed.

Lemma encode_key_length key bs pad x :
  encode_key key bs pad = Ok x -> blen x = bs * ceil_div (blen key + 17) bs.
Proof.
  intros H. unfold encode_key in H. destruct key as [|b key]; [discriminate|].
  set (K := b :: key) in *. clearbody K.
  apply bind_ok in H as (kl & Hkl & H). apply bind_ok in H as (bz & Hbz & H).
  apply to_bytes_le_ok in Hkl as [? ->]. apply to_bytes_le_ok in Hbz as [? ->].
  unfold fullblock_ljust in H. destruct (N.eqb_spec bs 0); [discriminate|].
  destruct pad as [|p [|]]; try discriminate. cbn [ljust] in H. apply Ok_inj in H. subst x.
  rewrite blen_app, blen_repeat.
  replace (blen (K ++ le_enc (N.to_nat 8) (blen K) ++ le_enc (N.to_nat 8) bs ++ [p]))
    with (blen K + 17) by (rewrite !blen_app, !blen_le_enc, blen_cons, blen_nil; lia).
  pose proof (ceil_div_mul_ge (blen K + 17) bs ltac:(assumption)) as G.
  set (W := bs * ceil_div (blen K + 17) bs) in *. lia.
Qed.

(** ** Injectivity of packing and hashing *)
Lemma canonical_pack_inj i1 b1 p1 w1 i2 b2 p2 w2 x :
  canonical_pack i1 b1 p1 w1 = Ok x -> canonical_pack i2 b2 p2 w2 = Ok x ->
  i1 = i2 /\ b1 = b2 /\ p1 = p2 /\ w1 = w2.
Proof.
  intros H1 H2.
  apply canonical_pack_layout in H1 as (q1 & k1 & bl1 & -> & _ & L1 & _ & <- & _).
  apply canonical_pack_layout in H2 as (q2 & k2 & bl2 & -> & _ & L2 & _ & <- & _).
  destruct (layout_inj _ _ _ _ _ _ _ _ _ _ _ L1 L2) as (-> & -> & -> & -> & _). auto.
Qed.

Lemma hash_absorbed_inv h c p s k x :
  hash_bytes_absorbed h c p s k = Ok x ->
  exists pre sb packed,
    match k with None => pre = [] | Some key => encode_key key (h_block_size h) p = Ok pre end /\
    to_bytes_be INT_BYTES (size_or s (h_digest_size h)) = Ok sb /\
    canonical_pack (sb :: c) (h_block_size h) p INT_BYTES = Ok packed /\
    x = pre ++ packed.
Proof.
  unfold hash_bytes_absorbed. intros H.
  apply bind_ok in H as (pre & Hp & H). apply bind_ok in H as (sb & Hs & H).
  apply bind_ok in H as (pk & Hk & H). injection H as <-.
  exists pre, sb, pk. split; [|auto].
  destruct k; [exact Hp|]. now injection Hp as <-.
Qed.



Lemma hash_absorbed_inj_blocks h c1 p1 s1 k1 c2 p2 s2 k2 x :
  keys_of_same_blocks (h_block_size h) k1 k2 -> h_block_size h < 2 ^ 56 ->
  hash_bytes_absorbed h c1 p1 s1 k1 = Ok x ->
  hash_bytes_absorbed h c2 p2 s2 k2 = Ok x ->
  c1 = c2 /\ p1 = p2 /\ k1 = k2 /\
  size_or s1 (h_digest_size h) = size_or s2 (h_digest_size h).
Proof.
  intros HK HB H1 H2.
  apply hash_absorbed_inv in H1 as (pre1 & sb1 & pk1 & Hk1 & Hs1 & Hp1 & ->).
  apply hash_absorbed_inv in H2 as (pre2 & sb2 & pk2 & Hk2 & Hs2 & Hp2 & E).
  assert (L : length pre1 = length pre2).
  { destruct k1, k2; cbn in HK; try contradiction; subst; try reflexivity.
    apply encode_key_length in Hk1, Hk2. unfold key_blocks in HK. unfold ceil_div in *. rewrite HK in Hk1. unfold blen in *. lia. }
  apply app_inj_len in E as [-> ->]; [|exact L].
  destruct (canonical_pack_inj _ _ _ _ _ _ _ _ _ Hp1 Hp2) as (Ei & _ & -> & _).
  injection Ei as -> ->.
  apply to_bytes_be_int in Hs1, Hs2.
  repeat split; try congruence.
  destruct k1, k2; cbn in HK; try contradiction; [|reflexivity].
  f_equal. now destruct (encode_key_inj _ _ _ _ _ _ HB Hk1 Hk2).
Qed.
(** The length of a packing only depends on the lengths of the items. *)
Lemma framed_same_length w : forall i1 i2 x1 x2, map blen i1 = map blen i2 -> framed w i1 x1 -> framed w i2 x2 -> blen x1 = blen x2.
Proof.
  induction i1 as [|a i1 IH]; intros [|b i2] x1 x2 E F1 F2; try discriminate; inversion F1; inversion F2; subst; [reflexivity|].
  injection E as E1 E2. rewrite !blen_app, (IH i2 rest rest0 E2) by assumption. lia.
Qed.
Lemma pack_same_length i1 i2 bs p1 p2 w x1 x2 : map blen i1 = map blen i2 ->
  canonical_pack i1 bs p1 w = Ok x1 -> canonical_pack i2 bs p2 w = Ok x2 -> length x1 = length x2.
Proof.
  intros E H1 H2.
  apply canonical_pack_layout in H1 as (q1 & k1 & b1 & -> & F & (s1 & c1 & y1 & S1 & C1 & _ & B1 & E1) & L1 & _ & K1 & M1).
  apply canonical_pack_layout in H2 as (q2 & k2 & b2 & -> & _ & (s2 & c2 & y2 & S2 & C2 & _ & B2 & E2) & L2 & _ & K2 & M2).
  assert (blen y1 = blen y2) as Y.
  { refine (framed_same_length w _ _ _ _ _ B1 B2). cbn [map]. rewrite L1, L2, E. reflexivity. }
  assert (blen x1 = blen x2) as Q; [|unfold blen in Q; lia].
  assert (blen x1 = 1 + w + blen y1 + N.of_nat k1) as Q1 by (rewrite E1, blen_cons, !blen_app, blen_repeat; lia).
  assert (blen x2 = 1 + w + blen y1 + N.of_nat k2) as Q2 by (rewrite E2, blen_cons, !blen_app, blen_repeat; lia).
  set (c := 1 + w + blen y1) in *. destruct F as (_ & (B & _) & _).
  apply N.mod_divide in M1, M2; try lia. destruct M1 as (a1 & M1), M2 as (a2 & M2).
  destruct (N.lt_trichotomy a1 a2) as [T|[T|T]]; [|subst; lia|].
  - assert ((a1 + 1) * bs <= a2 * bs) by (apply N.mul_le_mono_r; lia). lia.
  - assert ((a2 + 1) * bs <= a1 * bs) by (apply N.mul_le_mono_r; lia). lia.
Qed.
(** So keys of all lengths are separated if the items are as long as each other. *)
Lemma hash_absorbed_inj_items h c1 p1 s1 k1 c2 p2 s2 k2 x :
  map blen c1 = map blen c2 -> h_block_size h < 2 ^ 56 ->
  hash_bytes_absorbed h c1 p1 s1 k1 = Ok x -> hash_bytes_absorbed h c2 p2 s2 k2 = Ok x ->
  c1 = c2 /\ p1 = p2 /\ k1 = k2 /\ size_or s1 (h_digest_size h) = size_or s2 (h_digest_size h).
Proof.
  intros HC HB H1 H2.
  apply hash_absorbed_inv in H1 as (pre1 & sb1 & pk1 & Hk1 & Hs1 & Hp1 & ->).
  apply hash_absorbed_inv in H2 as (pre2 & sb2 & pk2 & Hk2 & Hs2 & Hp2 & E).
  assert (length pk1 = length pk2) as L.
  { refine (pack_same_length _ _ _ _ _ _ _ _ _ Hp1 Hp2). cbn [map]. rewrite HC. f_equal.
    apply to_bytes_be_ok in Hs1 as [_ ->]. apply to_bytes_be_ok in Hs2 as [_ ->]. now rewrite !blen_be_enc. }
  assert (length pre1 = length pre2) as L' by (apply (f_equal (@length byte)) in E; rewrite !app_length in E; lia).
  apply app_inj_len in E as [-> ->]; [|exact L'].
  destruct (canonical_pack_inj _ _ _ _ _ _ _ _ _ Hp1 Hp2) as (Ei & _ & Ep & _). injection Ei as Esb <-. subst p2.
  split; [reflexivity|]. split; [reflexivity|]. split.
  - destruct k1 as [k1|], k2 as [k2|]; subst; try reflexivity.
    + now destruct (encode_key_inj _ _ _ _ _ _ HB Hk1 Hk2) as [-> _].
    + apply encode_key_ok in Hk1 as (q & n & _ & Hn & _ & _ & _ & Q & _). destruct k1; [contradiction|discriminate Q].
    + apply encode_key_ok in Hk2 as (q & n & _ & Hn & _ & _ & _ & Q & _). destruct k2; [contradiction|discriminate Q].
  - apply to_bytes_be_int in Hs1, Hs2. congruence.
Qed.

Lemma hash_absorbed_inj h c1 p1 s1 k1 c2 p2 s2 k2 x :
  keys_comparable k1 k2 -> h_block_size h < 2 ^ 56 ->
  hash_bytes_absorbed h c1 p1 s1 k1 = Ok x ->
  hash_bytes_absorbed h c2 p2 s2 k2 = Ok x ->
  c1 = c2 /\ p1 = p2 /\ k1 = k2 /\
  size_or s1 (h_digest_size h) = size_or s2 (h_digest_size h).
Proof.
  intros HK. apply hash_absorbed_inj_blocks. destruct k1, k2; cbn in *; try contradiction; [|exact I].
  unfold key_blocks, blen. now rewrite HK.
Qed.

Lemma canonical_roundtrip items bs pad w x :
  canonical_pack items bs pad w = Ok x -> python_sized x ->
  canonical_unpack x = Ok items.
Proof.
  intros H Hsz. apply canonical_pack_layout in H as (p & k & blob & -> & Hf & HL & Hbl & Hbi & Hk & Hm).
  apply (canonical_unpack_complete w blob p items k); [exact Hsz|exact HL| |congruence].
  rewrite Hbi. destruct Hf as (_ & Hb & _). lia.
Qed.

Lemma canonical_pack_errors items bs pad w e :
  canonical_pack items bs pad w = Err e ->
  (e = OverflowErr \/ e = ZeroDivisionErr \/ e = TypeErr) /\
  (length pad = 1%nat -> ~ fits w bs items).
Proof.
  intros H. split.
  - unfold canonical_pack in H.
    assert (HT : forall w n e, to_bytes_be w n = Err e -> e = OverflowErr).
    { intros w0 n0 e0. unfold to_bytes_be. destruct (_ <? _); [discriminate|congruence]. }
    apply bind_err in H as [H|(? & _ & H)]; [eauto|].
    apply bind_err in H as [H|(? & _ & H)].
    + unfold encode_items in H.
      apply bind_err in H as [H|(? & _ & H)]; [eauto|].
      apply bind_err in H as [H|(? & _ & H)]; [eauto|].
      apply bind_err in H as [H|(? & _ & H)]; [|discriminate].
      left. revert H. generalize (x :: pad :: items) as l.
      induction l as [|i l IH]; cbn; [discriminate|]. intros H.
      apply bind_err in H as [H|(? & _ & H)].
      * unfold encode_item in H. apply bind_err in H as [H|(? & _ & H)]; [eauto|discriminate].
      * apply bind_err in H as [H|(? & _ & H)]; [eauto|discriminate].
    + unfold fullblock_ljust in H. destruct (bs =? 0); [injection H as <-; auto|].
      unfold ljust in H. destruct pad as [|? [|]]; try discriminate; injection H as <-; auto.
  - intros L F. destruct pad as [|p [|]]; try discriminate.
    destruct (canonical_pack_total items bs p w F) as [x Hx]. congruence.
Qed.

Lemma encode_key_total key bs p :
  key <> [] -> 0 < bs < 2 ^ 64 -> blen key < 2 ^ 64 -> exists x, encode_key key bs [p] = Ok x.
Proof.
  intros Hk Hb Hl. unfold encode_key. destruct key as [|b key]; [congruence|].
  rewrite !to_bytes_le_fit by (change (256 ^ 8) with (2 ^ 64); lia). cbn [bind].
  unfold fullblock_ljust. destruct (N.eqb_spec bs 0); [lia|]. cbn. eauto.
Qed.

(** ** Confusion of keyed and unkeyed hashing (block size 72, SHA3-512) *)
Definition sha3_512_like (digest : bytes -> N -> bytes) : hasher :=
  {| h_block_size := 72; h_digest_size := 64; h_is_xof := false; h_digest := digest |}.

Definition get (r : result bytes) : bytes := match r with Ok x => x | Err _ => [] end.
Definition coll_size : bytes := be_enc 8 64.
Definition coll_key : bytes :=
  firstn 58 (get (canonical_pack [coll_size; repeat x00 158] 72 [x00] 8)).
Definition coll_item : bytes :=
  skipn 58 (get (encode_key coll_key 72 [x00])) ++ get (canonical_pack [coll_size] 72 [x00] 8).

Lemma coll_absorbed digest :
  hash_bytes_absorbed (sha3_512_like digest) [] [x00] None (Some coll_key) =
  hash_bytes_absorbed (sha3_512_like digest) [coll_item] [x00] None None /\
  is_ok (hash_bytes_absorbed (sha3_512_like digest) [] [x00] None (Some coll_key)) = true.
Proof. vm_compute. split; reflexivity. Qed.

Lemma coll_hash digest :
  exists d,
  hash_bytes (sha3_512_like digest) [] [x00] None (Some coll_key) = Ok d /\
  hash_bytes (sha3_512_like digest) [coll_item] [x00] None None = Ok d.
Proof.
  destruct (coll_absorbed digest) as [E O]. unfold hash_bytes. rewrite <- E.
  destruct (hash_bytes_absorbed (sha3_512_like digest) [] [x00] None (Some coll_key)); [|discriminate].
  cbn. eauto.
Qed.

Lemma inflated_rejected s count rest :
  blen count = bval s ->
  1 + blen count + blen rest < bval s * (be_int count + 1) + 3 ->
  canonical_unpack (s :: count ++ rest) = Err (CanonicalEncodingError InflatedSizeDeclaration).
Proof.
  intros Hc Hs. unfold canonical_unpack. pose proof ssize_255. pose proof (bval_lt s).
  unfold bio_read at 1. destruct (N.ltb_spec 1 ssize_limit); [cbn [bind]|lia].
  replace (take 1 (s :: count ++ rest)) with [s]
    by (symmetry; apply (take_app 1 [s]); reflexivity).
  replace (drop 1 (s :: count ++ rest)) with (count ++ rest)
    by (symmetry; apply (drop_app 1 [s]); reflexivity).
  rewrite be_int_single. unfold bio_read at 1.
  destruct (N.ltb_spec (bval s) ssize_limit); [cbn [bind]|lia].
  rewrite take_app by exact Hc. rewrite drop_app by exact Hc.
  destruct (N.ltb_spec (blen (s :: count ++ rest)) (bval s * (be_int count + 1) + 3)) as [|G];
    [reflexivity|]. rewrite blen_cons, blen_app in G. lia.
Qed.
