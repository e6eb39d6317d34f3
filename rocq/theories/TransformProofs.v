(** * Lemmas about base conversion and text encodings. *)
From Verif Require Import Base BaseFacts CanonModel CanonProofs TransformModel TransformSpec.
From Coq Require Import ZifyBool ZifyNat ZifyN.
Local Open Scope N_scope.

(** ** Base conversion *)
Lemma find_index_some c table i :
  find_index c table = Some i -> nth_error table (N.to_nat i) = Some c /\ i < blen table.
Proof.
  revert i. induction table as [|t table IH]; intros i H; cbn in H; [discriminate|].
  rewrite blen_cons. destruct (byte_eqb c t) eqn:E.
  - injection H as <-. apply byte_eqb_eq in E as ->. split; [reflexivity|lia].
  - destruct (find_index c table) as [j|]; [|discriminate]. injection H as <-.
    destruct (IH j eq_refl) as [H1 H2]. split; [|lia].
    replace (N.to_nat (j + 1)) with (S (N.to_nat j)) by lia. exact H1.
Qed.

Lemma find_index_nth c table i :
  NoDup table -> nth_error table (N.to_nat i) = Some c -> find_index c table = Some i.
Proof.
  revert i. induction table as [|t table IH]; intros i ND H.
  - destruct (N.to_nat i); discriminate.
  - inversion_clear ND as [|? ? Hn ND']. cbn. destruct (byte_eqb c t) eqn:E.
    + apply byte_eqb_eq in E as ->. f_equal.
      destruct (N.to_nat i) as [|j] eqn:Ei; [lia|].
      cbn in H. apply nth_error_In in H. contradiction.
    + destruct (N.to_nat i) as [|j] eqn:Ei.
      * cbn in H. injection H as ->.
        assert (byte_eqb c c = true) by now apply byte_eqb_eq. congruence.
      * cbn in H. rewrite (IH (i - 1) ND').
        -- f_equal. lia.
        -- replace (N.to_nat (i - 1)) with j by lia. exact H.
Qed.

(** Value of a little-endian list of symbols. *)
Fixpoint digits_value (base : N) (table digits : bytes) (v : N) : Prop :=
  match digits with
  | [] => v = 0
  | d :: ds => exists i w, nth_error table (N.to_nat i) = Some d /\ i < blen table /\
                           digits_value base table ds w /\ v = i + base * w
  end.

Lemma base_as_int_loop_value base table digits power acc r :
  base_as_int_loop digits base power acc table = Ok r ->
  exists v, digits_value base table digits v /\ r = acc + power * v.
Proof.
  revert power acc. induction digits as [|d ds IH]; intros power acc H; cbn in H.
  - injection H as <-. exists 0. cbn. split; [reflexivity|lia].
  - destruct (find_index d table) as [i|] eqn:E; [|discriminate].
    apply IH in H as (v & Hv & ->). apply find_index_some in E as [E1 E2].
    exists (i + base * v). split; [cbn; eauto 10|lia].
Qed.

Lemma base_as_int_loop_of_value base table digits power acc v :
  NoDup table -> digits_value base table digits v ->
  base_as_int_loop digits base power acc table = Ok (acc + power * v).
Proof.
  intros ND. revert power acc v. induction digits as [|d ds IH]; intros power acc v H; cbn in H.
  - subst v. cbn. f_equal. lia.
  - destruct H as (i & w & Hi & Hb & Hw & ->). cbn [base_as_int_loop].
    rewrite (find_index_nth _ _ _ ND Hi). rewrite (IH _ _ _ Hw). f_equal. lia.
Qed.

Lemma size_div n b : n <> 0 -> 2 <= b -> (N.size_nat (n / b) < N.size_nat n)%nat.
Proof.
  intros Hn Hb.
  assert (S : forall m, N.of_nat (N.size_nat m) = N.size m).
  { intros [|p]; [reflexivity|]. cbn. induction p as [p IH|p IH|]; cbn [Pos.size_nat Pos.size].
    - rewrite Nat2N.inj_succ, IH. reflexivity.
    - rewrite Nat2N.inj_succ, IH. reflexivity.
    - reflexivity. }
  enough (N.size (n / b) < N.size n) by (rewrite <- !S in *; lia).
  destruct (N.eq_dec (n / b) 0) as [E|E].
  - rewrite E. cbn [N.size]. rewrite N.size_log2 by exact Hn. lia.
  - rewrite !N.size_log2 by assumption.
    apply (proj1 (N.succ_lt_mono _ _)).
    assert (Hle : n / b <= n / 2) by (apply N.div_le_compat_l; lia).
    assert (n / 2 <> 0).
    { intros E2. rewrite E2 in Hle. apply E. now apply N.le_0_r. }
    apply N.log2_le_mono in Hle.
    assert (Hlog : N.log2 (n / 2) < N.log2 n); [|lia].
    rewrite <- N.div2_div.
    destruct n as [|p]; [congruence|].
    destruct p as [p|p|]; cbn [N.div2]; [| |cbn in *; congruence].
    + change (N.pos p~1) with (2 * N.pos p + 1). rewrite N.log2_succ_double by lia. lia.
    + change (N.pos p~0) with (2 * N.pos p). rewrite N.log2_double by lia. lia.
Qed.

Lemma int_as_base_loop_value fuel n base table :
  2 <= base -> base <= blen table -> (N.size_nat n <= fuel)%nat ->
  exists ds, int_as_base_loop fuel n base table = Ok ds /\ digits_value base table ds n /\
             (n <> 0 -> exists init d i, ds = init ++ [d] /\ nth_error table (N.to_nat i) = Some d /\ i <> 0 /\ i < base) /\
             (n = 0 -> ds = []).
Proof.
  intros Hb Ht. revert n. induction fuel as [|fuel IH]; intros n Hf.
  - assert (n = 0) as ->.
    { destruct n as [|[p|p|]]; [reflexivity|..]; cbn in Hf; lia. }
    exists []. cbn. repeat split; congruence.
  - cbn [int_as_base_loop]. destruct (N.eqb_spec n 0) as [->|Hn].
    + exists []. cbn. repeat split; congruence.
    + destruct (N.eqb_spec base 0); [lia|].
      pose proof (N.mod_upper_bound n base ltac:(lia)) as Hm.
      destruct (nth_error table (N.to_nat (n mod base))) as [d|] eqn:E.
      2:{ apply nth_error_None in E. unfold blen in *. lia. }
      pose proof (size_div n base Hn Hb).
      destruct (IH (n / base) ltac:(lia)) as (ds & -> & Hv & Hz & Hz').
      cbn [bind]. exists (d :: ds). split; [reflexivity|]. split.
      * cbn. exists (n mod base), (n / base). split; [exact E|]. split; [lia|].
        split; [exact Hv|]. pose proof (N.div_mod n base ltac:(lia)). lia.
      * split; [|congruence]. intros _. destruct (N.eq_dec (n / base) 0) as [Ez|Ez].
        -- rewrite (Hz' Ez). exists [], d, (n mod base).
           repeat split; try assumption.
           pose proof (N.div_mod n base ltac:(lia)). rewrite Ez in *. lia.
        -- destruct (Hz Ez) as (init & d' & i & -> & Hd' & Hi & Hib).
           exists (d :: init), d', i. auto.
Qed.

Lemma nth_error_NoDup_take {A} (l : list A) n : NoDup l -> NoDup (take n l).
Proof.
  rewrite take_firstn. generalize (N.to_nat n) as k. intros k H. revert k.
  induction H as [|x l Hx H IH]; intros [|k]; cbn; constructor; auto.
  intros Hin. apply Hx. rewrite <- (firstn_skipn k l). apply in_or_app. now left.
Qed.



Lemma int_as_base_roundtrip n base table :
  valid_base base table ->
  exists s, int_as_base n base table = Ok s /\ base_as_int s base table = Ok n /\
            s <> [] /\ (n <> 0 -> hd_error s <> nth_error table 0).
Proof.
  intros (ND & Hb & Ht). unfold int_as_base, base_as_int.
  pose proof (nth_error_NoDup_take table (base_or base table) ND) as ND'.
  assert (HL : blen (take (base_or base table) table) = base_or base table)
    by (rewrite blen_take; lia).
  destruct (N.eqb_spec n 0) as [->|Hn].
  - destruct table as [|t table]; [rewrite (@blen_nil byte) in *; lia|].
    exists (take 1 (t :: table)).
    replace (take 1 (t :: table)) with [t] by (symmetry; apply (take_app 1 [t]); reflexivity).
    split; [reflexivity|]. split; [|split; congruence].
    change (rev [t]) with [t].
    rewrite (base_as_int_loop_of_value _ _ _ _ _ 0); [reflexivity|exact ND'|].
    exists 0, 0. split; [|split; [lia|split; [reflexivity|lia]]].
    rewrite take_firstn.
    destruct (N.to_nat (base_or base (t :: table))) eqn:E; [lia|]. reflexivity.
  - destruct (int_as_base_loop_value (N.size_nat n) n (base_or base table)
                (take (base_or base table) table)) as (ds & -> & Hv & Hz & _); try lia.
    cbn [bind]. exists (rev ds). split; [reflexivity|].
    rewrite rev_involutive. split.
    { rewrite (base_as_int_loop_of_value _ _ _ _ _ n ND' Hv). f_equal. lia. }
    destruct (Hz Hn) as (init & d & i & -> & Hd & Hi & Hib). rewrite rev_app_distr.
    cbn [rev app]. split; [congruence|]. intros _. cbn [hd_error].
    intros E. symmetry in E. rewrite take_firstn in Hd.
    assert (Hd' : nth_error table (N.to_nat i) = Some d).
    { rewrite <- (firstn_skipn (N.to_nat (base_or base table)) table).
      rewrite nth_error_app1; [exact Hd|].
      apply nth_error_Some. congruence. }
    pose proof (find_index_nth _ _ _ ND Hd') as F1.
    pose proof (find_index_nth d table 0 ND E) as F2. congruence.
Qed.

Lemma digits_value_unique base table ds1 ds2 v :
  NoDup table -> blen table = base -> 2 <= base ->
  length ds1 = length ds2 ->
  digits_value base table ds1 v -> digits_value base table ds2 v -> ds1 = ds2.
Proof.
  intros ND HB H2. revert ds2 v. induction ds1 as [|d ds IH]; intros [|d2 ds2] v L V1 V2;
    cbn in L; try discriminate; [reflexivity|].
  destruct V1 as (i & w & Hi & Hib & Hw & ->). destruct V2 as (i2 & w2 & Hi2 & Hib2 & Hw2 & E).
  rewrite HB in *.
  assert (Ei : (i + base * w) mod base = i).
  { rewrite N.mul_comm, N.mod_add by lia. now apply N.mod_small. }
  assert (Ei2 : (i2 + base * w2) mod base = i2).
  { rewrite N.mul_comm, N.mod_add by lia. now apply N.mod_small. }
  assert (i = i2) by congruence. subst i2.
  assert (w = w2) by nia. subst w2.
  f_equal; [congruence|]. eapply IH; eauto.
Qed.

Lemma digits_value_bound base table ds v :
  blen table = base -> digits_value base table ds v -> v < base ^ blen ds.
Proof.
  intros HB. revert v. induction ds as [|d ds IH]; intros v V.
  - cbn in V. subst. reflexivity.
  - destruct V as (i & w & _ & Hib & Hw & ->). apply IH in Hw.
    rewrite blen_cons, N.pow_add_r, N.pow_1_r. rewrite HB in *. nia.
Qed.

Lemma digits_value_lower base table init d i v :
  blen table = base -> nth_error table (N.to_nat i) = Some d -> NoDup table -> i <> 0 ->
  digits_value base table (init ++ [d]) v -> base ^ blen init <= v.
Proof.
  intros HB Hd ND Hi. revert v. induction init as [|e init IH]; intros v V.
  - cbn in V. destruct V as (j & w & Hj & _ & -> & ->).
    assert (find_index d table = Some i) by now apply find_index_nth.
    assert (find_index d table = Some j) by now apply find_index_nth.
    rewrite (@blen_nil byte), N.pow_0_r. assert (i = j) by congruence. lia.
  - cbn [app] in V. destruct V as (j & w & _ & _ & Hw & ->). apply IH in Hw.
    rewrite blen_cons, N.pow_add_r, N.pow_1_r. nia.
Qed.

(** The text is the shortest: any accepted text without leading zero symbol is
    what the encoder gives. *)
Lemma base_as_int_roundtrip s base table n :
  valid_base base table -> base_as_int s base table = Ok n ->
  hd_error s <> nth_error table 0 -> s <> [] ->
  int_as_base n base table = Ok s.
Proof.
  intros VB H H0 Hs. pose proof VB as (ND & Hb & Ht).
  destruct (int_as_base_roundtrip n base table VB) as (s' & E & R & Hs' & Hlead).
  rewrite E. f_equal. unfold base_as_int in H, R.
  apply base_as_int_loop_value in H as (v & V & Ev).
  apply base_as_int_loop_value in R as (v' & V' & Ev').
  assert (v = n) by lia. assert (v' = n) by lia. subst v v'. clear Ev Ev'.
  pose proof (nth_error_NoDup_take table (base_or base table) ND) as ND'.
  set (T := take (base_or base table) table) in *.
  assert (HL : blen T = base_or base table) by (unfold T; rewrite blen_take; lia).
  set (B := base_or base table) in *.
  assert (T0 : nth_error T 0 = nth_error table 0).
  { unfold T. rewrite take_firstn. destruct (N.to_nat B) eqn:EB; [lia|].
    destruct table; reflexivity. }
  assert (Lead : forall u, u <> [] -> hd_error u <> nth_error table 0 ->
            digits_value B T (rev u) n ->
            B ^ blen (tl u) <= n < B ^ blen u /\ n <> 0).
  { intros u Hu Hh Vu. destruct u as [|d u]; [congruence|].
    cbn [rev] in Vu. cbn [tl]. cbn [hd_error] in Hh.
    assert (exists i, nth_error T (N.to_nat i) = Some d /\ i <> 0) as (i & Hi & Hi0).
    { clear - Vu Hh T0 HL. revert n Vu. induction (rev u) as [|e l IH]; intros n Vu.
      - cbn in Vu. destruct Vu as (i & w & Hi & _). exists i. split; [exact Hi|].
        intros ->. change (N.to_nat 0) with 0%nat in Hi. rewrite T0 in Hi. congruence.
      - cbn in Vu. destruct Vu as (_ & w & _ & _ & Vw & _). eapply IH; eauto. }
    pose proof (digits_value_lower B T (rev u) d i n HL Hi ND' Hi0 Vu) as G1.
    pose proof (digits_value_bound B T _ n HL Vu) as G2.
    rewrite blen_rev in G1. rewrite blen_app, blen_rev, blen_cons, (@blen_nil byte) in G2.
    rewrite blen_cons. rewrite N.add_comm in G2. rewrite N.add_0_r in *.
    split; [lia|].
    assert (B ^ blen u <> 0) by (apply N.pow_nonzero; lia). lia. }
  destruct (Lead s Hs H0 V) as [B1 Hn0].
  destruct (Lead s' Hs' (Hlead Hn0) V') as [B2 _].
  assert (length s = length s').
  { assert (blen (tl s) < blen s').
    { apply (N.pow_lt_mono_r_iff B); lia. }
    assert (blen (tl s') < blen s).
    { apply (N.pow_lt_mono_r_iff B); lia. }
    destruct s, s'; try congruence. cbn [tl] in *. rewrite !blen_cons in *.
    unfold blen in *. cbn [length]. lia. }
  assert (rev s = rev s').
  { apply (digits_value_unique B T _ _ n); auto; now rewrite !rev_length. }
  rewrite <- (rev_involutive s), <- (rev_involutive s'). congruence.
Qed.

(** ** Filenames *)


Lemma strip_zeros_int l : be_int (strip_zeros l) = be_int l.
Proof.
  induction l as [|b l IH]; [reflexivity|]. cbn [strip_zeros].
  destruct (byte_eqb b x00) eqn:E; [|reflexivity].
  apply byte_eqb_eq in E as ->. rewrite IH, be_int_cons, bval_x00. lia.
Qed.

Lemma strip_zeros_head l b l' : strip_zeros l = b :: l' -> b <> x00.
Proof.
  induction l as [|c l IH]; cbn; [discriminate|].
  destruct (byte_eqb c x00) eqn:E; [exact IH|]. intros [= -> ->] ->.
  assert (byte_eqb x00 x00 = true) by reflexivity. congruence.
Qed.

Lemma strip_zeros_id l : hd_error l <> Some x00 -> strip_zeros l = l.
Proof.
  destruct l as [|b l]; [reflexivity|]. cbn. intros H.
  destruct (byte_eqb b x00) eqn:E; [|reflexivity].
  apply byte_eqb_eq in E as ->. congruence.
Qed.

Lemma pow256 k : 256 ^ k = 2 ^ (8 * k).
Proof. rewrite N.pow_mul_r. reflexivity. Qed.

Lemma size_bytes l b l' : l = b :: l' -> b <> x00 -> ceil_div (N.size (be_int l)) 8 = blen l.
Proof.
  intros -> Hb.
  assert (Hv : bval b <> 0).
  { intros E. apply Hb. apply bval_inj. rewrite E. reflexivity. }
  pose proof (be_int_bound (b :: l')) as U. rewrite be_int_cons in *.
  set (n := 256 ^ blen l' * bval b + be_int l') in *.
  assert (Ln : 256 ^ blen l' <= n) by (unfold n; nia).
  assert (n <> 0).
  { assert (256 ^ blen l' <> 0) by (apply N.pow_nonzero; lia). lia. }
  rewrite N.size_log2 by assumption.
  rewrite blen_cons in *. set (k := blen l') in *. clearbody n k.
  rewrite pow256 in *.
  assert (G1 : 8 * k <= N.log2 n) by (apply N.log2_le_pow2; lia).
  assert (G2 : N.log2 n < 8 * (1 + k)) by (apply N.log2_lt_pow2; lia).
  unfold ceil_div.
  replace (N.succ (N.log2 n) + 8 - 1) with (N.log2 n - 8 * k + (1 + k) * 8) by lia.
  rewrite N.div_add by lia. rewrite N.div_small by lia. lia.
Qed.

Lemma base38_valid : valid_base (Some 38) BASE_38.
Proof.
  split; [|cbn; split; [lia|reflexivity]].
  unfold BASE_38. repeat (constructor; [cbn; intuition discriminate|]). constructor.
Qed.

Lemma filename_roundtrip v :
  exists f, bytes_to_filename v = Ok f /\ filename_to_bytes f = Ok (strip_zeros v).
Proof.
  unfold bytes_to_filename, filename_to_bytes.
  destruct (int_as_base_roundtrip (be_int v) (Some 38) BASE_38 base38_valid)
    as (f & -> & R & _).
  exists f. split; [reflexivity|]. rewrite R. cbn [bind].
  rewrite <- (strip_zeros_int v).
  destruct (strip_zeros v) as [|b l] eqn:E.
  - reflexivity.
  - rewrite (size_bytes _ b l eq_refl); [apply to_bytes_be_be_int|].
    eapply strip_zeros_head; eauto.
Qed.

Lemma filename_roundtrip_nozero v :
  hd_error v <> Some x00 ->
  exists f, bytes_to_filename v = Ok f /\ filename_to_bytes f = Ok v.
Proof.
  intros H. destruct (filename_roundtrip v) as (f & E1 & E2). exists f.
  rewrite strip_zeros_id in E2 by exact H. auto.
Qed.

Lemma filename_inj a b f :
  length a = length b -> bytes_to_filename a = Ok f -> bytes_to_filename b = Ok f -> a = b.
Proof.
  intros L Ha Hb. unfold bytes_to_filename in *.
  destruct (int_as_base_roundtrip (be_int a) (Some 38) BASE_38 base38_valid) as (fa & Ea & Ra & _).
  destruct (int_as_base_roundtrip (be_int b) (Some 38) BASE_38 base38_valid) as (fb & Eb & Rb & _).
  apply be_int_inj; [exact L|]. congruence.
Qed.

(** ** base64 *)


Lemma b64_char_facts i :
  i < 64 ->
  a2b_char (urlsafe_translate (b64_char i)) = Some i /\
  byte_eqb (urlsafe_translate (b64_char i)) x3d = false /\
  byte_eqb (b64_char i) x3d = false /\ b64_alphabet_b (b64_char i) = true.
Proof.
  intros H.
  assert (A : forallb (fun k => let i := N.of_nat k in
      match a2b_char (urlsafe_translate (b64_char i)) with Some j => j =? i | None => false end
      && negb (byte_eqb (urlsafe_translate (b64_char i)) x3d)
      && negb (byte_eqb (b64_char i) x3d) && b64_alphabet_b (b64_char i)) (seq 0 64) = true)
    by (vm_compute; reflexivity).
  rewrite forallb_forall in A. specialize (A (N.to_nat i)).
  rewrite in_seq in A. cbv zeta in A. rewrite N2Nat.id in A.
  specialize (A ltac:(lia)).
  destruct (a2b_char (urlsafe_translate (b64_char i))) as [j|]; [|discriminate].
  repeat (apply andb_prop in A as [A ?]).
  apply N.eqb_eq in A as ->.
  repeat match goal with H : negb _ = true |- _ => apply negb_true_iff in H end. auto.
Qed.

Lemma a2b_step i s q left pads :
  i < 64 ->
  a2b_base64 (urlsafe_translate (b64_char i) :: s) q left pads =
  (if q =? 0 then a2b_base64 s 1 i 0
   else if q =? 1 then
     out <- a2b_base64 s 2 (i mod 16) 0 ;; Ok (byte_of (left * 4 + i / 16) :: out)
   else if q =? 2 then
     out <- a2b_base64 s 3 (i mod 4) 0 ;; Ok (byte_of (left * 16 + i / 4) :: out)
   else
     out <- a2b_base64 s 0 0 0 ;; Ok (byte_of (left * 64 + i) :: out)).
Proof.
  intros H. destruct (b64_char_facts i H) as (E1 & E2 & _).
  cbn [a2b_base64]. now rewrite E2, E1.
Qed.

Lemma list_ind3 {A} (P : list A -> Prop) :
  P [] -> (forall a, P [a]) -> (forall a b, P [a; b]) ->
  (forall a b c l, P l -> P (a :: b :: c :: l)) -> forall l, P l.
Proof.
  intros H0 H1 H2 H3.
  assert (G : forall n l, (length l <= n)%nat -> P l).
  { induction n as [|n IH]; intros l L; destruct l as [|a [|b [|c l]]]; cbn in L; auto; try lia.
    apply H3. apply IH. lia. }
  intros l. apply (G (length l)). lia.
Qed.

Lemma a64 a : bval a / 4 < 64.
Proof. pose proof (bval_lt a). apply N.div_lt_upper_bound; lia. Qed.
Ltac dm := Z.div_mod_to_equations; lia.
Lemma b64 a b : (bval a mod 4) * 16 + bval b / 16 < 64.
Proof. pose proof (bval_lt a); pose proof (bval_lt b). dm. Qed.
Lemma c64 b c : (bval b mod 16) * 4 + bval c / 64 < 64.
Proof. pose proof (bval_lt b); pose proof (bval_lt c). dm. Qed.
Lemma a64' a : (bval a mod 4) * 16 < 64.
Proof. pose proof (bval_lt a). dm. Qed.
Lemma b64' b : (bval b mod 16) * 4 < 64.
Proof. pose proof (bval_lt b). dm. Qed.
Lemma d64 c : bval c mod 64 < 64.
Proof. apply N.mod_upper_bound. lia. Qed.

Lemma byte_of_eq n b : n = bval b -> byte_of n = b.
Proof. intros ->. apply byte_of_bval. Qed.

Lemma a2b_encode v :
  a2b_base64 (map urlsafe_translate (urlsafe_b64encode v)) 0 0 0 = Ok v.
Proof.
  induction v as [|a|a b|a b c v IH] using list_ind3.
  - reflexivity.
  - cbn [urlsafe_b64encode map]. pose proof (bval_lt a).
    rewrite a2b_step by apply a64. cbn [N.eqb Pos.eqb].
    rewrite a2b_step by apply a64'. cbn [N.eqb Pos.eqb].
    change (urlsafe_translate x3d) with x3d.
    cbn [a2b_base64 byte_eqb]. change (byte_eqb x3d x3d) with true. cbv iota.
    change ((2 <=? 2) && (4 <=? 2 + (0 + 1))) with false.
    change (2 <=? 2) with true. cbv iota.
    change (true && (4 <=? 2 + (0 + 1 + 1))) with true. cbv iota. cbn [bind].
    f_equal. f_equal. apply byte_of_eq. dm.
  - cbn [urlsafe_b64encode map]. pose proof (bval_lt a). pose proof (bval_lt b).
    rewrite a2b_step by apply a64. cbn [N.eqb Pos.eqb].
    rewrite a2b_step by apply b64. cbn [N.eqb Pos.eqb].
    rewrite a2b_step by apply b64'. cbn [N.eqb Pos.eqb].
    change (urlsafe_translate x3d) with x3d.
    cbn [a2b_base64]. change (byte_eqb x3d x3d) with true. cbv iota.
    change ((2 <=? 3) && (4 <=? 3 + (0 + 1))) with true. cbv iota. cbn [bind].
    f_equal. f_equal; [apply byte_of_eq; dm|]. f_equal. apply byte_of_eq. dm.
  - cbn [urlsafe_b64encode map].
    pose proof (bval_lt a). pose proof (bval_lt b). pose proof (bval_lt c).
    rewrite a2b_step by apply a64. cbn [N.eqb Pos.eqb].
    rewrite a2b_step by apply b64. cbn [N.eqb Pos.eqb].
    rewrite a2b_step by apply c64. cbn [N.eqb Pos.eqb].
    rewrite a2b_step by apply d64. cbn [N.eqb Pos.eqb].
    rewrite IH. cbn [bind].
    f_equal. f_equal; [apply byte_of_eq; dm|]. f_equal; [apply byte_of_eq; dm|].
    f_equal. apply byte_of_eq. dm.
Qed.

(** Removing '=' and padding with '=' to a multiple of four is the identity. *)
Lemma encode_pad_shape v :
  exists body k, urlsafe_b64encode v = body ++ repeat x3d k /\ (k < 4)%nat /\
    Forall (fun c => b64_alphabet_b c = true /\ byte_eqb c x3d = false) body /\
    blen (urlsafe_b64encode v) mod 4 = 0.
Proof.
  assert (G : forall i, i < 64 -> b64_alphabet_b (b64_char i) = true /\ byte_eqb (b64_char i) x3d = false).
  { intros i Hi. destruct (b64_char_facts i Hi) as (_ & _ & ? & ?). auto. }
  induction v as [|a|a b|a b c v IH] using list_ind3.
  - exists [], O. repeat split; auto; lia.
  - eexists [_; _], 2%nat. cbn [urlsafe_b64encode]. split; [reflexivity|].
    split; [lia|]. split; [|reflexivity].
    repeat (apply Forall_cons; [apply G|]); [apply a64|apply a64'|constructor].
  - eexists [_; _; _], 1%nat. cbn [urlsafe_b64encode]. split; [reflexivity|].
    split; [lia|]. split; [|reflexivity].
    repeat (apply Forall_cons; [apply G|]); [apply a64|apply b64|apply b64'|constructor].
  - destruct IH as (body & k & E & Hk & HF & Hm). cbn [urlsafe_b64encode]. rewrite E in *.
    eexists (_ :: _ :: _ :: _ :: body), k. split; [reflexivity|]. split; [exact Hk|]. split.
    + repeat (apply Forall_cons; [apply G|]); [apply a64|apply b64|apply c64|apply d64|exact HF].
    + rewrite !blen_cons. rewrite blen_app, blen_repeat in *.
      set (q := blen body + N.of_nat k) in *. clearbody q. dm.
Qed.

Lemma filter_body body :
  Forall (fun c => b64_alphabet_b c = true /\ byte_eqb c x3d = false) body ->
  filter (fun c => negb (byte_eqb c x3d)) body = body.
Proof.
  induction 1 as [|c l [_ Hc] _ IH]; [reflexivity|]. cbn. rewrite Hc. cbn. now rewrite IH.
Qed.
Lemma filter_pads k : filter (fun c => negb (byte_eqb c x3d)) (repeat x3d k) = [].
Proof. induction k; [reflexivity|]. cbn. exact IHk. Qed.

Lemma urlsafe_roundtrip v : urlsafe_to_bytes (bytes_to_urlsafe v) = Ok v.
Proof.
  destruct (encode_pad_shape v) as (body & k & E & Hk & HF & Hm).
  unfold urlsafe_to_bytes, bytes_to_urlsafe. rewrite E.
  rewrite filter_app, filter_body, filter_pads, app_nil_r by exact HF.
  assert (HP : fullblock_ljust body 4 [x3d] = Ok (body ++ repeat x3d k)).
  { apply fullblock_ljust_ok. exists x3d, k.
    split; [reflexivity|]. split; [discriminate|]. split; [reflexivity|].
    split; [lia|]. now rewrite <- E. }
  rewrite HP. cbn [bind]. rewrite <- E. apply a2b_encode.
Qed.

Lemma urlsafe_alphabet v : Forall (fun c => b64_alphabet_b c = true) (bytes_to_urlsafe v).
Proof.
  destruct (encode_pad_shape v) as (body & k & E & Hk & HF & Hm).
  unfold bytes_to_urlsafe. rewrite E.
  rewrite filter_app, filter_body, filter_pads, app_nil_r by exact HF.
  eapply Forall_impl; [|exact HF]. intros c [H _]. exact H.
Qed.

Lemma urlsafe_inj a b : bytes_to_urlsafe a = bytes_to_urlsafe b -> a = b.
Proof.
  intros H. pose proof (urlsafe_roundtrip a) as Ha. pose proof (urlsafe_roundtrip b) as Hb.
  rewrite H in Ha. congruence.
Qed.
