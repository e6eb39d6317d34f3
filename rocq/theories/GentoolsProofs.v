From Verif Require Import Base BaseFacts GentoolsModel GentoolsSpec.
Local Open Scope N_scope.

Lemma take_nonempty {A} n (l : list A) : 0 < n -> l <> [] -> take n l <> [].
Proof.
  intros Hn Hl E. apply (f_equal blen) in E. rewrite blen_take, blen_nil in E.
  destruct l; [congruence|]. rewrite blen_cons in E. lia.
Qed.
Lemma drop_shorter {A} n (l : list A) : 0 < n -> l <> [] -> (length (drop n l) < length l)%nat.
Proof.
  intros Hn Hl. pose proof (blen_drop n l) as E. unfold blen in E.
  destruct l; [congruence|]. cbn [length] in *. lia.
Qed.

Lemma batch_loop_fuel size : 0 < size -> forall f1 f2 rem,
  (length rem < f1)%nat -> (length rem < f2)%nat ->
  batch_loop f1 size rem = batch_loop f2 size rem.
Proof.
  intros Hs. induction f1 as [|f1 IH]; intros [|f2] rem H1 H2; try lia.
  cbn [batch_loop]. destruct (take size rem) as [|x l] eqn:E; [reflexivity|].
  assert (rem <> []) by (intros ->; rewrite take_firstn, firstn_nil in E; discriminate).
  f_equal. pose proof (drop_shorter size rem Hs H). apply IH; lia.
Qed.

Lemma batch_nil size : batch [] size = [].
Proof. unfold batch. cbn [batch_loop length]. rewrite take_firstn, firstn_nil. reflexivity. Qed.

Lemma batch_step size l : 0 < size -> l <> [] ->
  batch l size = take size l :: batch (drop size l) size.
Proof.
  intros Hs Hl. unfold batch at 1. cbn [batch_loop].
  pose proof (take_nonempty size l Hs Hl) as Ht.
  destruct (take size l) as [|x t]; [congruence|]. f_equal.
  unfold batch. pose proof (drop_shorter size l Hs Hl).
  apply batch_loop_fuel; lia.
Qed.

Lemma batch_cons size b l : 0 < size -> blen b = size -> batch (b ++ l) size = b :: batch l size.
Proof.
  intros Hs Hb. rewrite batch_step; [|assumption|].
  - now rewrite take_app, drop_app.
  - destruct b; [rewrite blen_nil in Hb; lia|discriminate].
Qed.

Lemma batch_blocks size bs : 0 < size -> Forall (fun b => blen b = size) bs ->
  batch (concat bs) size = bs.
Proof.
  intros Hs F. induction F as [|b bs Hb F IH]; [apply batch_nil|].
  cbn [concat]. rewrite batch_cons by assumption. now rewrite IH.
Qed.

Lemma batch_last size l : 0 < blen l <= size -> batch l size = [l].
Proof.
  intros H. rewrite batch_step; [|lia|intros ->; rewrite (@blen_nil byte) in H; lia].
  rewrite take_all, drop_all by lia. now rewrite batch_nil.
Qed.

Lemma batch_ind_len {A} (P : list A -> Prop) size : 0 < size ->
  P [] -> (forall l, l <> [] -> P (drop size l) -> P l) -> forall l, P l.
Proof.
  intros Hs H0 H1 l.
  remember (length l) as n eqn:E. revert l E.
  induction n as [n IH] using (well_founded_induction lt_wf). intros l ->.
  destruct l as [|x l]; [exact H0|].
  apply H1; [discriminate|]. eapply IH; [|reflexivity].
  apply drop_shorter; [assumption|discriminate].
Qed.

Lemma batch_concat size l : 0 < size -> concat (batch l size) = l.
Proof.
  intros Hs. pattern l; apply (batch_ind_len _ size Hs); clear l; [|intros l Hl IH].
  - now rewrite batch_nil.
  - rewrite batch_step by assumption. cbn [concat]. rewrite IH. apply take_drop.
Qed.

Lemma batch_chunked size l : 0 < size -> chunked size l (batch l size).
Proof.
  intros Hs. pattern l; apply (batch_ind_len _ size Hs); clear l; [|intros l Hl IH].
  - rewrite batch_nil. constructor.
  - destruct (N.le_gt_cases (blen l) size) as [L|G].
    + rewrite batch_last.
      * constructor. destruct l; [congruence|]. rewrite blen_cons in *. lia.
      * destruct l; [congruence|]. rewrite blen_cons in *. lia.
    + rewrite batch_step by assumption. rewrite <- (take_drop size l) at 1.
      constructor; [rewrite blen_take; lia| |assumption].
      intros E. apply (f_equal blen) in E. rewrite blen_drop, blen_nil in E. lia.
Qed.

Lemma batch_full size l : 0 < size -> blen l mod size = 0 ->
  Forall (fun b => blen b = size) (batch l size).
Proof.
  intros Hs. pattern l; apply (batch_ind_len _ size Hs); clear l; [|intros l Hl IH]; intros Hm.
  - rewrite batch_nil. constructor.
  - assert (size <= blen l).
    { destruct (N.le_gt_cases size (blen l)); [assumption|].
      rewrite N.mod_small in Hm by assumption. apply blen_0 in Hm. congruence. }
    rewrite batch_step by assumption. constructor.
    + rewrite blen_take. lia.
    + apply IH. rewrite blen_drop.
      rewrite <- (N.mod_add (blen l - size) 1 size) by lia.
      replace (blen l - size + 1 * size) with (blen l) by lia. exact Hm.
Qed.

Lemma batch_app size a b : 0 < size -> blen a mod size = 0 ->
  batch (a ++ b) size = batch a size ++ batch b size.
Proof.
  intros Hs Hm. pose proof (batch_full size a Hs Hm) as F.
  rewrite <- (batch_concat size a Hs) at 1.
  induction F as [|x xs Hx F IH]; [reflexivity|].
  cbn [concat app]. rewrite <- app_assoc, batch_cons by assumption. now rewrite IH.
Qed.

Lemma chunked_fun {A} n (l : list A) x y : 0 < n -> chunked n l x -> chunked n l y -> x = y.
Proof.
  intros Hn Hx. revert y. induction Hx as [|l Hl|b l cs Hb Hl Hx IH]; intros y Hy.
  - inversion Hy as [|m Hm|b l cs Hb Hl Hy']; subst; [reflexivity|unfold blen in Hm; cbn in Hm; lia|].
    destruct b; [unfold blen in Hn; cbn in Hn; lia|discriminate].
  - inversion Hy as [|m Hm|b l' cs Hb Hl' Hy']; subst; [unfold blen in Hl; cbn in Hl; lia|reflexivity|].
    rewrite blen_app in Hl. assert (blen l' = 0) by lia. apply blen_0 in H. congruence.
  - assert (0 < blen l) by (destruct l; [congruence|rewrite blen_cons; lia]).
    remember (b ++ l) as m eqn:Em.
    destruct Hy as [|m Hm|b' l' cs' Hb' Hl' Hy'].
    + apply (f_equal blen) in Em. rewrite blen_app, blen_nil in Em. lia.
    + apply (f_equal blen) in Em. rewrite blen_app in Em. lia.
    + apply app_inj_len in Em as [-> ->]; [|unfold blen in *; lia]. f_equal. now apply IH.
Qed.

(** ** resize *)
Lemma ceil_div_add_mul a k n : 0 < n -> ceil_div (a + k * n) n = ceil_div a n + k.
Proof.
  intros Hn. unfold ceil_div.
  destruct (N.eq_dec a 0) as [->|Ha].
  - replace (0 + k * n + n - 1) with (n - 1 + k * n) by lia. rewrite N.div_add by lia.
    replace (0 + n - 1) with (n - 1) by lia. reflexivity.
  - replace (a + k * n + n - 1) with (a + n - 1 + k * n) by lia. now rewrite N.div_add by lia.
Qed.
Lemma ceil_div_0 n : 0 < n -> ceil_div 0 n = 0.
Proof. intros. unfold ceil_div. apply N.div_small. lia. Qed.
Lemma ceil_div_small a n : 0 < a <= n -> ceil_div a n = 1.
Proof.
  intros. unfold ceil_div. replace (a + n - 1) with (a - 1 + 1 * n) by lia.
  rewrite N.div_add by lia. rewrite N.div_small by lia. reflexivity.
Qed.

Fixpoint ranges (i size : N) (k : nat) : list (N * N) :=
  match k with O => [] | S k' => (i, i + size) :: ranges (i + size) size k' end.

Lemma combine_ranges size : forall k1 k2 i, (k2 <= k1)%nat ->
  combine (map (fun j => i + N.of_nat j * size) (seq 0 k1))
          (map (fun j => i + size + N.of_nat j * size) (seq 0 k2)) = ranges i size k2.
Proof.
  intros k1 k2 i H.
  assert (G : forall k2 k1 s, (k2 <= k1)%nat ->
    combine (map (fun j => i + N.of_nat j * size) (seq s k1))
            (map (fun j => i + size + N.of_nat j * size) (seq s k2))
    = ranges (i + N.of_nat s * size) size k2).
  { clear. induction k2 as [|k2 IH]; intros k1 s H.
    - cbn [seq map]. destruct (map _ _); reflexivity.
    - destruct k1 as [|k1]; [lia|]. cbn [seq map combine ranges].
      rewrite IH by lia. f_equal; [f_equal; lia|f_equal; lia]. }
  rewrite G by assumption. f_equal. lia.
Qed.

Definition cuts {A} (i size : N) (k : nat) (l : list A) :=
  map (fun '(a, b) => slice a b l) (ranges i size k).

Lemma skipn_add {A} a b (l : list A) : skipn (a + b) l = skipn b (skipn a l).
Proof. revert l. induction a as [|a IH]; intros [|x l]; cbn; [reflexivity|reflexivity|now rewrite skipn_nil|apply IH]. Qed.
Lemma slice_drop {A} i j n (l : list A) : slice (n + i) (n + j) l = slice i j (drop n l).
Proof.
  unfold slice. rewrite !drop_skipn, !take_firstn.
  rewrite firstn_skipn_comm.
  replace (N.to_nat (n + i)) with (N.to_nat n + N.to_nat i)%nat by lia.
  rewrite skipn_add. do 3 f_equal. lia.
Qed.

Lemma cuts_shift {A} size : forall k i (l : list A), cuts (size + i) size k l = cuts i size k (drop size l).
Proof.
  unfold cuts. induction k as [|k IH]; intros i l; [reflexivity|].
  cbn [ranges map]. rewrite <- N.add_assoc, slice_drop. f_equal. apply IH.
Qed.

Lemma drop_chunk {A} size (l : list A) m : blen (take (size + m) l) = N.min (size + m) (blen l).
Proof. apply blen_take. Qed.

Lemma take_take_drop {A} a b (l : list A) : take (a + b) l = take a l ++ take b (drop a l).
Proof.
  rewrite !take_firstn, drop_skipn.
  replace (N.to_nat (a + b)) with (N.to_nat a + N.to_nat b)%nat by lia.
  remember (N.to_nat a) as n. remember (N.to_nat b) as m. clear.
  revert l. induction n as [|n IH]; intros [|x l]; cbn; [reflexivity|reflexivity|now rewrite firstn_nil|].
  now rewrite IH.
Qed.

Lemma cuts_chunked {A} size : 0 < size -> forall k (l : list A),
  N.of_nat k <= ceil_div (blen l) size ->
  chunked size (take (N.of_nat k * size) l) (cuts 0 size k l).
Proof.
  intros Hs. induction k as [|k IH]; intros l Hk.
  - replace (N.of_nat 0 * size) with 0 by lia. rewrite take_0. constructor.
  - assert (E : cuts 0 size (S k) l = take size l :: cuts 0 size k (drop size l)).
    { rewrite <- cuts_shift. unfold cuts. cbn [ranges map].
      unfold slice at 1. rewrite drop_0, N.add_0_l, N.add_0_r. reflexivity. }
    rewrite E.
    assert (Hl : 0 < blen l).
    { destruct (N.eq_dec (blen l) 0) as [Z|]; [|lia]. rewrite Z, ceil_div_0 in Hk by lia. lia. }
    replace (N.of_nat (S k) * size) with (size + N.of_nat k * size) by lia.
    rewrite take_take_drop.
    destruct (N.le_gt_cases (blen l) size) as [L|G].
    + rewrite ceil_div_small in Hk by lia. assert (k = 0%nat) by lia. subst k.
      replace (N.of_nat 0 * size) with 0 by lia. rewrite take_0, app_nil_r.
      rewrite take_all by assumption. constructor. lia.
    + destruct k as [|k].
      * replace (N.of_nat 0 * size) with 0 by lia. rewrite take_0, app_nil_r.
        constructor. rewrite blen_take. lia.
      * constructor; [rewrite blen_take; lia| |].
        -- apply take_nonempty; [lia|]. intros Z. apply (f_equal blen) in Z.
           rewrite blen_drop, blen_nil in Z. lia.
        -- apply IH. rewrite blen_drop.
           replace (blen l) with (blen l - size + 1 * size) in Hk by lia.
           rewrite ceil_div_add_mul in Hk by lia. lia.
Qed.

Lemma resize_chunked {A} (s : list A) size blocks out :
  resize s size blocks = Ok out ->
  0 < size /\
  chunked size (match blocks with None => s | Some b => take (b * size) s end) out.
Proof.
  unfold resize. destruct (N.ltb_spec size 1) as [|Hs]; [discriminate|].
  destruct (match blocks with Some b => b <? 1 | None => false end) eqn:Hb; [discriminate|].
  intros E. apply Ok_inj in E. split; [lia|].
  assert (Hsz : 0 < size) by lia.
  assert (Whole : chunked size s (map (fun '(previous_end, end_) => slice previous_end end_ s)
            (combine (py_range 0 (blen s + size) size) (py_range size (blen s + size) size)))).
  { unfold py_range.
    replace (blen s + size - size) with (blen s) by lia.
    replace (blen s + size - 0) with (blen s + 1 * size) by lia.
    rewrite ceil_div_add_mul by lia.
    change (fun i : nat => size + N.of_nat i * size) with (fun i : nat => 0 + size + N.of_nat i * size).
    rewrite combine_ranges by lia.
    pose proof (ceil_div_mul_ge (blen s) size ltac:(lia)) as Ge.
    pose proof (cuts_chunked size Hsz (N.to_nat (ceil_div (blen s) size)) s ltac:(lia)) as C.
    rewrite take_all in C by lia. exact C. }
  destruct blocks as [b|]; [|now subst out].
  destruct (N.leb_spec (blen s) (b * size)) as [L|G].
  - rewrite take_all by assumption. now subst out.
  - subst out. unfold py_range.
    assert (1 <= b) by lia.
    replace (b * size + 1 - 0) with (1 + b * size) by lia.
    replace (b * size + 1 - size) with (1 + (b - 1) * size) by (assert (size <= b * size) by nia; nia).
    rewrite !ceil_div_add_mul by lia. rewrite (ceil_div_small 1) by lia.
    change (fun i : nat => size + N.of_nat i * size) with (fun i : nat => 0 + size + N.of_nat i * size).
    rewrite combine_ranges by lia.
    replace (N.to_nat (1 + (b - 1))) with (N.to_nat b) by lia.
    pose proof (cuts_chunked size Hsz (N.to_nat b) s) as C.
    rewrite N2Nat.id in C. apply C.
    pose proof (ceil_div_mul_ge (blen s) size ltac:(lia)). nia.
Qed.

Lemma chunked_concat {A} n (l : list A) x : chunked n l x -> concat x = l.
Proof.
  induction 1 as [|l Hl|b l cs Hb Hl Hx IH]; cbn; [reflexivity|apply app_nil_r|now rewrite IH].
Qed.

(** ** cycle *)
Lemma cycle_nth {A} (l : list A) (d : A) : l <> [] -> forall n i, (i < n)%nat ->
  nth i (cycle l n) d = nth (i mod length l) l d.
Proof.
  intros Hl. unfold cycle.
  set (go := fix go (n : nat) (cur : list A) {struct n} : list A := _).
  assert (G : forall n cur pre i, l = pre ++ cur -> (i < n)%nat ->
    nth i (go n cur) d = nth ((length pre + i) mod length l) l d).
  { induction n as [|n IH]; intros cur pre i E Hi; [lia|].
    assert (Ll : length l <> 0%nat) by (destruct l; [congruence|cbn; lia]).
    destruct cur as [|x cur].
    - rewrite app_nil_r in E. subst pre. destruct l as [|x l']; [congruence|].
      cbn [go]. destruct i as [|i].
      + replace (length (x :: l') + 0)%nat with (0 + 1 * length (x :: l'))%nat by lia.
        rewrite Nat.mod_add by assumption. rewrite Nat.mod_small by (cbn; lia). reflexivity.
      + cbn [nth]. rewrite (IH l' [x] i eq_refl) by lia.
        f_equal. replace (length (x :: l') + S i)%nat with (length [x] + i + 1 * length (x :: l'))%nat by (cbn; lia).
        now rewrite Nat.mod_add by assumption.
    - cbn [go]. destruct i as [|i].
      + cbn [nth]. subst l. rewrite Nat.add_0_r, Nat.mod_small by (rewrite app_length; cbn; lia).
        rewrite app_nth2, Nat.sub_diag by lia. reflexivity.
      + cbn [nth]. rewrite (IH cur (pre ++ [x]) i); [|subst l; now rewrite <- app_assoc|lia].
        rewrite app_length. cbn [length]. f_equal. f_equal. lia. }
  intros n i Hi. rewrite (G n l [] i eq_refl Hi). reflexivity.
Qed.

Lemma cycle_length {A} (l : list A) : l <> [] -> forall n, length (cycle l n) = n.
Proof.
  intros Hl. unfold cycle.
  set (go := fix go (n : nat) (cur : list A) {struct n} : list A := _).
  assert (G : forall n cur, length (go n cur) = n).
  { induction n as [|n IH]; intros cur; [reflexivity|]. cbn [go].
    destruct cur as [|x cur]; [destruct l as [|x l']; [congruence|]|]; cbn [length]; now rewrite IH. }
  intros n. apply G.
Qed.

Lemma bytes_count_spec : forall n index size l,
  bytes_count n index size = Ok l ->
  length l = n /\
  forall i x, nth_error l i = Some x -> blen x = size /\ be_int x = index + N.of_nat i.
Proof.
  induction n as [|n IH]; intros index size l H; cbn [bytes_count] in H.
  - apply Ok_inj in H. subst l. split; [reflexivity|]. intros [|i] x; discriminate.
  - apply bind_ok in H as (x & Hx & H). apply bind_ok in H as (xs & Hxs & H).
    apply Ok_inj in H. subst l. destruct (IH _ _ _ Hxs) as [L G]. split; [cbn; lia|].
    intros [|i] y Hy; cbn in Hy.
    + injection Hy as <-. split; [eapply to_bytes_be_len; eassumption|].
      rewrite (to_bytes_be_int _ _ _ Hx). lia.
    + destruct (G _ _ Hy) as [? E]. split; [assumption|]. rewrite E. lia.
Qed.

Lemma bytes_count_total : forall n index size, index + N.of_nat n <= 256 ^ size ->
  exists l, bytes_count n index size = Ok l.
Proof.
  induction n as [|n IH]; intros index size H; [eexists; reflexivity|].
  cbn [bytes_count]. rewrite to_bytes_be_fit by lia. cbn [bind].
  destruct (IH (index + 1) size ltac:(lia)) as [l ->]. eexists; reflexivity.
Qed.
