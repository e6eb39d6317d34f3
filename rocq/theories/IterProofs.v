(** * Proofs about generators over other iterators *)
From Coq Require Import Lia ZifyBool ZifyNat ZifyN.
From Verif Require Import Base BaseFacts IterModel IterSpec.

Section Proofs.
Context {A : Type}.
Definition rest (s : source A) : source A := {| items := tl (items s); fault := fault s |}.
Definition drained (s : source A) : source A := match fault s with Some _ => {| items := []; fault := None |} | None => s end.

Lemma azip_row (l : list (source A)) : (forall s, In s l -> items s <> []) ->
  exists row, azip_next l = (Item row, map rest l) /\ row_of l 0 row.
Proof.
  induction l as [| s l IH]; intros H; [exists []; split; [reflexivity | constructor] |].
  destruct IH as [row [E R]]; [intros t I; apply H; now right |].
  cbn [azip_next]. unfold unpack_next, pull. destruct (items s) as [| x xs] eqn:Es; [destruct (H s (or_introl eq_refl) Es) |].
  rewrite E. exists (x :: row). split; [cbn [map]; change (rest s) with {| items := tl (items s); fault := fault s |}; rewrite Es; reflexivity |]. constructor; [rewrite Es; reflexivity | exact R].
Qed.
Lemma azip_stop (l : list (source A)) : forall j s, nth_error l j = Some s -> items s = [] ->
  (forall i t, (i < j)%nat -> nth_error l i = Some t -> items t <> []) ->
  azip_next l = (match fault s with None => Stop | Some e => Fault e end, map rest (firstn j l) ++ drained s :: skipn (S j) l).
Proof.
  induction l as [| t l IH]; intros j s E Es H; [destruct j; discriminate |]. cbn [azip_next]. unfold unpack_next, pull.
  destruct j as [| j].
  - injection E as ->. rewrite Es. unfold drained. destruct (fault s); reflexivity.
  - assert (Ht : items t <> []) by (apply (H 0%nat t); [lia | reflexivity]).
    rewrite (IH j s E Es) by (intros i u L Eu; apply (H (S i) u); [lia | exact Eu]).
    destruct (items t) as [| x xs] eqn:Et; [congruence |]. cbn [firstn map app].
    change (rest t) with {| items := tl (items t); fault := fault t |}. rewrite Et. cbn [tl]. destruct (fault s); reflexivity.
Qed.

Lemma drive_S {B T} (next : T -> pulled B * T) n x : drive next (S n) x =
  match next x with
  | (Item v, x) => let '(l, st, x) := drive next n x in (v :: l, st, x)
  | (Stop, x) => ([], Ended, x)
  | (Fault e, x) => ([], Failed e, x)
  end.
Proof. reflexivity. Qed.

Lemma row_rest (l : list (source A)) k row : row_of (map rest l) k row -> row_of l (S k) row.
Proof.
  unfold row_of. intros H. remember (map rest l) as l' eqn:E. revert l E. induction H as [| s x l' row Hs H IH]; intros [| t l] E; try discriminate; constructor.
  - injection E as -> _. cbn in Hs. destruct (items t); [destruct k; discriminate | exact Hs].
  - apply IH. now injection E.
Qed.

(** Behind the end of the shortest one. *)
Lemma azip_ends n : forall (l : list (source A)) j s, first_shortest l j s -> (length (items s) < n)%nat ->
  exists rows l', drive azip_next n l = (rows, ending (fault s), l') /\ length rows = length (items s) /\
    (forall k row, nth_error rows k = Some row -> row_of l k row) /\
    (length l' = length l) /\
    (forall i t t', nth_error l i = Some t -> nth_error l' i = Some t' ->
       items t' = skipn (length (items s) + if (i <? j)%nat then 1 else 0) (items t)).
Proof.
  induction n as [| n IH]; intros l j s [E [Le Lt]] Ln; [lia |].
  destruct (items s) as [| x xs] eqn:Es.
  - rewrite drive_S, (azip_stop l j s E Es).
    2: { intros i t Li Et C. pose proof (Lt i t Li Et) as L. rewrite C in L. cbn in L. lia. }
    exists [], (map rest (firstn j l) ++ drained s :: skipn (S j) l).
    assert (Lj : (j < length l)%nat) by (apply nth_error_Some; congruence).
    assert (Lf : length (map rest (firstn j l)) = j) by (rewrite map_length, firstn_length; lia).
    split; [unfold ending; destruct (fault s); reflexivity |]. split; [reflexivity |].
    split; [intros [|] row; discriminate |]. split; [rewrite app_length, Lf; cbn [length]; rewrite skipn_length; lia |].
    intros i t t' Et Et'. cbn [length Nat.add].
    destruct (Nat.ltb_spec i j) as [C | C].
    + rewrite nth_error_app1 in Et' by (rewrite Lf; exact C).
      assert (Ef : nth_error (firstn j l) i = Some t).
      { rewrite <- (firstn_skipn j l) in Et. rewrite nth_error_app1 in Et; [exact Et | rewrite firstn_length; lia]. }
      rewrite (map_nth_error rest _ _ Ef) in Et'. injection Et' as <-. cbn. destruct (items t); reflexivity.
    + rewrite nth_error_app2 in Et' by (rewrite Lf; exact C). rewrite Lf in Et'. cbn [skipn].
      destruct (i - j)%nat as [| m] eqn:M.
      * cbn in Et'. injection Et' as <-. assert (i = j) as -> by lia. rewrite E in Et. injection Et as <-. rewrite Es. unfold drained. destruct (fault s); [reflexivity | exact Es].
      * cbn [nth_error] in Et'. rewrite <- (firstn_skipn (S j) l) in Et. rewrite nth_error_app2 in Et by (rewrite firstn_length; lia).
        rewrite firstn_length in Et. replace (i - Nat.min (S j) (length l))%nat with m in Et by lia. congruence.
  - destruct (azip_row l) as [row [Er Rr]].
    { intros t I C. apply In_nth_error in I. destruct I as [i Et]. pose proof (Le i t Et) as L. rewrite C in L. cbn in L. lia. }
    rewrite drive_S, Er.
    assert (FS : first_shortest (map rest l) j (rest s)).
    { split; [now apply map_nth_error |]. split.
      - intros i t' Et'. destruct (nth_error l i) as [t |] eqn:Et.
        + rewrite (map_nth_error rest _ _ Et) in Et'. injection Et' as <-. pose proof (Le i t Et) as L. cbn. rewrite Es. destruct (items t); cbn in *; lia.
        + apply nth_error_None in Et. rewrite <- (map_length rest) in Et. apply nth_error_None in Et. congruence.
      - intros i t' Li Et'. destruct (nth_error l i) as [t |] eqn:Et.
        + rewrite (map_nth_error rest _ _ Et) in Et'. injection Et' as <-. pose proof (Lt i t Li Et) as L. cbn. rewrite Es. destruct (items t); cbn in *; lia.
        + apply nth_error_None in Et. rewrite <- (map_length rest) in Et. apply nth_error_None in Et. congruence. }
    destruct (IH (map rest l) j (rest s) FS) as [rows [l' [Ed [Lr [Rw [Ll Lv]]]]]].
    { cbn. rewrite Es. cbn in *. lia. }
    rewrite Ed. exists (row :: rows), l'. cbn [rest fault items] in *. rewrite Es in *. cbn [tl] in *.
    split; [reflexivity |]. split; [cbn; now rewrite Lr |]. split; [| split].
    + intros [| k] r H; [injection H as <-; exact Rr |]. apply row_rest. now apply Rw.
    + rewrite Ll. apply map_length.
    + intros i t t' Et Et'. rewrite (Lv i (rest t) t' (map_nth_error rest _ _ Et) Et'). cbn [rest items].
      cbn [length Nat.add]. destruct (items t); [cbn [tl]; now rewrite !skipn_nil | reflexivity].
Qed.

(** Before that. *)
Lemma azip_goes n : forall (l : list (source A)), (forall t, In t l -> (n <= length (items t))%nat) ->
  exists rows l', drive azip_next n l = (rows, Going, l') /\ length rows = n /\ forall k row, nth_error rows k = Some row -> row_of l k row.
Proof.
  induction n as [| n IH]; intros l H; [exists [], l; split; [reflexivity |]; split; [reflexivity |]; intros [|] row; discriminate |].
  destruct (azip_row l) as [row [Er Rr]]; [intros t I C; pose proof (H t I) as L; rewrite C in L; cbn in L; lia |].
  destruct (IH (map rest l)) as [rows [l' [Ed [Lr Rw]]]].
  { intros t' I. apply in_map_iff in I. destruct I as [t [<- I]]. pose proof (H t I) as L. cbn. destruct (items t); cbn in *; lia. }
  rewrite drive_S, Er, Ed. exists (row :: rows), l'. split; [reflexivity |]. split; [cbn; now rewrite Lr |].
  intros [| k] r E; [injection E as <-; exact Rr |]. apply row_rest. now apply Rw.
Qed.
Lemma shortest_exists (l : list (source A)) : l <> [] -> exists j s, first_shortest l j s.
Proof.
  induction l as [| t l IH]; [congruence |]. intros _. destruct l as [| u l].
  - exists 0%nat, t. split; [reflexivity |]. split; [intros [| [|]] v [=]; subst; lia | intros i v L; lia].
  - destruct IH as [j [s [E [Le Lt]]]]; [discriminate |].
    destruct (Nat.leb_spec (length (items t)) (length (items s))) as [C | C].
    + exists 0%nat, t. split; [reflexivity |]. split; [| intros i v L; lia]. intros [| i] v Ev; [injection Ev as ->; lia |]. pose proof (Le i v Ev). lia.
    + exists (S j), s. split; [exact E |]. split.
      * intros [| i] v Ev; [injection Ev as <-; lia | exact (Le i v Ev)].
      * intros [| i] v L Ev; [injection Ev as <-; lia | apply (Lt i v); [lia | exact Ev]].
Qed.

Lemma unpack_drive n : forall s : source A, exists s',
  drive unpack_next n s = (firstn n (items s), if (n <=? length (items s))%nat then Going else ending (fault s), s') /\
  items s' = skipn n (items s).
Proof.
  induction n as [| n IH]; intros s; [exists s; split; reflexivity |].
  rewrite drive_S. destruct (items s) as [| x l] eqn:E.
  - assert (P : unpack_next s = (match fault s with Some e => (Fault e, {| items := []; fault := None |}) | None => (Stop, s) end)) by (unfold unpack_next, pull; rewrite E; reflexivity).
    rewrite P. destruct (fault s); [eexists; split; reflexivity |]. exists s. split; [reflexivity | exact E].
  - assert (P : unpack_next s = (Item x, {| items := l; fault := fault s |})) by (unfold unpack_next, pull; rewrite E; reflexivity).
    rewrite P. destruct (IH {| items := l; fault := fault s |}) as [s' [Ed Es]]. rewrite Ed. exists s'. split; [reflexivity | exact Es].
Qed.

Lemma collate_drive n : forall l : list (source A),
  fst (drive collate_next n l) = (firstn n (fst (in_turn l)), if (n <=? length (fst (in_turn l)))%nat then Going else ending (snd (in_turn l))).
Proof.
  induction n as [| n IH]; intros l; [reflexivity |].
  rewrite drive_S. induction l as [| s l IHl]; [reflexivity |]. cbn [collate_next in_turn]. unfold pull.
  destruct (items s) as [| x xs] eqn:E.
  - destruct (fault s) as [e |]; [reflexivity |]. cbn [app]. destruct (fst (in_turn l)) eqn:E1; destruct (snd (in_turn l)) eqn:E2; cbn [fst snd] in *; exact IHl.
  - specialize (IH ({| items := xs; fault := fault s |} :: l)). cbn [in_turn items fault] in IH.
    destruct (drive collate_next n ({| items := xs; fault := fault s |} :: l)) as [[o st] l']. cbn [fst] in IH |- *. injection IH as -> ->.
    destruct (fault s); reflexivity.
Qed.

Lemma popleft_app (q : list A) a b : popleft_run q (a ++ b) = fold_left popleft_step b (popleft_run q a).
Proof. apply fold_left_app. Qed.
Lemma appended_app (a b : list (queue_event A)) : appended (a ++ b) = appended a ++ appended b.
Proof. apply flat_map_app. Qed.
Lemma popleft_all (q : list A) es : yielded (popleft_run q es) ++ queue (popleft_run q es) = q ++ appended es.
Proof.
  induction es as [| e es IH] using rev_ind; [cbn; now rewrite app_nil_r |].
  rewrite popleft_app, appended_app, app_assoc, <- IH. cbn [fold_left]. set (p := popleft_run q es).
  destruct e as [| x]; cbn.
  - rewrite app_nil_r. destruct (over p); [reflexivity |]. destruct (queue p) as [| x r]; cbn; [reflexivity | now rewrite <- app_assoc].
  - now rewrite <- app_assoc.
Qed.
Lemma popleft_over (q : list A) es : over (popleft_run q es) = true ->
  exists a b, es = a ++ Next :: b /\ yielded (popleft_run q es) = q ++ appended a /\ queue (popleft_run q es) = appended b.
Proof.
  induction es as [| e es IH] using rev_ind; [discriminate |].
  pose proof (popleft_all q es) as All. rewrite popleft_app. cbn [fold_left]. set (p := popleft_run q es) in *. intros H.
  destruct e as [| x]; cbn in H |- *.
  - destruct (over p) eqn:O.
    + destruct (IH eq_refl) as [a [b [-> [Y Q]]]]. exists a, (b ++ [Next]). split; [now rewrite <- app_assoc |]. split; [exact Y |].
      rewrite appended_app. cbn. now rewrite app_nil_r.
    + destruct (queue p) as [| z r] eqn:Eq; [| cbn in H; discriminate]. exists es, []. split; [reflexivity |]. cbn. split; [| reflexivity].
      now rewrite app_nil_r in All.
  - destruct (IH H) as [a [b [-> [Y Q]]]]. exists a, (b ++ [Append x]). split; [now rewrite <- app_assoc |]. split; [exact Y |].
    rewrite appended_app, Q. reflexivity.
Qed.
End Proofs.

Lemma count_drive n : forall start, drive count_next n start = (map (fun i => start + Z.of_nat i)%Z (seq 0 n), Going, (start + Z.of_nat n)%Z).
Proof.
  induction n as [| n IH]; intros start; [cbn; f_equal; lia |]. rewrite drive_S. cbn [count_next]. rewrite IH. f_equal; [f_equal | lia].
  cbn [seq map]. f_equal; [lia |]. rewrite <- seq_shift, map_map. apply map_ext. intros i. lia.
Qed.

Local Open Scope Z_scope.
Lemma range_in start stop step l z : py_range3 start stop step = Ok l ->
  In z l <-> exists i, 0 <= i /\ z = start + i * step /\ (0 < step -> z < stop) /\ (step < 0 -> stop < z).
Proof.
  unfold py_range3. destruct (Z.eqb_spec step 0) as [| D]; [discriminate |]. intros [=<-]. rewrite in_map_iff.
  destruct (Z.ltb_spec 0 step) as [P | P].
  - split.
    + intros [i [<- I]]. apply in_seq in I. exists (Z.of_nat i). split; [lia |]. split; [reflexivity |]. split; [intros _ | lia].
      assert (Z.of_nat i < (stop - start + step - 1) / step) as L by lia.
      assert (step * ((stop - start + step - 1) / step) <= stop - start + step - 1) by (apply Z.mul_div_le; lia). nia.
    + intros [i [I0 [-> [H _]]]]. specialize (H P). exists (Z.to_nat i). split; [lia |]. apply in_seq. split; [lia |].
      assert (i + 1 <= (stop - start + step - 1) / step); [| lia]. apply Z.div_le_lower_bound; lia.
  - split.
    + intros [i [<- I]]. apply in_seq in I. exists (Z.of_nat i). split; [lia |]. split; [reflexivity |]. split; [lia | intros _].
      assert (Z.of_nat i + 1 <= (start - stop - step - 1) / (- step)) as L by lia.
      assert ((- step) * ((start - stop - step - 1) / (- step)) <= start - stop - step - 1) by (apply Z.mul_div_le; lia). nia.
    + intros [i [I0 [-> [_ H]]]]. assert (S0 : step < 0) by lia. specialize (H S0). exists (Z.to_nat i). split; [lia |]. apply in_seq. split; [lia |].
      assert (i + 1 <= (start - stop - step - 1) / (- step)); [| lia]. apply Z.div_le_lower_bound; lia.
Qed.
Lemma range_nth start stop step l k z : py_range3 start stop step = Ok l -> nth_error l k = Some z -> z = start + Z.of_nat k * step.
Proof.
  unfold py_range3. destruct (step =? 0); [discriminate |]. intros [=<-] E.
  set (n := Z.to_nat _) in E. destruct (nth_error (seq 0 n) k) as [i |] eqn:Ei.
  - rewrite (map_nth_error _ _ _ Ei) in E. injection E as <-.
    assert (k < n)%nat by (rewrite <- (seq_length n 0); apply nth_error_Some; congruence).
    apply nth_error_nth with (d := 0%nat) in Ei. rewrite seq_nth in Ei by assumption. lia.
  - apply nth_error_None in Ei. assert (C : nth_error (map (fun i => start + Z.of_nat i * step) (seq 0 n)) k = None) by (apply nth_error_None; now rewrite map_length). congruence.
Qed.
Lemma to_bytes_each_ok size l : let '(bs, st) := to_bytes_each size l in
  Forall2 (fun z b => 0 <= z /\ blen b = size /\ Z.of_N (be_int b) = z) (firstn (length bs) l) bs /\
  match st with
  | Ended => length bs = length l
  | Failed e => e = OverflowErr /\ exists z, nth_error l (length bs) = Some z /\ (z < 0 \/ 256 ^ Z.of_N size <= z)
  | Going => False
  end.
Proof.
  induction l as [| z l IH]; [split; [constructor | reflexivity] |]. cbn [to_bytes_each].
  destruct (Z.ltb_spec z 0) as [C | C]; [split; [constructor |]; split; [reflexivity |]; exists z; split; [reflexivity | now left] |].
  destruct (to_bytes_be size (Z.to_N z)) as [b | e] eqn:E.
  - destruct (to_bytes_each size l) as [bs st]. destruct IH as [F H]. split.
    + cbn [length firstn]. constructor; [| exact F]. split; [exact C |].
      split; [exact (to_bytes_be_len _ _ _ E) |]. rewrite (to_bytes_be_int _ _ _ E). lia.
    + destruct st as [| | e]; [exact H | cbn; now rewrite H |]. destruct H as [H1 [z' [H2 H3]]]. split; [exact H1 |]. exists z'. split; [exact H2 | exact H3].
  - unfold to_bytes_be in E. destruct (N.ltb_spec (Z.to_N z) (256 ^ size)) as [L | L]; [discriminate |]. injection E as <-.
    split; [constructor |]. split; [reflexivity |]. exists z. split; [reflexivity |]. right. pose proof (N2Z.inj_pow 256 size) as Q. change (Z.of_N 256) with 256 in Q. rewrite <- Q. lia.
Qed.
