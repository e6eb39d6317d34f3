(** * [json.loads] reads what [json.dumps] writes *)
From Coq Require Import Strings.String.
From Coq Require Import Decimal DecimalFacts DecimalN DecimalZ.
From Verif Require Import Base BaseFacts StrModel StrFacts JsonModel JsonSpec JsonProofs LoadsModel LoadsSpec.
Import ListNotations.
Local Open Scope list_scope.
Local Open Scope N_scope.

(** ** Strings *)
Lemma hex_value_char n : n < 16 -> hex_value (hex_char n) = Some n.
Proof.
  intros L. unfold hex_value, hex_char. destruct (n <? 10) eqn:E.
  - replace ((48 <=? 48 + n) && (48 + n <=? 57)) with true by lia. f_equal. lia.
  - replace ((48 <=? 87 + n) && (87 + n <=? 57)) with false by lia. replace ((97 <=? 87 + n) && (87 + n <=? 102)) with true by lia. f_equal. lia.
Qed.
Lemma hex4_chars u : u < 65536 ->
  hex4 (hex_char (u / 4096 mod 16)) (hex_char (u / 256 mod 16)) (hex_char (u / 16 mod 16)) (hex_char (u mod 16)) = Some u.
Proof.
  intros L. unfold hex4. rewrite !hex_value_char by (apply N.mod_lt; lia). cbn [obind]. f_equal. symmetry. now apply nibbles.
Qed.
Lemma scan_escape u r : u < 65536 -> scan (escape u ++ r) = cons_unit u (scan r).
Proof.
  intros L. unfold escape.
  destruct (u =? 34) eqn:E1; [assert (u = 34) as -> by lia; reflexivity|].
  destruct (u =? 92) eqn:E2; [assert (u = 92) as -> by lia; reflexivity|].
  destruct (u =? 10) eqn:E3; [assert (u = 10) as -> by lia; reflexivity|].
  destruct (u =? 13) eqn:E4; [assert (u = 13) as -> by lia; reflexivity|].
  destruct (u =? 9) eqn:E5; [assert (u = 9) as -> by lia; reflexivity|].
  destruct (u =? 12) eqn:E6; [assert (u = 12) as -> by lia; reflexivity|].
  destruct (u =? 8) eqn:E7; [assert (u = 8) as -> by lia; reflexivity|].
  destruct ((32 <=? u) && (u <=? 126)) eqn:E8.
  - cbn [app scan]. rewrite E1, E2. replace (u <? 32) with false by lia. reflexivity.
  - cbn [app scan]. change (92 =? 34) with false. change (92 =? 92) with true. change (117 =? 117) with true. cbv iota.
    now rewrite hex4_chars.
Qed.
Lemma scan_escapes l r : Forall (fun u => u < 65536) l -> scan (flat_map escape l ++ 34 :: r) = Some (l, r).
Proof.
  intros F. induction F as [|u l L F IH]; [reflexivity|]. cbn [flat_map]. rewrite <- app_assoc, scan_escape, IH by exact L. reflexivity.
Qed.
Lemma join_units s : clean_str s -> join (flat_map units s) = s.
Proof.
  induction s as [|c s IH]; intros [F U]; [reflexivity|]. inversion F as [|? ? B F']; subst.
  assert (join (flat_map units s) = s) as E by (apply IH; split; [exact F'|now apply unpaired_tail in U]).
  cbn [flat_map]. destruct (N.lt_ge_cases c 65536) as [S|S].
  - unfold units at 1. replace (c <? 65536) with true by lia. cbn [app join]. destruct (flat_map units s) as [|v r] eqn:Q.
    + cbn in E. now subst s.
    + destruct ((55296 <=? c) && (c <=? 56319) && (56320 <=? v) && (v <=? 57343)) eqn:P; [|now rewrite E].
      exfalso. destruct (units_low s v r F') as (s' & ->); [unfold low; lia|exact Q|]. cbn in U. unfold high, low in U. lia.
  - destruct (astral_units c (conj S B)) as (h & l & -> & H & L & C). cbn [app join]. unfold high, low in H, L.
    replace ((55296 <=? h) && (h <=? 56319) && (56320 <=? l) && (l <=? 57343)) with true by lia. rewrite E. f_equal. lia.
Qed.
Lemma scan_str s r : clean_str s -> exists x, scan (skipn 1 (dumps_str s ++ r)) = Some (x, r) /\ join x = s.
Proof.
  intros C. exists (flat_map units s). split; [|now apply join_units]. unfold dumps_str. cbn [app skipn]. rewrite <- app_assoc. cbn [app].
  apply scan_escapes. apply units_small, C.
Qed.

(** What is read is clean. *)
Lemma hex_value_lt c v : hex_value c = Some v -> v < 16.
Proof.
  unfold hex_value. destruct ((48 <=? c) && (c <=? 57)) eqn:A; [intros E; injection E as <-; lia|].
  destruct ((97 <=? c) && (c <=? 102)) eqn:B; [intros E; injection E as <-; lia|].
  destruct ((65 <=? c) && (c <=? 70)) eqn:D; [intros E; injection E as <-; lia|discriminate].
Qed.
Lemma hex4_lt a b c d u : hex4 a b c d = Some u -> u < 65536.
Proof.
  unfold hex4. destruct (hex_value a) eqn:A; [|discriminate]. destruct (hex_value b) eqn:B; [|discriminate].
  destruct (hex_value c) eqn:C; [|discriminate]. destruct (hex_value d) eqn:D; [|discriminate]. cbn.
  apply hex_value_lt in A, B, C, D. intros E. injection E as <-. lia.
Qed.
Lemma backslash_lt c u : backslash c = Some u -> u < 128.
Proof.
  unfold backslash. repeat match goal with |- context [if ?b then _ else _] => destruct b; [intros E; injection E as <-; lia|] end. discriminate.
Qed.
Definition ascii (s : str) : Prop := Forall (fun c => c < 128) s.
Lemma scan_ok n : forall s x r, (length s <= n)%nat -> ascii s -> scan s = Some (x, r) -> Forall (fun u => u < 65536) x /\ ascii r.
Proof.
  induction n as [|n IH]; intros s x r L A E.
  - destruct s; [discriminate|cbn in L; lia].
  - destruct s as [|c s]; [discriminate|]. inversion A as [|? ? B A']; subst. cbn in L. cbn [scan] in E.
    destruct (c =? 34); [assert (x = [] /\ r = s) as [-> ->] by (split; congruence); split; [constructor|exact A']|].
    assert (forall u t, (length t <= n)%nat -> ascii t -> u < 65536 -> cons_unit u (scan t) = Some (x, r) -> Forall (fun u => u < 65536) x /\ ascii r) as K.
    { intros u t Lt At Lu Et. unfold cons_unit in Et. destruct (scan t) as [[y q]|] eqn:Q; [|discriminate]. cbn in Et.
      assert (x = u :: y /\ r = q) as [-> ->] by (split; congruence). destruct (IH _ _ _ Lt At Q). split; [constructor|]; assumption. }
    destruct (c =? 92).
    + destruct s as [|e s]; [discriminate|]. inversion A' as [|? ? B2 A2]; subst. cbn in L. destruct (e =? 117).
      * destruct s as [|h1 [|h2 [|h3 [|h4 s]]]]; try discriminate. destruct (hex4 h1 h2 h3 h4) as [u|] eqn:H; [|discriminate]. cbn [obind] in E.
        apply (K u s); [cbn in L; lia| |now apply hex4_lt in H|exact E].
        inversion A2 as [|? ? _ A3]; subst. inversion A3 as [|? ? _ A4]; subst. inversion A4 as [|? ? _ A5]; subst. now inversion A5.
      * destruct (backslash e) as [u|] eqn:H; [|discriminate]. apply backslash_lt in H. apply (K u s); [lia|exact A2|lia|exact E].
    + destruct (c <? 32); [discriminate|]. apply (K c s); [lia|exact A'|lia|exact E].
Qed.
Lemma join_head u l : (exists t, join (u :: l) = u :: t) \/ (exists c t, join (u :: l) = c :: t /\ 65536 <= c).
Proof.
  cbn. destruct l as [|v r]; [eauto|]. destruct ((55296 <=? u) && (u <=? 56319) && (56320 <=? v) && (v <=? 57343)); [right|left; eauto].
  eexists (65536 + (u - 55296) * 1024 + (v - 56320)), _. split; [reflexivity|lia].
Qed.
Lemma unpaired_cons c s : unpaired s -> (forall d t, s = d :: t -> ~ (high c /\ low d)) -> unpaired (c :: s).
Proof. intros U H. destruct s as [|d t]; [exact I|]. split; [now apply (H d t)|exact U]. Qed.
Lemma join_clean n : forall l, (length l <= n)%nat -> Forall (fun u => u < 65536) l -> clean_str (join l).
Proof.
  induction n as [|n IH]; intros l L F.
  - destruct l; [|cbn in L; lia]. split; [constructor|exact I].
  - destruct F as [|u l B F]; [split; [constructor|exact I]|]. cbn in L. cbn [join]. destruct l as [|v r].
    + split; [constructor; [lia|constructor]|exact I].
    + inversion F as [|? ? B2 F2]; subst. destruct ((55296 <=? u) && (u <=? 56319) && (56320 <=? v) && (v <=? 57343)) eqn:P.
      * destruct (IH r) as [G U]; [cbn in L; lia|exact F2|]. split; [constructor; [lia|exact G]|].
        apply unpaired_cons; [exact U|]. intros d t _ [H _]. unfold high in H. lia.
      * destruct (IH (v :: r)) as [G U]; [lia|exact F|]. split; [constructor; [lia|exact G]|].
        apply unpaired_cons; [exact U|]. intros d t E [H W]. unfold high, low in H, W.
        destruct (join_head v r) as [(t' & Q)|(c & t' & Q & C)]; rewrite Q in E; injection E as <- <-; lia.
Qed.

(** ** Numbers *)
Lemma stops_not_digit r : stops r -> match r with [] => True | c :: _ => is_digit c = false end.
Proof. destruct r as [|c r]; [auto|]. intros [->|[->| ->]]; reflexivity. Qed.
Definition nodigit (r : str) : Prop := match r with [] => True | c :: _ => is_digit c = false end.
Lemma digits_app d r : Forall (fun c => 48 <= c <= 57) d -> nodigit r -> digits (d ++ r) = (d, r).
Proof.
  intros F N. induction F as [|c d B F IH]; cbn [app].
  - destruct r as [|c r]; [reflexivity|]. cbn in N |- *. now rewrite N.
  - cbn [digits]. unfold is_digit at 1. replace ((48 <=? c) && (c <=? 57)) with true by lia. now rewrite IH.
Qed.
Lemma integer_part_app ip r : natural ip -> nodigit r -> integer_part (ip ++ r) = Some (ip, r).
Proof.
  intros [->|(c & d & -> & B & F)] N; [reflexivity|]. cbn [app integer_part]. replace (c =? 48) with false by lia.
  unfold is_digit. replace ((48 <=? c) && (c <=? 57)) with true by lia. now rewrite digits_app.
Qed.
Lemma fraction_app fp r : decimals fp -> nodigit r -> (fp = [] -> match r with [] => True | c :: _ => c <> 46 end) -> fraction (fp ++ r) = (fp, r).
Proof.
  intros [->|(d & -> & NE & F)] N P.
  - cbn [app]. destruct r as [|c r]; [reflexivity|]. cbn. specialize (P eq_refl). replace (c =? 46) with false by lia. reflexivity.
  - cbn [app fraction]. change (46 =? 46) with true. cbv iota. rewrite digits_app by assumption. destruct d; [contradiction|reflexivity].
Qed.
Lemma exponent_app ep r : power ep -> nodigit r -> (ep = [] -> match r with [] => True | c :: _ => c <> 101 /\ c <> 69 end) -> exponent (ep ++ r) = (ep, r).
Proof.
  intros [->|(m & sg & d & -> & M & S & NE & F)] N P.
  - cbn [app]. destruct r as [|c r]; [reflexivity|]. cbn. specialize (P eq_refl). replace ((c =? 101) || (c =? 69)) with false by lia. reflexivity.
  - rewrite <- app_comm_cons, <- app_assoc. cbn [exponent]. replace ((m =? 101) || (m =? 69)) with true by lia.
    assert (sign (sg ++ d ++ r) = (sg, d ++ r)) as ->.
    { unfold sign. destruct S as [->|[->| ->]]; [|reflexivity|reflexivity]. destruct d as [|x d]; [contradiction|]. cbn [app].
      inversion F; subst. replace ((x =? 43) || (x =? 45)) with false by lia. reflexivity. }
    rewrite digits_app by assumption. destruct d; [contradiction|reflexivity].
Qed.
Lemma power_nodigit ep r : power ep -> nodigit r -> nodigit (ep ++ r).
Proof.
  intros [->|(m & sg & d & -> & M & _)] N; [exact N|]. cbn. unfold is_digit. lia.
Qed.
Lemma decimals_nodigit fp r : decimals fp -> nodigit r -> nodigit (fp ++ r).
Proof. intros [->|(d & -> & _)] N; [exact N|reflexivity]. Qed.
Definition behind (r : str) : Prop := match r with [] => True | c :: _ => is_digit c = false /\ c <> 46 /\ c <> 101 /\ c <> 69 end.
Lemma stops_behind r : stops r -> behind r.
Proof. destruct r as [|c r]; [auto|]. intros [->|[->| ->]]; cbn; repeat split; lia. Qed.
Lemma number_app sg ip fp ep r : (sg = [] \/ sg = [45]) -> natural ip -> decimals fp -> power ep -> behind r ->
  number ((sg ++ ip ++ fp ++ ep) ++ r) = Some (sg ++ ip ++ fp ++ ep, match fp, ep with [], [] => false | _, _ => true end, r).
Proof.
  intros S I D P B. assert (nodigit r) as N by (destruct r; [exact B|apply B]).
  assert (nodigit (ep ++ r)) as N1 by now apply power_nodigit. assert (nodigit (fp ++ ep ++ r)) as N2 by now apply decimals_nodigit.
  unfold number. rewrite <- !app_assoc.
  assert (minus (sg ++ ip ++ fp ++ ep ++ r) = (sg, ip ++ fp ++ ep ++ r)) as ->.
  { unfold minus. destruct S as [->| ->]; [|reflexivity]. destruct I as [->|(c & d & -> & C & _)]; [reflexivity|]. cbn [app]. replace (c =? 45) with false by lia. reflexivity. }
  rewrite integer_part_app by assumption. cbn [obind]. rewrite fraction_app.
  - rewrite exponent_app; [reflexivity|exact P|exact N|]. intros ->. destruct r as [|c r]; [exact Logic.I|]. destruct B as (_ & _ & B). exact B.
  - exact D.
  - exact N1.
  - intros ->. destruct P as [->|(m & sg' & d & -> & M & _)].
    + destruct r as [|c r]; [exact Logic.I|]. now destruct B as (_ & B & _).
    + cbn. lia.
Qed.

Lemma digits_ok s d r : digits s = (d, r) -> s = d ++ r /\ Forall (fun c => 48 <= c <= 57) d.
Proof.
  revert d r. induction s as [|c s IH]; intros d r E; cbn in E; [assert (d = [] /\ r = []) as [-> ->] by (split; congruence); auto|].
  destruct (is_digit c) eqn:D.
  - destruct (digits s) as [d' t]. assert (d = c :: d' /\ r = t) as [-> ->] by (split; congruence). destruct (IH _ _ eq_refl) as [-> F].
    split; [reflexivity|]. constructor; [unfold is_digit in D; lia|exact F].
  - assert (d = [] /\ r = c :: s) as [-> ->] by (split; congruence). auto.
Qed.
Lemma fraction_ok s f r : fraction s = (f, r) -> s = f ++ r /\ decimals f.
Proof.
  unfold fraction. destruct s as [|c s]; [intros E; assert (f = [] /\ r = []) as [-> ->] by (split; congruence); split; [reflexivity|now left]|].
  destruct (c =? 46) eqn:C; [|intros E; assert (f = [] /\ r = c :: s) as [-> ->] by (split; congruence); split; [reflexivity|now left]].
  destruct (digits s) as [[|d ds] t] eqn:D; intros E.
  - assert (f = [] /\ r = c :: s) as [-> ->] by (split; congruence). split; [reflexivity|now left].
  - assert (f = c :: d :: ds /\ r = t) as [-> ->] by (split; congruence). apply digits_ok in D as [-> F]. split; [reflexivity|].
    right. exists (d :: ds). split; [f_equal; lia|]. split; [discriminate|exact F].
Qed.
Lemma exponent_ok s e r : exponent s = (e, r) -> s = e ++ r /\ power e.
Proof.
  unfold exponent. destruct s as [|c s]; [intros E; assert (e = [] /\ r = []) as [-> ->] by (split; congruence); split; [reflexivity|now left]|].
  destruct ((c =? 101) || (c =? 69)) eqn:C; [|intros E; assert (e = [] /\ r = c :: s) as [-> ->] by (split; congruence); split; [reflexivity|now left]].
  destruct (sign s) as [sg r'] eqn:S. unfold sign in S.
  assert (s = sg ++ r' /\ (sg = [] \/ sg = [43] \/ sg = [45])) as [-> SG].
  { destruct s as [|x s]; [assert (sg = [] /\ r' = []) as [-> ->] by (split; congruence); auto|].
    destruct ((x =? 43) || (x =? 45)) eqn:X; [assert (sg = [x] /\ r' = s) as [-> ->] by (split; congruence)|assert (sg = [] /\ r' = x :: s) as [-> ->] by (split; congruence); auto].
    split; [reflexivity|]. right. assert (x = 43 \/ x = 45) as [-> | ->] by lia; auto. }
  clear S. destruct (digits r') as [[|d ds] t] eqn:D; intros E.
  - assert (e = [] /\ r = c :: sg ++ r') as [-> ->] by (split; congruence). split; [reflexivity|now left].
  - assert (e = c :: sg ++ d :: ds /\ r = t) as [-> ->] by (split; congruence). apply digits_ok in D as [-> F].
    split; [cbn [app]; now rewrite <- app_assoc|]. right. exists c, sg, (d :: ds). split; [reflexivity|]. split; [lia|]. split; [exact SG|]. split; [discriminate|exact F].
Qed.
Lemma integer_part_ok s i r : integer_part s = Some (i, r) -> s = i ++ r /\ natural i.
Proof.
  unfold integer_part. destruct s as [|c s]; [discriminate|]. destruct (c =? 48) eqn:Z.
  - intros E. assert (i = [c] /\ r = s) as [-> ->] by (split; congruence). split; [reflexivity|]. left. f_equal. lia.
  - destruct (is_digit c) eqn:D; [|discriminate]. destruct (digits s) as [d t] eqn:Q. intros E.
    assert (i = c :: d /\ r = t) as [-> ->] by (split; congruence). apply digits_ok in Q as [-> F]. split; [reflexivity|].
    right. exists c, d. split; [reflexivity|]. unfold is_digit in D. split; [lia|exact F].
Qed.
Lemma number_ok s t b r : number s = Some (t, b, r) -> s = t ++ r /\ (b = true -> float_form t).
Proof.
  unfold number. destruct (minus s) as [sg s1] eqn:S. unfold minus in S.
  assert (s = sg ++ s1 /\ (sg = [] \/ sg = [45])) as [-> SG].
  { destruct s as [|c s]; [assert (sg = [] /\ s1 = []) as [-> ->] by (split; congruence); auto|].
    destruct (c =? 45) eqn:C; [assert (sg = [c] /\ s1 = s) as [-> ->] by (split; congruence)|assert (sg = [] /\ s1 = c :: s) as [-> ->] by (split; congruence); auto].
    split; [reflexivity|]. right. f_equal. lia. }
  clear S. destruct (integer_part s1) as [[i s2]|] eqn:I; [|discriminate]. cbn [obind]. apply integer_part_ok in I as [-> NI].
  destruct (fraction s2) as [f s3] eqn:F. apply fraction_ok in F as [-> DF]. destruct (exponent s3) as [e s4] eqn:E. apply exponent_ok in E as [-> PE].
  intros Q. assert (t = sg ++ i ++ f ++ e /\ r = s4 /\ b = match f, e with [], [] => false | _, _ => true end) as (-> & -> & ->) by (repeat split; congruence).
  split; [now rewrite <- !app_assoc|]. intros X. exists sg, i, f, e. split; [reflexivity|]. split; [exact SG|]. split; [exact NI|]. split; [exact DF|].
  split; [exact PE|]. destruct f; [|left; discriminate]. destruct e; [discriminate|right; discriminate].
Qed.

(** Integers. *)
Lemma chars_uint_chars u : chars_uint (uint_chars u) = u.
Proof. induction u; cbn; try reflexivity; unfold chars_uint in IHu |- *; cbn; now rewrite IHu. Qed.
Lemma uint_natural u : unorm u = u -> natural (uint_chars u).
Proof.
  intros E. destruct u as [|u|u|u|u|u|u|u|u|u|u]; try discriminate; try (right; do 2 eexists; split; [reflexivity|]; split; [lia|apply uint_digits]).
  left. assert (u = Nil) as ->; [|reflexivity]. unfold unorm in E. cbn [nzhead] in E. pose proof (nzhead_nonzero u) as X.
  destruct (nzhead u) as [|w|w|w|w|w|w|w|w|w|w]; try discriminate E; [congruence|]. now specialize (X w).
Qed.
Lemma to_uint_unorm n : unorm (N.to_uint n) = N.to_uint n.
Proof. rewrite <- DecimalN.Unsigned.to_of, DecimalN.Unsigned.of_to. reflexivity. Qed.
Lemma int_repr_form z : exists sg ip, int_repr z = sg ++ ip /\ (sg = [] \/ sg = [45]) /\ natural ip.
Proof.
  unfold int_repr. destruct z as [|p|p]; cbn [Z.to_int].
  - exists [], [48]. split; [reflexivity|]. split; [auto|now left].
  - exists [], (uint_chars (Pos.to_uint p)). split; [reflexivity|]. split; [auto|]. apply uint_natural. apply (to_uint_unorm (Npos p)).
  - exists [45], (uint_chars (Pos.to_uint p)). split; [reflexivity|]. split; [auto|]. apply uint_natural. apply (to_uint_unorm (Npos p)).
Qed.
Lemma int_of_repr z : int_of (int_repr z) = z.
Proof.
  pose proof (DecimalZ.of_to z) as O. unfold int_repr. destruct (Z.to_int z) as [u|u] eqn:E.
  - destruct (uint_chars u) as [|c r] eqn:C; [destruct u; try discriminate; cbn in O; now subst|].
    unfold int_of. pose proof (uint_digits u) as D. rewrite C in D. inversion D as [|? ? B _]; subst. unfold digit in B. replace (c =? 45) with false by lia.
    rewrite <- C, chars_uint_chars. reflexivity.
  - unfold int_of. change (45 =? 45) with true. cbv iota. rewrite chars_uint_chars. exact O.
Qed.

(** ** Scalars *)
Lemma after_app t r : after t (t ++ r) = Some r.
Proof. induction t as [|c t IH]; [reflexivity|]. cbn. now rewrite N.eqb_refl. Qed.
Lemma after_head t s : hd 0 t <> hd 0 s -> t <> [] -> s <> [] -> after t s = None.
Proof. destruct t as [|c t], s as [|d s]; cbn; intros N T S; try contradiction. replace (c =? d) with false by lia. reflexivity. Qed.
Definition number_head (c : N) : Prop := c = 45 \/ 48 <= c <= 57.
Lemma number_start sg ip x : (sg = [] \/ sg = [45]) -> natural ip -> exists c t, sg ++ ip ++ x = c :: t /\ number_head c.
Proof.
  unfold number_head. intros [->| ->] N; [|cbn; eauto]. destruct N as [->|(c & d & -> & B & _)]; cbn [app]; [do 2 eexists; split; [reflexivity|lia]|].
  do 2 eexists. split; [reflexivity|lia].
Qed.
Lemma scalar_number s t b r : (exists c u, s = c :: u /\ number_head c) -> number s = Some (t, b, r) ->
  scalar_at s = Some (if b then JFloat t else JInt (int_of t), r).
Proof.
  intros (c & u & -> & H) E. unfold scalar_at. unfold number_head in H.
  assert (forall w, hd 0 (lit w) >= 97 -> lit w <> [] -> after (lit w) (c :: u) = None) as X.
  { intros w G NE. apply after_head; [cbn; lia|exact NE|discriminate]. }
  rewrite X; [|cbn; lia|discriminate]. rewrite X; [|cbn; lia|discriminate]. rewrite X; [|cbn; lia|discriminate]. rewrite E. now destruct b.
Qed.
Lemma scalar_int z r : stops r -> scalar_at (int_repr z ++ r) = Some (JInt z, r).
Proof.
  intros S. destruct (int_repr_form z) as (sg & ip & E & SG & NI).
  pose proof (number_app sg ip [] [] r SG NI (or_introl eq_refl) (or_introl eq_refl) (stops_behind _ S)) as Q. rewrite !app_nil_r in Q. rewrite <- E in Q.
  assert (exists c u, int_repr z ++ r = c :: u /\ number_head c) as HD by (rewrite E, <- app_assoc; now apply number_start).
  rewrite (scalar_number _ _ _ _ HD Q).
  now rewrite int_of_repr.
Qed.
Lemma scalar_float t r : float_value t -> stops r -> scalar_at (t ++ r) = Some (JFloat t, r).
Proof.
  intros [(sg & ip & fp & ep & -> & SG & NI & D & P & NE)|C] S.
  - pose proof (number_app sg ip fp ep r SG NI D P (stops_behind _ S)) as Q.
    assert (exists c u, (sg ++ ip ++ fp ++ ep) ++ r = c :: u /\ number_head c) as HD by (rewrite <- !app_assoc; now apply number_start).
    rewrite (scalar_number _ _ _ _ HD Q).
    destruct fp; [|reflexivity]. destruct ep; [|reflexivity]. destruct NE; contradiction.
  - destruct C as [->|[->| ->]]; reflexivity.
Qed.

(** ** Values *)
Lemma normal_arr l : normal (JArr l) <-> Forall normal l.
Proof. cbn. induction l as [|v l IH]; [split; auto|]. rewrite Forall_cons_iff, <- IH. reflexivity. Qed.
Lemma normal_obj l : normal (JObj l) <-> NoDup (map fst l) /\ Forall (fun kv => clean_str (fst kv) /\ normal (snd kv)) l.
Proof.
  cbn. split; intros [N H]; (split; [exact N|]); clear N; induction l as [|[k v] l IH]; try constructor; cbn in *; try tauto.
  - inversion H; subst. tauto.
  - inversion H; subst. cbn in *. tauto.
Qed.
Lemma dict_of_nodup (l : list (str * json)) : NoDup (map fst l) -> dict_of str_eqb l = l.
Proof.
  unfold dict_of, dict_update. enough (forall (l d : list (str * json)), NoDup (map fst (d ++ l)) ->
    fold_left (fun d kv => dict_set str_eqb d (fst kv) (snd kv)) l d = d ++ l) as H by (intros N; apply (H l []); exact N).
  clear l. induction l as [|[k v] l IH]; intros d N; cbn [fold_left fst snd]; [now rewrite app_nil_r|].
  assert (dict_set str_eqb d k v = d ++ [(k, v)]) as ->.
  { rewrite map_app in N. cbn in N. apply NoDup_remove_2 in N. assert (~ In k (map fst d)) as M by (rewrite in_app_iff in N; tauto). clear N.
    induction d as [|[k' v'] d IHd]; [reflexivity|]. cbn in M |- *. destruct (str_eqb k' k) eqn:E; [apply str_eqb_eq in E; tauto|]. f_equal. apply IHd. tauto. }
  rewrite IH; [now rewrite <- app_assoc|]. now rewrite <- app_assoc.
Qed.

Fixpoint need (v : json) : nat :=
  match v with
  | JArr l => S ((fix f l := match l with [] => O | v :: l => S (Nat.max (need v) (f l)) end) l)
  | JObj l => S ((fix f l := match l with [] => O | (_, v) :: l => S (Nat.max (need v) (f l)) end) l)
  | _ => 1%nat
  end.
Fixpoint needs (l : list json) : nat := match l with [] => O | v :: l => S (Nat.max (need v) (needs l)) end.

Lemma dumps_first v : normal v -> exists c t, dumps v = c :: t /\ ~ (c = 32 \/ c = 9 \/ c = 10 \/ c = 13) /\ c <> 93.
Proof.
  destruct v as [|[|]|z|r|s|l|l]; intros C; cbn [dumps].
  - do 2 eexists. split; [reflexivity|]. cbn. lia.
  - do 2 eexists. split; [reflexivity|]. cbn. lia.
  - do 2 eexists. split; [reflexivity|]. cbn. lia.
  - destruct (int_repr_nonempty z) as (c & t & -> & D). exists c, t. split; [reflexivity|]. unfold digit in D. lia.
  - destruct C as [(sg & ip & fp & ep & -> & SG & NI & _)|[->|[->| ->]]]; try (do 2 eexists; split; [reflexivity|]; cbn; lia).
    destruct (number_start sg ip (fp ++ ep) SG NI) as (c & t & -> & H). exists c, t. split; [reflexivity|]. unfold number_head in H. lia.
  - unfold dumps_str. do 2 eexists. split; [reflexivity|]. cbn. lia.
  - do 2 eexists. split; [reflexivity|]. cbn. lia.
  - do 2 eexists. split; [reflexivity|]. cbn. lia.
Qed.
Lemma ws_stay c s : ~ (c = 32 \/ c = 9 \/ c = 10 \/ c = 13) -> ws (c :: s) = c :: s.
Proof. intros N. cbn. replace ((c =? 32) || (c =? 9) || (c =? 10) || (c =? 13)) with false by lia. reflexivity. Qed.
Lemma ws_value v r : normal v -> ws (dumps v ++ r) = dumps v ++ r.
Proof. intros C. destruct (dumps_first v C) as (c & t & E & W & _). rewrite E. now apply ws_stay. Qed.
Lemma ws_space s : ws (32 :: s) = ws s.
Proof. reflexivity. Qed.

Definition reads (v : json) : Prop := normal v -> forall n r, stops r -> (need v <= n)%nat -> value_at n (dumps v ++ r) = Some (v, r).

Lemma value_scalar n v s r : (exists c t, s = c :: t /\ c <> 34 /\ c <> 91 /\ c <> 123) -> scalar_at s = Some (v, r) -> value_at (S n) s = Some (v, r).
Proof.
  intros (c & t & -> & A & B & C) E. cbn [value_at]. replace (c =? 34) with false by lia. replace (c =? 91) with false by lia. replace (c =? 123) with false by lia.
  exact E.
Qed.
Lemma elements_read l : Forall reads l -> Forall normal l -> forall v, reads v -> normal v -> forall n r, (needs (v :: l) <= n)%nat ->
  elements_at n ((dumps v ++ flat_map (fun y => [44; 32] ++ y) (map dumps l)) ++ 93 :: r) = Some (v :: l, r).
Proof.
  induction l as [|w l IH]; intros R N v Rv Nv n r L; (destruct n as [|n]; [cbn in L; lia|]); cbn [elements_at map flat_map].
  - rewrite app_nil_r, (Rv Nv); [|right; left; reflexivity|cbn in L; lia]. reflexivity.
  - inversion R as [|? ? Rw R']; subst. inversion N as [|? ? Nw N']; subst. rewrite <- !app_assoc. rewrite (Rv Nv).
    + cbn [obind app]. rewrite ws_stay by lia. change (44 =? 93) with false. change (44 =? 44) with true. cbv iota. rewrite ws_space.
      rewrite ws_value by exact Nw. specialize (IH R' N' w Rw Nw n r). rewrite <- app_assoc in IH. cbn [app] in IH. rewrite IH by (cbn in L |- *; lia). reflexivity.
    + cbn. auto.
    + cbn in L. lia.
Qed.
Fixpoint mneeds (l : list (str * json)) : nat := match l with [] => O | (_, v) :: l => S (Nat.max (need v) (mneeds l)) end.
Lemma members_read l : Forall (fun kv => reads (snd kv)) l -> Forall (fun kv => clean_str (fst kv) /\ normal (snd kv)) l ->
  forall kv, reads (snd kv) -> clean_str (fst kv) /\ normal (snd kv) -> forall n r, (mneeds (kv :: l) <= n)%nat ->
  members_at n ((item_text kv ++ flat_map (fun y => [44; 32] ++ y) (map item_text l)) ++ 125 :: r) = Some (kv :: l, r).
Proof.
  assert (forall k v n x, clean_str k -> normal v -> members_at (S n) ((dumps_str k ++ [58; 32] ++ dumps v) ++ x) =
    obind (value_at n (dumps v ++ x)) (fun '(v, s) => match ws s with
                | c :: r => if c =? 125 then Some ([(k, v)], r)
                  else if c =? 44 then obind (members_at n (ws r)) (fun '(l, r) => Some ((k, v) :: l, r)) else None
                | [] => None end)) as STEP.
  { intros k v n x C N. rewrite <- app_assoc. destruct (scan_str k (([58; 32] ++ dumps v) ++ x) C) as (y & S & J).
    unfold dumps_str in S |- *. cbn [app skipn] in S |- *. cbn [members_at]. change (34 =? 34) with true. cbv iota. rewrite S. cbn [obind].
    rewrite ws_stay by lia. change (58 =? 58) with true. cbv iota. rewrite ws_space, ws_value by exact N. now rewrite J. }
  induction l as [|w l IH]; intros R N [k v] Rv [Ck Nv] n r L; (destruct n as [|n]; [cbn in L; lia|]); cbn [fst snd] in *; unfold item_text at 1; cbn [fst snd map flat_map].
  - rewrite app_nil_r, STEP by assumption. rewrite (Rv Nv); [reflexivity|right; right; reflexivity|cbn in L; lia].
  - inversion R as [|? ? Rw R']; subst. inversion N as [|? ? Nw N']; subst.
    rewrite <- (app_assoc (dumps_str k ++ [58; 32] ++ dumps v)). rewrite STEP by assumption. rewrite <- !app_assoc, (Rv Nv).
    + cbn [obind app]. rewrite ws_stay by lia. change (44 =? 125) with false. change (44 =? 44) with true. cbv iota. rewrite ws_space.
      match goal with |- context [ws (item_text w ++ ?x)] => change (ws (item_text w ++ x)) with (item_text w ++ x) end.
      specialize (IH R' N' w Rw Nw n r). rewrite <- app_assoc in IH. cbn [app] in IH. rewrite IH; [reflexivity|]. destruct w. cbn in L |- *. lia.
    + cbn. auto.
    + destruct w. cbn in L. lia.
Qed.
Theorem value_read v : reads v.
Proof.
  induction v as [|b|z|t|s|l IH|l IH] using json_ind'; intros C n r S L; (destruct n as [|n]; [cbn in L; lia|]).
  - apply value_scalar; [do 2 eexists; split; [reflexivity|]; cbn; lia|reflexivity].
  - destruct b; (apply value_scalar; [do 2 eexists; split; [reflexivity|]; cbn; lia|reflexivity]).
  - cbn [dumps]. apply value_scalar; [|now apply scalar_int]. destruct (int_repr_nonempty z) as (c & t & -> & D). exists c, (t ++ r). split; [reflexivity|].
    unfold digit in D. lia.
  - cbn [dumps]. apply value_scalar; [|now apply scalar_float]. destruct C as [(sg & ip & fp & ep & -> & SG & NI & _)|[->|[->| ->]]]; try (do 2 eexists; split; [reflexivity|]; cbn; lia).
    destruct (number_start sg ip (fp ++ ep) SG NI) as (c & t & -> & H). exists c, (t ++ r). split; [reflexivity|]. unfold number_head in H. lia.
  - cbn [dumps]. destruct (scan_str s r C) as (x & E & J). unfold dumps_str in E |- *. cbn [app skipn] in E |- *. cbn [value_at].
    change (34 =? 34) with true. cbv iota. rewrite E. cbn. now rewrite J.
  - apply normal_arr in C. cbn [dumps]. cbn [app value_at]. change (91 =? 34) with false. change (91 =? 91) with true. cbv iota.
    destruct l as [|v l]; [reflexivity|]. cbn [map intercalate]. inversion IH as [|? ? Rv R]; subst. inversion C as [|? ? Nv N]; subst.
    rewrite <- !app_assoc. rewrite ws_value by exact Nv. destruct (dumps_first v Nv) as (c & t & E & W & X). rewrite E at 1. cbn [app].
    replace (c =? 93) with false by lia. rewrite app_assoc. cbn [app]. rewrite (elements_read l R N v Rv Nv); [reflexivity|].
    change (need (JArr (v :: l))) with (Datatypes.S (needs (v :: l))) in L. lia.
  - apply normal_obj in C as [ND C]. rewrite dumps_obj. cbn [app value_at]. change (123 =? 34) with false. change (123 =? 91) with false. change (123 =? 123) with true. cbv iota.
    destruct l as [|kv l]; [reflexivity|]. cbn [map intercalate]. inversion IH as [|? ? Rv R]; subst. inversion C as [|? ? Nv N]; subst.
    rewrite <- !app_assoc.
    match goal with |- context [ws (item_text kv ++ ?x)] => change (ws (item_text kv ++ x)) with (item_text kv ++ x);
      assert (item_text kv ++ x = 34 :: skipn 1 (item_text kv ++ x)) as W by reflexivity end.
    pose proof (members_read l R N kv Rv Nv n r) as Q. rewrite <- app_assoc in Q. cbn [app] in Q, W |- *. rewrite Q by (
      change (need (JObj (kv :: l))) with (Datatypes.S (mneeds (kv :: l))) in L; lia).
    rewrite W. change (34 =? 125) with false. cbv iota. cbn [obind]. now rewrite dict_of_nodup.
Qed.

(** ** Enough nesting is allowed for *)
Lemma need_pos v : (1 <= need v)%nat.
Proof. destruct v; cbn; lia. Qed.
Lemma int_repr_len z : (1 <= length (int_repr z))%nat.
Proof. destruct (int_repr_nonempty z) as (c & t & -> & _). cbn. lia. Qed.
Lemma need_size v : normal v -> (need v <= length (dumps v))%nat.
Proof.
  induction v as [|b|z|t|s|l IH|l IH] using json_ind'; intros C.
  - cbn. lia.
  - destruct b; cbn; lia.
  - cbn [need dumps]. apply int_repr_len.
  - destruct (dumps_first (JFloat t) C) as (c & u & -> & _). cbn. lia.
  - cbn. lia.
  - apply normal_arr in C. change (need (JArr l)) with (Datatypes.S (needs l)). cbn [dumps length]. rewrite app_length. cbn [length].
    destruct l as [|v l]; [cbn; lia|]. inversion IH as [|? ? Lv L]; subst. inversion C as [|? ? Nv N]; subst. specialize (Lv Nv).
    cbn [map intercalate needs]. rewrite app_length.
    match goal with |- context [length (flat_map ?f ?m)] => enough (Nat.le (needs l) (length (flat_map f m))) by (unfold Nat.le in *; lia) end. clear - L N.
    induction L as [|w l Lw L IH]; [cbn; lia|]. inversion N; subst. cbn [map flat_map needs]. rewrite !app_length. cbn [length app].
    specialize (IH H2). specialize (Lw H1). cbn [app] in IH. unfold Nat.le in *. lia.
  - apply normal_obj in C as [_ C]. change (need (JObj l)) with (Datatypes.S (mneeds l)). rewrite dumps_obj. cbn [length]. rewrite app_length. cbn [length].
    destruct l as [|[k v] l]; [cbn; lia|]. inversion IH as [|? ? Lv L]; subst. inversion C as [|? ? Nv N]; subst. cbn [fst snd] in *. destruct Nv as [_ Nv]. specialize (Lv Nv).
    cbn [map intercalate mneeds]. rewrite app_length.
    assert (forall k v, length (item_text (k, v)) >= 2 + length (dumps v))%nat as IT by (intros; unfold item_text; cbn [fst snd]; rewrite !app_length; cbn [length]; lia).
    specialize (IT k v) as X.
    match goal with |- context [length (flat_map ?f ?m)] => enough (Nat.le (mneeds l) (length (flat_map f m))) by lia end. clear - L N IT.
    induction L as [|[k w] l Lw L IH]; [cbn; lia|]. inversion N; subst. cbn [map flat_map mneeds fst snd] in *. rewrite !app_length. cbn [length app].
    specialize (IH H2). destruct H1 as [_ H1]. specialize (Lw H1). specialize (IT k w). cbn [app] in IH. unfold Nat.le in *. lia.
Qed.

(** ** The round trip *)
Theorem loads_dumps v : normal v -> loads (dumps v) = Some v.
Proof.
  intros C. unfold loads. pose proof (ws_value v [] C) as W. rewrite app_nil_r in W. rewrite W.
  pose proof (value_read v C (2 * length (dumps v) + 2)%nat [] I) as R. rewrite app_nil_r in R. rewrite R; [reflexivity|].
  pose proof (need_size v C). lia.
Qed.

(** ** What is read is normal *)
Lemma ascii_ws s : ascii s -> ascii (ws s).
Proof. intros A. induction A as [|c s B A IH]; [constructor|]. cbn. destruct ((c =? 32) || (c =? 9) || (c =? 10) || (c =? 13)); [exact IH|now constructor]. Qed.
Lemma after_ok t : forall s r, after t s = Some r -> s = t ++ r.
Proof.
  induction t as [|c t IH]; intros s r E; cbn in E; [now assert (s = r) as -> by (destruct s; congruence)|]. destruct s as [|d s]; [discriminate|]. destruct (c =? d) eqn:Q; [|discriminate].
  apply N.eqb_eq in Q. subst d. cbn. f_equal. now apply IH.
Qed.
Lemma ascii_app a b : ascii (a ++ b) -> ascii b.
Proof. intros A. now apply Forall_app in A. Qed.
Lemma scalar_ok s v r : ascii s -> scalar_at s = Some (v, r) -> normal v /\ ascii r.
Proof.
  intros A. unfold scalar_at.
  assert (forall t r, after t s = Some r -> ascii r) as AF by (intros t q E; apply after_ok in E; subst s; now apply ascii_app in A).
  destruct (after (lit "null") s) as [q|] eqn:E1; [intros E; assert (v = JNull /\ r = q) as [-> ->] by (split; congruence); split; [exact I|eauto]|].
  destruct (after (lit "true") s) as [q|] eqn:E2; [intros E; assert (v = JBool true /\ r = q) as [-> ->] by (split; congruence); split; [exact I|eauto]|].
  destruct (after (lit "false") s) as [q|] eqn:E3; [intros E; assert (v = JBool false /\ r = q) as [-> ->] by (split; congruence); split; [exact I|eauto]|].
  destruct (number s) as [[[t b] q]|] eqn:E4.
  - apply number_ok in E4 as [-> F]. apply ascii_app in A. destruct b; intros E.
    + assert (v = JFloat t /\ r = q) as [-> ->] by (split; congruence). split; [left; now apply F|exact A].
    + assert (v = JInt (int_of t) /\ r = q) as [-> ->] by (split; congruence). split; [exact I|exact A].
  - destruct (after (lit "NaN") s) as [q|] eqn:E5; [intros E; assert (v = JFloat (lit "NaN") /\ r = q) as [-> ->] by (split; congruence); split; [right; auto|eauto]|].
    destruct (after (lit "Infinity") s) as [q|] eqn:E6; [intros E; assert (v = JFloat (lit "Infinity") /\ r = q) as [-> ->] by (split; congruence); split; [right; auto|eauto]|].
    destruct (after (lit "-Infinity") s) as [q|] eqn:E7; [intros E; assert (v = JFloat (lit "-Infinity") /\ r = q) as [-> ->] by (split; congruence); split; [right; auto|eauto]|].
    discriminate.
Qed.
Lemma dict_set_forall (P : str * json -> Prop) d k v : Forall P d -> P (k, v) -> (forall k' v', P (k', v') -> P (k', v)) -> Forall P (dict_set str_eqb d k v).
Proof.
  intros F Q K. induction F as [|[k' v'] d B F IH]; cbn; [now constructor|]. destruct (str_eqb k' k); constructor; eauto.
Qed.
Lemma dict_of_ok (l : list (str * json)) : Forall (fun kv => clean_str (fst kv) /\ normal (snd kv)) l -> normal (JObj (dict_of str_eqb l)).
Proof.
  intros F. apply normal_obj. unfold dict_of. split; [apply nodup_update; [exact str_eqb_eq|constructor]|].
  assert (Forall (fun kv : str * json => clean_str (fst kv) /\ normal (snd kv)) []) as Z by constructor. revert Z. generalize (@nil (str * json)).
  unfold dict_update. induction F as [|[k v] l B F IH]; intros d Z; cbn [fold_left]; [exact Z|]. apply IH.
  apply dict_set_forall; [exact Z|exact B|]. cbn. intros k' v' [C _]. split; [exact C|apply B].
Qed.
Theorem value_ok n : (forall s v r, ascii s -> value_at n s = Some (v, r) -> normal v /\ ascii r) /\
  (forall s l r, ascii s -> elements_at n s = Some (l, r) -> Forall normal l /\ ascii r) /\
  (forall s l r, ascii s -> members_at n s = Some (l, r) -> Forall (fun kv => clean_str (fst kv) /\ normal (snd kv)) l /\ ascii r).
Proof.
  induction n as [|n (IV & IE & IM)]; [repeat split; discriminate|].
  assert (forall a s, ascii (a :: s) -> ascii s) as TL by (intros a s A; now inversion A).
  split; [|split].
  - intros s v r A E. destruct s as [|c s]; [discriminate|]. cbn [value_at] in E. pose proof (TL _ _ A) as As.
    destruct (c =? 34).
    { destruct (scan s) as [[x q]|] eqn:Q; [|discriminate]. cbn [obind] in E. assert (v = JStr (join x) /\ r = q) as [-> ->] by (split; congruence).
      destruct (scan_ok _ _ _ _ (le_n _) As Q) as [F Aq]. split; [exact (join_clean _ _ (le_n _) F)|exact Aq]. }
    pose proof (ascii_ws _ As) as Aw. destruct (c =? 91).
    { destruct (ws s) as [|d q] eqn:W; [discriminate|]. destruct (d =? 93).
      - assert (v = JArr [] /\ r = q) as [-> ->] by (split; congruence). split; [exact I|eauto].
      - destruct (elements_at n (d :: q)) as [[l t]|] eqn:Q; [|discriminate]. cbn [obind] in E. assert (v = JArr l /\ r = t) as [-> ->] by (split; congruence).
        destruct (IE _ _ _ Aw Q) as [F B]. split; [now apply normal_arr|exact B]. }
    destruct (c =? 123).
    { destruct (ws s) as [|d q] eqn:W; [discriminate|]. destruct (d =? 125).
      - assert (v = JObj [] /\ r = q) as [-> ->] by (split; congruence). split; [split; [constructor|exact I]|eauto].
      - destruct (members_at n (d :: q)) as [[l t]|] eqn:Q; [|discriminate]. cbn [obind] in E. assert (v = JObj (dict_of str_eqb l) /\ r = t) as [-> ->] by (split; congruence).
        destruct (IM _ _ _ Aw Q) as [F B]. split; [now apply dict_of_ok|exact B]. }
    exact (scalar_ok _ _ _ A E).
  - intros s l r A E. cbn [elements_at] in E. destruct (value_at n s) as [[v q]|] eqn:Q; [|discriminate]. cbn [obind] in E.
    destruct (IV _ _ _ A Q) as [Nv Aq]. apply ascii_ws in Aq. destruct (ws q) as [|c t]; [discriminate|]. apply TL in Aq. destruct (c =? 93).
    { assert (l = [v] /\ r = t) as [-> ->] by (split; congruence). split; [constructor; [exact Nv|constructor]|exact Aq]. }
    destruct (c =? 44); [|discriminate]. destruct (elements_at n (ws t)) as [[l' q']|] eqn:Q'; [|discriminate]. cbn [obind] in E.
    assert (l = v :: l' /\ r = q') as [-> ->] by (split; congruence). destruct (IE _ _ _ (ascii_ws _ Aq) Q') as [F B]. split; [now constructor|exact B].
  - intros s l r A E. destruct s as [|c s]; [discriminate|]. cbn [members_at] in E. apply TL in A. destruct (c =? 34); [|discriminate].
    destruct (scan s) as [[x q]|] eqn:Q; [|discriminate]. cbn [obind] in E. destruct (scan_ok _ _ _ _ (le_n _) A Q) as [F Aq]. pose proof (join_clean _ _ (le_n _) F) as C.
    apply ascii_ws in Aq. destruct (ws q) as [|d t]; [discriminate|]. apply TL in Aq. destruct (d =? 58); [|discriminate].
    destruct (value_at n (ws t)) as [[v u]|] eqn:V; [|discriminate]. cbn [obind] in E. destruct (IV _ _ _ (ascii_ws _ Aq) V) as [Nv Au].
    apply ascii_ws in Au. destruct (ws u) as [|e y]; [discriminate|]. apply TL in Au. destruct (e =? 125).
    { assert (l = [(join x, v)] /\ r = y) as [-> ->] by (split; congruence). split; [constructor; [split; [exact C|exact Nv]|constructor]|exact Au]. }
    destruct (e =? 44); [|discriminate]. destruct (members_at n (ws y)) as [[l' q']|] eqn:Q'; [|discriminate]. cbn [obind] in E.
    assert (l = (join x, v) :: l' /\ r = q') as [-> ->] by (split; congruence). destruct (IM _ _ _ (ascii_ws _ Au) Q') as [G B]. split; [now constructor|exact B].
Qed.
Theorem loads_normal s v : ascii s -> loads s = Some v -> normal v.
Proof.
  intros A E. unfold loads in E. destruct (value_at (2 * length s + 2)%nat (ws s)) as [[w r]|] eqn:Q; [|discriminate]. cbn [obind] in E.
  destruct (ws r); [|discriminate]. assert (w = v) as -> by congruence. exact (proj1 (proj1 (value_ok _) _ _ _ (ascii_ws _ A) Q)).
Qed.

(** ** Bytes *)
Lemma float_value_ascii r : float_value r -> ascii r.
Proof.
  assert (forall d, Forall (fun c => 48 <= c <= 57) d -> ascii d) as D by (intros d F; eapply Forall_impl; [|exact F]; cbn; lia).
  intros [(sg & ip & fp & ep & -> & SG & NI & DF & PE & _)|[->|[->| ->]]]; [|repeat constructor..].
  unfold ascii. repeat (apply Forall_app; split).
  - destruct SG as [->| ->]; repeat constructor.
  - destruct NI as [->|(c & t & -> & B & F)]; [repeat constructor|]. constructor; [lia|now apply D].
  - destruct DF as [->|(t & -> & _ & F)]; [constructor|]. constructor; [lia|now apply D].
  - destruct PE as [->|(m & s & t & -> & M & S & _ & F)]; [constructor|]. constructor; [lia|]. apply Forall_app. split; [|now apply D].
    destruct S as [->|[->| ->]]; repeat constructor.
Qed.
Lemma normal_ascii v : normal v -> ascii (dumps v).
Proof.
  induction v as [|b|z|t|s|l IH|l IH] using json_ind'; intros C.
  - repeat constructor.
  - destruct b; repeat constructor.
  - cbn [dumps]. eapply Forall_impl; [|apply int_repr_chars]. cbn. unfold digit. lia.
  - now apply float_value_ascii.
  - apply dumps_str_ascii.
  - apply normal_arr in C. cbn [dumps]. constructor; [lia|]. apply Forall_app. split; [|repeat constructor; lia]. apply intercalate_forall; [repeat constructor|].
    apply Forall_map. clear - IH C. induction IH; inversion C; subst; constructor; auto; now apply H.
  - apply normal_obj in C as [_ C]. rewrite dumps_obj. constructor; [lia|]. apply Forall_app. split; [|repeat constructor; lia]. apply intercalate_forall; [repeat constructor|].
    apply Forall_map. clear - IH C. induction IH as [|[k v] l H IH IHl]; inversion C as [|? ? [Ck Nv] C']; subst; constructor; [|now apply IHl]. unfold item_text. cbn [fst snd] in *.
    apply Forall_app. split; [apply dumps_str_ascii|]. apply Forall_app. split; [repeat constructor; lia|now apply H].
Qed.
Lemma chars_encode s : ascii s -> chars (ascii_encode s) = s.
Proof.
  intros A. unfold chars, ascii_encode. rewrite map_map. induction A as [|c s B A IH]; [reflexivity|]. cbn [map]. rewrite IH. f_equal.
  change (bval (byte_of c) = c). rewrite bval_byte_of. apply N.mod_small. lia.
Qed.
Lemma forallb_ascii s : forallb (fun c => c <? 128) s = true <-> ascii s.
Proof. unfold ascii. rewrite forallb_forall, Forall_forall. split; intros H x I; specialize (H x I); lia. Qed.
Theorem loads_bytes_dumps v : normal v -> loads_bytes (dumps_bytes v) = Ok v.
Proof.
  intros C. unfold loads_bytes, dumps_bytes. rewrite chars_encode by now apply normal_ascii.
  rewrite (proj2 (forallb_ascii _) (normal_ascii v C)). now rewrite loads_dumps.
Qed.
Theorem loads_bytes_normal b v : loads_bytes b = Ok v -> normal v.
Proof.
  unfold loads_bytes. destruct (forallb (fun c => c <? 128) (chars b)) eqn:A; [|discriminate]. apply forallb_ascii in A.
  destruct (loads (chars b)) as [w|] eqn:E; [|discriminate]. intros Q. assert (w = v) as -> by congruence. exact (loads_normal _ _ A E).
Qed.

(** ** What can be written *)
Lemma whole_number_form r : whole_number r = true <-> float_form r.
Proof.
  unfold whole_number. split.
  - destruct (number r) as [[[t [|]] [|]]|] eqn:E; try discriminate. intros _. apply number_ok in E as [-> F]. rewrite app_nil_r. now apply F.
  - intros (sg & ip & fp & ep & -> & SG & NI & D & P & NE).
    pose proof (number_app sg ip fp ep [] SG NI D P I) as Q. rewrite app_nil_r in Q. rewrite Q.
    destruct fp; [|reflexivity]. destruct ep; [|reflexivity]. destruct NE; contradiction.
Qed.
Lemma writable_float r : writable (JFloat r) = true <-> float_value r.
Proof.
  cbn [writable]. rewrite !orb_true_iff, whole_number_form, !str_eqb_eq. unfold float_value. tauto.
Qed.
Lemma normal_writable v : normal v -> writable v = true.
Proof.
  induction v as [|b|z|t|s|l IH|l IH] using json_ind'; intros C; try reflexivity.
  - now apply writable_float.
  - apply normal_arr in C. cbn [writable]. apply forallb_forall. intros x I. rewrite Forall_forall in IH, C. auto.
  - apply normal_obj in C as [_ C]. cbn [writable]. apply forallb_forall. intros [k v] I. rewrite Forall_forall in IH, C. destruct (C _ I). apply (IH _ I). assumption.
Qed.
Theorem dumps_value_normal v : normal v -> dumps_value v = Ok (dumps_bytes v).
Proof. intros C. unfold dumps_value. now rewrite normal_writable. Qed.
Lemma dumps_value_head v x : dumps_value v = Ok x -> exists c t, x = c :: t /\ 34 <= bval c < 128.
Proof.
  unfold dumps_value. destruct (writable v) eqn:W; [|discriminate]. intros E. assert (x = dumps_bytes v) as -> by congruence.
  unfold dumps_bytes, ascii_encode.
  assert (exists c t, dumps v = c :: t /\ 34 <= c < 128) as (c & t & -> & B).
  { destruct v as [|[|]|z|r|s|l|l].
    - do 2 eexists. split; [reflexivity|]. cbn. lia.
    - do 2 eexists. split; [reflexivity|]. cbn. lia.
    - do 2 eexists. split; [reflexivity|]. cbn. lia.
    - cbn [dumps]. destruct (int_repr_nonempty z) as (c & t & -> & D). exists c, t. split; [reflexivity|]. unfold digit in D. lia.
    - apply writable_float in W. cbn [dumps]. destruct W as [(sg & ip & fp & ep & -> & SG & NI & _)|[->|[->| ->]]]; try (do 2 eexists; split; [reflexivity|]; cbn; lia).
      destruct (number_start sg ip (fp ++ ep) SG NI) as (c & t & -> & H). exists c, t. split; [reflexivity|]. unfold number_head in H. lia.
    - cbn [dumps]. unfold dumps_str. do 2 eexists. split; [reflexivity|]. lia.
    - do 2 eexists. split; [reflexivity|]. lia.
    - do 2 eexists. split; [reflexivity|]. lia. }
  cbn [map]. do 2 eexists. split; [reflexivity|]. rewrite bval_byte_of, N.mod_small by lia. exact B.
Qed.
