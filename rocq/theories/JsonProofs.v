(** * JSON values: [json.dumps] is injective *)
From Coq Require Import Strings.String.
From Coq Require Import Decimal DecimalZ DecimalPos DecimalFacts.
From Verif Require Import Base BaseFacts StrModel StrFacts JsonModel JsonSpec.
Local Open Scope N_scope.
Open Scope list_scope.

Section Ind.
Variable P : json -> Prop.
Hypothesis Hnull : P JNull.
Hypothesis Hbool : forall b, P (JBool b).
Hypothesis Hint : forall z, P (JInt z).
Hypothesis Hfloat : forall r, P (JFloat r).
Hypothesis Hstr : forall s, P (JStr s).
Hypothesis Harr : forall l, Forall P l -> P (JArr l).
Hypothesis Hobj : forall l, Forall (fun kv => P (snd kv)) l -> P (JObj l).
Fixpoint json_ind' (v : json) : P v :=
  match v with
  | JNull => Hnull
  | JBool b => Hbool b
  | JInt z => Hint z
  | JFloat r => Hfloat r
  | JStr s => Hstr s
  | JArr l => Harr l ((fix all l := match l return Forall P l with [] => Forall_nil _ | v :: l => Forall_cons _ (json_ind' v) (all l) end) l)
  | JObj l => Hobj l ((fix all l := match l return Forall (fun kv => P (snd kv)) l with [] => Forall_nil _ | kv :: l => Forall_cons _ (json_ind' (snd kv)) (all l) end) l)
  end.
End Ind.

(** ** Scalars are maximal runs of token characters *)
Definition token_char (c : N) : bool := (48 <=? c) && (c <=? 57) || (65 <=? c) && (c <=? 90) || (97 <=? c) && (c <=? 122) || (c =? 43) || (c =? 45) || (c =? 46).
Definition stops (r : str) : Prop := match r with [] => True | c :: _ => c = 44 \/ c = 93 \/ c = 125 end.
Lemma stops_token r : stops r -> match r with [] => True | c :: _ => token_char c = false end.
Proof. destruct r as [|c r]; [auto|]. intros [->|[->| ->]]; reflexivity. Qed.

Lemma token_split (t1 t2 r1 r2 : str) : Forall (fun c => token_char c = true) t1 -> Forall (fun c => token_char c = true) t2 ->
  stops r1 -> stops r2 -> t1 ++ r1 = t2 ++ r2 -> t1 = t2 /\ r1 = r2.
Proof.
  intros F1 F2 S1 S2. apply stops_token in S1, S2. revert t2 F2. induction F1 as [|c t1 T F1 IH]; intros t2 F2 E; destruct F2 as [|d t2 T2 F2]; cbn in E.
  - auto.
  - subst r1. congruence.
  - subst r2. congruence.
  - injection E as -> E. destruct (IH _ F2 E). subst. auto.
Qed.

Definition digit (c : N) : Prop := 48 <= c <= 57.
Lemma uint_digits u : Forall digit (uint_chars u).
Proof. induction u; cbn; constructor; try assumption; unfold digit; lia. Qed.
Lemma uint_chars_inj u1 : forall u2, uint_chars u1 = uint_chars u2 -> u1 = u2.
Proof. induction u1; destruct u2; cbn; intros H; try discriminate; try reflexivity; injection H as H; f_equal; auto. Qed.
Lemma int_repr_inj z1 z2 : int_repr z1 = int_repr z2 -> z1 = z2.
Proof.
  intros H. apply DecimalZ.to_int_inj. unfold int_repr in H. destruct (Z.to_int z1) as [u1|u1], (Z.to_int z2) as [u2|u2].
  - f_equal. now apply uint_chars_inj.
  - pose proof (uint_digits u1) as D. rewrite H in D. inversion D as [|? ? E]. unfold digit in E. lia.
  - pose proof (uint_digits u2) as D. rewrite <- H in D. inversion D as [|? ? E]. unfold digit in E. lia.
  - injection H as H. f_equal. now apply uint_chars_inj.
Qed.
Lemma int_repr_chars z : Forall (fun c => digit c \/ c = 45) (int_repr z).
Proof.
  unfold int_repr. destruct (Z.to_int z) as [u|u]; [|constructor; [auto|]]; (eapply Forall_impl; [|apply uint_digits]; cbn; auto).
Qed.
Lemma int_repr_nonempty z : exists c t, int_repr z = c :: t /\ (digit c \/ c = 45).
Proof.
  pose proof (int_repr_chars z) as F. destruct (int_repr z) as [|c t] eqn:E; [|inversion F; eauto].
  exfalso. unfold int_repr in E. pose proof (DecimalZ.of_to z) as OT. destruct (Z.to_int z) as [u|u] eqn:T; [|discriminate]. destruct u; try discriminate. cbn in OT. subst z. discriminate T.
Qed.

Definition scalar (v : json) : bool := match v with JNull | JBool _ | JInt _ | JFloat _ => true | _ => false end.
Lemma lits_token s : forallb token_char s = true -> Forall (fun c => token_char c = true) s.
Proof. intros H. apply Forall_forall. now apply forallb_forall. Qed.
Lemma digit_token c : digit c -> token_char c = true.
Proof. unfold digit, token_char. intros D. replace ((48 <=? c) && (c <=? 57)) with true by lia. reflexivity. Qed.
Lemma scalar_token v : scalar v = true -> clean v -> Forall (fun c => token_char c = true) (dumps v).
Proof.
  destruct v as [|[|]|z|r| | |]; try discriminate; intros _ C; cbn.
  - apply lits_token; reflexivity.
  - apply lits_token; reflexivity.
  - apply lits_token; reflexivity.
  - eapply Forall_impl; [|apply int_repr_chars]. cbn. intros c [D| ->]; [now apply digit_token|reflexivity].
  - destruct C as [->|[->|[->|(F & _)]]]; try (apply lits_token; reflexivity). eapply Forall_impl; [|exact F]. cbn.
    intros c [D|[->|[->|[->| ->]]]]; try reflexivity. now apply digit_token.
Qed.
Lemma int_not_float z r : float_text r -> int_repr z <> r.
Proof.
  intros C E. pose proof (int_repr_chars z) as F. rewrite E in F. clear E. destruct C as [->|[->|[->|(_ & I)]]].
  - inversion F as [|? ? [D|D]]; [unfold digit in D; lia|discriminate D].
  - inversion F as [|? ? [D|D]]; [unfold digit in D; lia|discriminate D].
  - inversion F as [|? ? _ F2]. inversion F2 as [|? ? [D|D]]; [unfold digit in D; lia|discriminate D].
  - rewrite Forall_forall in F. destruct I as [I|I]; apply F in I as [D|D]; unfold digit in *; lia.
Qed.
Lemma float_head r : float_text r -> hd 0 r <> 110 /\ hd 0 r <> 116 /\ hd 0 r <> 102.
Proof.
  intros [->|[->|[->|(F & I)]]]; cbn; try lia. destruct F as [|c t H F]; cbn; lia.
Qed.
Lemma int_head z : hd 0 (int_repr z) <> 110 /\ hd 0 (int_repr z) <> 116 /\ hd 0 (int_repr z) <> 102.
Proof. destruct (int_repr_nonempty z) as (c & t & -> & D). unfold digit in D. cbn. lia. Qed.
Lemma scalar_inj v1 v2 : scalar v1 = true -> scalar v2 = true -> clean v1 -> clean v2 -> dumps v1 = dumps v2 -> v1 = v2.
Proof.
  intros S1 S2 C1 C2 E.
  assert (forall (a b : str), a = b -> hd 0 a = hd 0 b) as HD by congruence.
  destruct v1 as [|[|]|z1|r1| | |]; try discriminate S1; destruct v2 as [|[|]|z2|r2| | |]; try discriminate S2; cbn [dumps] in E; cbn [clean] in *;
    try reflexivity; try (apply HD in E; discriminate E);
    try (apply HD in E; pose proof (int_head z1) as I; rewrite E in I; cbn in I; lia);
    try (apply HD in E; pose proof (int_head z2) as I; rewrite <- E in I; cbn in I; lia);
    try (apply HD in E; pose proof (float_head r1 C1) as I; rewrite E in I; cbn in I; lia);
    try (apply HD in E; pose proof (float_head r2 C2) as I; rewrite <- E in I; cbn in I; lia).
  - f_equal. now apply int_repr_inj.
  - now apply int_not_float in E.
  - symmetry in E. now apply int_not_float in E.
  - now subst.
Qed.

(** ** Strings *)
Lemma hex_char_inj a b : a < 16 -> b < 16 -> hex_char a = hex_char b -> a = b.
Proof. unfold hex_char. intros. destruct (a <? 10) eqn:A, (b <? 10) eqn:B; lia. Qed.
Lemma nibbles u : u < 65536 -> u = (u / 4096 mod 16) * 4096 + (u / 256 mod 16) * 256 + (u / 16 mod 16) * 16 + u mod 16.
Proof. intros L. zify. Z.div_mod_to_equations. lia. Qed.

Lemma escape_prefix u1 u2 r1 r2 : u1 < 65536 -> u2 < 65536 -> escape u1 ++ r1 = escape u2 ++ r2 -> u1 = u2 /\ r1 = r2.
Proof.
  intros L1 L2. assert (forall u r, u < 65536 -> (escape u = [u] /\ u <> 92) \/ (exists c, escape u = [92; c] /\ c <> 117 /\ (c = 34 /\ u = 34 \/ c = 92 /\ u = 92 \/ c = 110 /\ u = 10 \/ c = 114 /\ u = 13 \/ c = 116 /\ u = 9 \/ c = 102 /\ u = 12 \/ c = 98 /\ u = 8)) \/
     escape u ++ r = 92 :: 117 :: hex_char (u / 4096 mod 16) :: hex_char (u / 256 mod 16) :: hex_char (u / 16 mod 16) :: hex_char (u mod 16) :: r) as CASES.
  { intros u r L. unfold escape.
    destruct (u =? 34) eqn:E1; [right; left; exists 34; repeat split; lia|].
    destruct (u =? 92) eqn:E2; [right; left; exists 92; repeat split; lia|].
    destruct (u =? 10) eqn:E3; [right; left; exists 110; repeat split; lia|].
    destruct (u =? 13) eqn:E4; [right; left; exists 114; repeat split; lia|].
    destruct (u =? 9) eqn:E5; [right; left; exists 116; repeat split; lia|].
    destruct (u =? 12) eqn:E6; [right; left; exists 102; repeat split; lia|].
    destruct (u =? 8) eqn:E7; [right; left; exists 98; repeat split; lia|].
    destruct ((32 <=? u) && (u <=? 126)) eqn:E8; [left; split; [reflexivity|lia]|]. right. right. reflexivity. }
  destruct (CASES u1 r1 L1) as [(A & A')|[(c & A & A' & A'')|A]]; destruct (CASES u2 r2 L2) as [(B & B')|[(d & B & B' & B'')|B]]; rewrite A, B; cbn [app]; intros E; try (injection E; intros; subst; lia).
  - injection E as -> ->. auto.
  - injection E as -> ->. split; [|reflexivity]. lia.
  - injection E as E1 E2 E3 E4 ->. split; [|reflexivity].
    apply hex_char_inj in E1; [|apply N.mod_lt; lia|apply N.mod_lt; lia]. apply hex_char_inj in E2; [|apply N.mod_lt; lia|apply N.mod_lt; lia].
    apply hex_char_inj in E3; [|apply N.mod_lt; lia|apply N.mod_lt; lia]. apply hex_char_inj in E4; [|apply N.mod_lt; lia|apply N.mod_lt; lia].
    rewrite (nibbles u1 L1), (nibbles u2 L2). congruence.
Qed.
Lemma escape_head u r : u < 65536 -> hd 0 (escape u ++ r) <> 34 /\ escape u ++ r <> [].
Proof.
  intros L. unfold escape. repeat match goal with |- context [if ?b then _ else _] => destruct b eqn:?; [cbn; split; [lia|discriminate]|] end. cbn. split; [lia|discriminate].
Qed.
Lemma escapes_prefix l1 : forall l2 r1 r2, Forall (fun u => u < 65536) l1 -> Forall (fun u => u < 65536) l2 ->
  flat_map escape l1 ++ 34 :: r1 = flat_map escape l2 ++ 34 :: r2 -> l1 = l2 /\ r1 = r2.
Proof.
  induction l1 as [|u1 l1 IH]; intros [|u2 l2] r1 r2 F1 F2; cbn [flat_map]; rewrite <- ?app_assoc; intros E.
  - injection E as ->. auto.
  - inversion F2; subst. exfalso. apply (proj1 (escape_head u2 (flat_map escape l2 ++ 34 :: r2) H1)). rewrite <- E. reflexivity.
  - inversion F1; subst. exfalso. apply (proj1 (escape_head u1 (flat_map escape l1 ++ 34 :: r1) H1)). rewrite E. reflexivity.
  - inversion F1; inversion F2; subst. apply escape_prefix in E as (-> & E); [|assumption|assumption]. apply IH in E as (-> & ->); auto.
Qed.
Lemma units_small s : Forall (fun c => c < 1114112) s -> Forall (fun u => u < 65536) (flat_map units s).
Proof.
  intros F. induction F as [|c s L F IH]; cbn; [constructor|]. apply Forall_app. split; [|exact IH]. unfold units. destruct (c <? 65536) eqn:E; [constructor; [lia|constructor]|].
  constructor; [|constructor; [|constructor]].
  - assert ((c - 65536) / 1024 < 1024) by (apply N.div_lt_upper_bound; lia). lia.
  - assert ((c - 65536) mod 1024 < 1024) by (apply N.mod_lt; lia). lia.
Qed.
Lemma astral_units c : 65536 <= c < 1114112 -> exists h l, units c = [h; l] /\ high h /\ low l /\ c = 65536 + (h - 55296) * 1024 + (l - 56320).
Proof.
  intros L. exists (55296 + (c - 65536) / 1024), (56320 + (c - 65536) mod 1024). unfold units, high, low. replace (c <? 65536) with false by lia.
  assert ((c - 65536) / 1024 < 1024) by (apply N.div_lt_upper_bound; lia). assert ((c - 65536) mod 1024 < 1024) by (apply N.mod_lt; lia).
  pose proof (N.div_mod (c - 65536) 1024). repeat split; try reflexivity; lia.
Qed.
Lemma unpaired_tail c s : unpaired (c :: s) -> unpaired s.
Proof. destruct s; cbn; tauto. Qed.
(** A list of units that starts with a low surrogate comes from a string that does. *)
Lemma units_low s l r : Forall (fun c => c < 1114112) s -> low l -> flat_map units s = l :: r -> exists s', s = l :: s'.
Proof.
  intros F L E. destruct F as [|c s B F]; [discriminate|]. cbn in E. destruct (N.lt_ge_cases c 65536) as [S|S].
  - unfold units in E. replace (c <? 65536) with true in E by lia. cbn in E. injection E as -> _. eauto.
  - destruct (astral_units c (conj S B)) as (h & l' & U & H & _). rewrite U in E. cbn in E. injection E as -> _. unfold high, low in *. lia.
Qed.
Lemma units_inj s1 : forall s2, clean_str s1 -> clean_str s2 -> flat_map units s1 = flat_map units s2 -> s1 = s2.
Proof.
  induction s1 as [|c1 s1 IH]; intros [|c2 s2] (F1 & U1) (F2 & U2) E.
  - reflexivity.
  - exfalso. cbn in E. unfold units in E. destruct (c2 <? 65536); discriminate.
  - exfalso. cbn in E. unfold units in E. destruct (c1 <? 65536); discriminate.
  - inversion F1 as [|? ? B1 F1']; subst. inversion F2 as [|? ? B2 F2']; subst. cbn [flat_map] in E.
    assert (c1 = c2 /\ flat_map units s1 = flat_map units s2) as (-> & E').
    { destruct (N.lt_ge_cases c1 65536) as [S1|S1], (N.lt_ge_cases c2 65536) as [S2|S2].
      - unfold units at 1 3 in E. replace (c1 <? 65536) with true in E by lia. replace (c2 <? 65536) with true in E by lia. cbn in E. injection E as -> E. auto.
      - exfalso. destruct (astral_units c2 (conj S2 B2)) as (h & l & U & H & L & _). rewrite U in E. unfold units at 1 in E. replace (c1 <? 65536) with true in E by lia. cbn in E. injection E as -> E.
        apply units_low in E as (s' & ->); [|exact F1'|exact L]. cbn in U1. tauto.
      - exfalso. destruct (astral_units c1 (conj S1 B1)) as (h & l & U & H & L & _). rewrite U in E. unfold units at 2 in E. replace (c2 <? 65536) with true in E by lia. cbn in E. injection E as <- E.
        symmetry in E. apply units_low in E as (s' & ->); [|exact F2'|exact L]. cbn in U2. tauto.
      - destruct (astral_units c1 (conj S1 B1)) as (h1 & l1 & A1 & _ & _ & C1). destruct (astral_units c2 (conj S2 B2)) as (h2 & l2 & A2 & _ & _ & C2). rewrite A1, A2 in E. cbn in E. injection E as -> -> E. split; [congruence|exact E]. }
    f_equal. apply IH; [split; [assumption|now apply unpaired_tail in U1]|split; [assumption|now apply unpaired_tail in U2]|exact E'].
Qed.
Lemma dumps_str_prefix s1 s2 r1 r2 : clean_str s1 -> clean_str s2 -> dumps_str s1 ++ r1 = dumps_str s2 ++ r2 -> s1 = s2 /\ r1 = r2.
Proof.
  intros C1 C2 E. unfold dumps_str in E. cbn [app] in E. rewrite <- !app_assoc in E. cbn [app] in E. injection E as E.
  apply escapes_prefix in E as (E & ->); [|apply units_small, C1|apply units_small, C2]. split; [|reflexivity]. now apply units_inj.
Qed.

(** ** Values *)
Definition item_text (kv : str * json) : str := dumps_str (fst kv) ++ [58; 32] ++ dumps (snd kv).
Lemma dumps_obj l : dumps (JObj l) = 123 :: intercalate [44; 32] (map item_text l) ++ [125].
Proof. cbn. do 2 f_equal. f_equal. apply map_ext. intros [k v]. reflexivity. Qed.
Lemma clean_arr l : clean (JArr l) <-> Forall clean l.
Proof. cbn. induction l as [|v l IH]; [split; [constructor|auto]|]. rewrite IH. split; [intros (A & B); now constructor|intros F; inversion F; auto]. Qed.
Lemma clean_obj l : clean (JObj l) <-> Forall (fun kv => clean_str (fst kv) /\ clean (snd kv)) l.
Proof.
  cbn. induction l as [|[k v] l IH]; [split; [constructor|auto]|]. rewrite IH. split; [intros (A & B & C); now constructor|intros F; inversion F as [|? ? (A & B) C]; auto].
Qed.

Section Seq.
Context {A : Type}.
Variable text : A -> str.
Variable ok : A -> Prop.
Variable close : N.
Hypothesis close_stops : stops [close].
Hypothesis close_comma : close <> 44.
Hypothesis nonclose : forall a, ok a -> hd 0 (text a) <> close /\ text a <> [].
Lemma seq_prefix l1 : Forall (fun a => forall b r1 r2, ok b -> stops r1 -> stops r2 -> text a ++ r1 = text b ++ r2 -> a = b /\ r1 = r2) l1 ->
  Forall ok l1 -> forall l2 r1 r2, Forall ok l2 -> intercalate [44; 32] (map text l1) ++ close :: r1 = intercalate [44; 32] (map text l2) ++ close :: r2 -> l1 = l2 /\ r1 = r2.
Proof.
  assert (forall r, stops (close :: r)) as SC by (intros r; exact close_stops).
  assert (forall (l : list A) r, stops (flat_map (fun y => [44; 32] ++ text y) l ++ close :: r)) as ST.
  { intros [|a l] r; cbn; [exact (SC r)|now left]. }
  intros P O1. destruct l1 as [|a l1]; intros [|b l2] r1 r2 O2.
  - cbn. intros E. injection E as ->. auto.
  - cbn. inversion O2; subst. intros E. exfalso. destruct (nonclose b) as (NC & NN); [assumption|]. destruct (text b); [contradiction|]. cbn in *. congruence.
  - cbn. inversion O1; subst. intros E. exfalso. destruct (nonclose a) as (NC & NN); [assumption|]. destruct (text a); [contradiction|]. cbn in *. congruence.
  - cbn [map intercalate]. rewrite <- !app_assoc. rewrite !flat_map_concat_map, !map_map, <- !flat_map_concat_map. pose proof (Forall_inv P) as Pa. apply Forall_inv_tail in P. apply Forall_inv_tail in O1. pose proof (Forall_inv O2) as Ob. apply Forall_inv_tail in O2.
    intros E. apply Pa in E as (-> & E); [|exact Ob|apply ST|apply ST].
    assert (l1 = l2 /\ r1 = r2) as (-> & ->); [|auto]. clear Pa Ob. revert O1 l2 O2 E. induction P as [|x l1 Px P IH]; intros O1 [|y l2] O2 E; cbn in E.
    + injection E as ->. auto.
    + exfalso. injection E as E _. congruence.
    + exfalso. injection E as E _. congruence.
    + injection E as E. rewrite <- !app_assoc in E. apply Forall_inv_tail in O1. pose proof (Forall_inv O2) as Oy. apply Forall_inv_tail in O2.
      apply Px in E as (-> & E); [|exact Oy|apply ST|apply ST]. destruct (IH O1 l2 O2 E) as (-> & ->). auto.
Qed.
End Seq.

Lemma dumps_head v : clean v -> hd 0 (dumps v) <> 93 /\ dumps v <> [] /\ (scalar v = true -> token_char (hd 0 (dumps v)) = true) /\ match v with JStr _ => hd 0 (dumps v) = 34 | JArr _ => hd 0 (dumps v) = 91 | JObj _ => hd 0 (dumps v) = 123 | _ => True end.
Proof.
  intros C. assert (scalar v = true -> dumps v <> []) as NE.
  { destruct v as [|[|]|z|r| | |]; try discriminate; intros _; cbn; try discriminate.
    - destruct (int_repr_nonempty z) as (c & t & -> & _). discriminate.
    - destruct C as [->|[->|[->|(_ & [I|I])]]]; try discriminate; destruct r; try contradiction; discriminate. }
  assert (scalar v = true -> token_char (hd 0 (dumps v)) = true) as T.
  { intros S. pose proof (scalar_token v S C) as F. specialize (NE S). destruct (dumps v); [contradiction|]. now inversion F. }
  assert (forall c, token_char c = true -> c <> 93) as T93 by (intros c H ->; discriminate H).
  destruct (scalar v) eqn:S.
  - repeat split; auto. now destruct v.
  - destruct v; try discriminate S; cbn; repeat split; try discriminate.
Qed.

Theorem dumps_prefix v1 : forall v2 r1 r2, clean v1 -> clean v2 -> stops r1 -> stops r2 -> dumps v1 ++ r1 = dumps v2 ++ r2 -> v1 = v2 /\ r1 = r2.
Proof.
  assert (forall v1 v2 r1 r2, scalar v1 = true -> clean v1 -> clean v2 -> stops r1 -> stops r2 -> dumps v1 ++ r1 = dumps v2 ++ r2 -> v1 = v2 /\ r1 = r2) as SC.
  { intros a b r1 r2 S C1 C2 S1 S2 E. destruct (scalar b) eqn:Sb.
    - destruct (token_split _ _ _ _ (scalar_token a S C1) (scalar_token b Sb C2) S1 S2 E) as (E' & ->). split; [now apply scalar_inj|reflexivity].
    - exfalso. destruct (dumps_head a C1) as (_ & Na & Ta & _). destruct (dumps_head b C2) as (_ & Nb & _ & Tb). specialize (Ta S).
      apply (f_equal (hd 0)) in E. destruct (dumps a) as [|x ta]; [contradiction|]. destruct (dumps b) as [|y tb]; [contradiction|]. cbn in *. subst y.
      destruct b; try discriminate Sb; subst x; discriminate Ta. }
  assert (forall v1 v2 r1 r2, scalar v2 = true -> clean v1 -> clean v2 -> stops r1 -> stops r2 -> dumps v1 ++ r1 = dumps v2 ++ r2 -> v1 = v2 /\ r1 = r2) as SC'.
  { intros a b r1 r2 S C1 C2 S1 S2 E. symmetry in E. destruct (SC b a r2 r1 S C2 C1 S2 S1 E). auto. }
  induction v1 as [|b|z|r|s|l IH|l IH] using json_ind'; intros v2 r1 r2 C1 C2 S1 S2 E;
    try (apply SC; [reflexivity|assumption|assumption|assumption|assumption|exact E]);
    destruct (scalar v2) eqn:Sv; try (apply SC'; [exact Sv|assumption|assumption|assumption|assumption|exact E]);
    destruct v2 as [| | | |s2|l2|l2]; try discriminate Sv; try (exfalso; apply (f_equal (hd 0)) in E; discriminate E).
  - apply dumps_str_prefix in E as (-> & ->); auto.
  - apply clean_arr in C1. apply clean_arr in C2. cbn [dumps app] in E. injection E as E. rewrite <- !app_assoc in E. cbn [app] in E.
    apply (seq_prefix dumps clean 93) in E as (-> & ->); auto; try discriminate.
    + right; left; reflexivity.
    + intros a Ca. destruct (dumps_head a Ca) as (A & B & _). auto.
    + rewrite Forall_forall in *. intros a I b r1' r2' Cb T1 T2 E'. apply (IH a I); auto.
  - apply clean_obj in C1. apply clean_obj in C2. rewrite !dumps_obj in E. cbn [app] in E. injection E as E. rewrite <- !app_assoc in E. cbn [app] in E.
    apply (seq_prefix item_text (fun kv => clean_str (fst kv) /\ clean (snd kv)) 125) in E as (-> & ->); auto; try discriminate.
    + right; right; reflexivity.
    + intros a _. split; discriminate.
    + rewrite Forall_forall in *. intros [k v] I [k' v'] r1' r2' (Ck' & Cv') T1 T2 E'. destruct (C1 _ I) as (Ck & Cv). unfold item_text in E'. cbn [fst snd] in *.
      rewrite <- !app_assoc in E'. apply dumps_str_prefix in E' as (-> & E'); auto. cbn [app] in E'. injection E' as E'. destruct (IH _ I v' r1' r2' Cv Cv' T1 T2 E') as (<- & ->). auto.
Qed.
Theorem dumps_inj v1 v2 : clean v1 -> clean v2 -> dumps v1 = dumps v2 -> v1 = v2.
Proof. intros C1 C2 E. apply (dumps_prefix v1 v2 [] []); auto; try exact I. now rewrite !app_nil_r. Qed.

(** ** The result is ASCII *)
Lemma escape_ascii u : Forall (fun c => c < 128) (escape u).
Proof.
  unfold escape. repeat match goal with |- context [if ?b then _ else _] => destruct b eqn:? end; repeat constructor; try lia.
  all: unfold hex_char; match goal with |- (if ?d <? 10 then _ else _) < 128 => assert (d < 16) by (apply N.mod_lt; lia); destruct (d <? 10); lia end.
Qed.
Lemma dumps_str_ascii s : Forall (fun c => c < 128) (dumps_str s).
Proof.
  unfold dumps_str. constructor; [lia|]. apply Forall_app. split; [|constructor; [lia|constructor]]. apply Forall_flat_map. apply Forall_forall. intros u _. apply escape_ascii.
Qed.
Lemma intercalate_forall (P : N -> Prop) sep l : Forall P sep -> Forall (Forall P) l -> Forall P (intercalate sep l).
Proof.
  intros S F. destruct F as [|x l X F]; cbn; [constructor|]. apply Forall_app. split; [exact X|]. apply Forall_flat_map. eapply Forall_impl; [|exact F]. cbn. intros y Y. apply Forall_app. auto.
Qed.
Lemma dumps_ascii v : clean v -> Forall (fun c => c < 128) (dumps v).
Proof.
  induction v as [|b|z|r|s|l IH|l IH] using json_ind'; intros C;
    try (match goal with |- Forall _ (dumps ?v) => pose proof (scalar_token v eq_refl C) as T end; eapply Forall_impl; [|exact T]; cbn; intros c; unfold token_char; intros H; lia).
  - apply dumps_str_ascii.
  - apply clean_arr in C. cbn [dumps]. constructor; [lia|]. apply Forall_app. split; [|constructor; [lia|constructor]]. apply intercalate_forall; [repeat constructor; lia|].
    apply Forall_map. rewrite Forall_forall in *. intros v I. apply IH; auto.
  - apply clean_obj in C. rewrite dumps_obj. constructor; [lia|]. apply Forall_app. split; [|constructor; [lia|constructor]]. apply intercalate_forall; [repeat constructor; lia|].
    apply Forall_map. rewrite Forall_forall in *. intros kv I. unfold item_text. apply Forall_app. split; [apply dumps_str_ascii|]. constructor; [lia|]. constructor; [lia|]. apply IH; [exact I|]. now apply C.
Qed.
Lemma ascii_encode_inj a b : Forall (fun c => c < 128) a -> Forall (fun c => c < 128) b -> ascii_encode a = ascii_encode b -> a = b.
Proof.
  intros FA. revert b. induction FA as [|x a X FA IH]; intros [|y b] FB E; try discriminate; [reflexivity|]. inversion FB; subst. cbn in E. injection E as E1 E2. f_equal; [|now apply IH].
  apply (f_equal bval) in E1. rewrite !bval_byte_of in E1. rewrite !N.mod_small in E1 by lia. exact E1.
Qed.
Theorem dumps_bytes_inj v1 v2 : clean v1 -> clean v2 -> dumps_bytes v1 = dumps_bytes v2 -> v1 = v2.
Proof. intros C1 C2 E. apply dumps_inj; auto. apply ascii_encode_inj; auto using dumps_ascii. Qed.
