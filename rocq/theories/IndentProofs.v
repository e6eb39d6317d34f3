(** * Texts of [json.dumps(..., indent=4)] are read back *)
From Coq Require Import Strings.String Decimal ZifyBool ZifyNat ZifyN Lia.
From Verif Require Import Base BaseFacts StrModel StrFacts JsonModel JsonSpec JsonProofs LoadsModel LoadsSpec LoadsProofs ServiceModel.
Import ListNotations.
Open Scope list_scope.
Local Open Scope N_scope.

Definition ends (r : str) : Prop := match r with [] => True | c :: _ => c = 44 \/ c = 93 \/ c = 125 \/ c = 10 end.
Lemma ends_behind r : ends r -> behind r.
Proof. destruct r as [|c r]; [auto|]. intros [->|[->|[->| ->]]]; cbn; repeat split; lia. Qed.
Lemma scalar_int' z r : ends r -> scalar_at (int_repr z ++ r) = Some (JInt z, r).
Proof.
  intros S. destruct (int_repr_form z) as (sg & ip & E & SG & NI).
  pose proof (number_app sg ip [] [] r SG NI (or_introl eq_refl) (or_introl eq_refl) (ends_behind _ S)) as Q. rewrite !app_nil_r in Q. rewrite <- E in Q.
  assert (exists c u, int_repr z ++ r = c :: u /\ number_head c) as HD by (rewrite E, <- app_assoc; now apply number_start).
  rewrite (scalar_number _ _ _ _ HD Q). now rewrite int_of_repr.
Qed.
Lemma scalar_float' t r : float_value t -> ends r -> scalar_at (t ++ r) = Some (JFloat t, r).
Proof.
  intros [(sg & ip & fp & ep & -> & SG & NI & D & P & NE)|C] S.
  - pose proof (number_app sg ip fp ep r SG NI D P (ends_behind _ S)) as Q.
    assert (exists c u, (sg ++ ip ++ fp ++ ep) ++ r = c :: u /\ number_head c) as HD by (rewrite <- !app_assoc; now apply number_start).
    rewrite (scalar_number _ _ _ _ HD Q).
    destruct fp; [|reflexivity]. destruct ep; [|reflexivity]. destruct NE; contradiction.
  - destruct C as [->|[->| ->]]; reflexivity.
Qed.
Lemma ws_line n s : ws (new_line n ++ s) = ws s.
Proof.
  unfold new_line. cbn [app ws]. change ((10 =? 32) || (10 =? 9) || (10 =? 10) || (10 =? 13)) with true. cbv iota.
  induction (4 * n)%nat as [|k IH]; [reflexivity|]. exact IH.
Qed.
Lemma ends_line n s : ends (new_line n ++ s).
Proof. unfold new_line. cbn. auto. Qed.

Definition item4 (n : nat) (kv : str * json) : str := dumps_str (fst kv) ++ [58; 32] ++ dumps4 n (snd kv).
Lemma dumps4_arr n v l : dumps4 n (JArr (v :: l)) = 91 :: new_line (S n) ++
  intercalate (44 :: new_line (S n)) (map (dumps4 (S n)) (v :: l)) ++ new_line n ++ [93].
Proof. reflexivity. Qed.
Lemma dumps4_obj n kv l : dumps4 n (JObj (kv :: l)) = 123 :: new_line (S n) ++
  intercalate (44 :: new_line (S n)) (map (item4 (S n)) (kv :: l)) ++ new_line n ++ [125].
Proof.
  cbn [dumps4]. do 4 f_equal. apply map_ext. intros [k w]. reflexivity.
Qed.
Lemma dumps4_first n v : normal v -> exists c t, dumps4 n v = c :: t /\ ~ (c = 32 \/ c = 9 \/ c = 10 \/ c = 13) /\ c <> 93.
Proof.
  intros C. destruct v as [|b|z|r|s|l|l]; try (exact (dumps_first _ C)).
  - destruct l as [|v l]; [|rewrite dumps4_arr]; (do 2 eexists; split; [reflexivity|]; cbn; lia).
  - destruct l as [|v l]; [|rewrite dumps4_obj]; (do 2 eexists; split; [reflexivity|]; cbn; lia).
Qed.
Lemma ws_value4 n v r : normal v -> ws (dumps4 n v ++ r) = dumps4 n v ++ r.
Proof. intros C. destruct (dumps4_first n v C) as (c & t & E & W & _). rewrite E. now apply ws_stay. Qed.

Definition reads4 (v : json) : Prop := normal v -> forall m n r, ends r -> (need v <= n)%nat -> value_at n (dumps4 m v ++ r) = Some (v, r).

Lemma elements_read4 m k l : Forall reads4 l -> Forall normal l -> forall v, reads4 v -> normal v -> forall n r, (needs (v :: l) <= n)%nat ->
  elements_at n ((dumps4 m v ++ flat_map (fun y => (44 :: new_line m) ++ y) (map (dumps4 m) l)) ++ new_line k ++ 93 :: r) = Some (v :: l, r).
Proof.
  induction l as [|w l IH]; intros R N v Rv Nv n r L; (destruct n as [|n]; [cbn in L; lia|]); cbn [elements_at map flat_map].
  - rewrite app_nil_r, (Rv Nv); [|apply ends_line|cbn in L; lia]. cbn [obind]. rewrite ws_line. reflexivity.
  - inversion R as [|? ? Rw R']; subst. inversion N as [|? ? Nw N']; subst. rewrite <- !app_assoc. rewrite (Rv Nv).
    + cbn [obind]. rewrite <- !app_comm_cons. rewrite ws_stay by lia. change (44 =? 93) with false. change (44 =? 44) with true. cbv iota.
      repeat rewrite <- app_assoc. rewrite ws_line.
      rewrite ws_value4 by exact Nw. specialize (IH R' N' w Rw Nw n r). rewrite <- app_assoc in IH. rewrite IH by (cbn in L |- *; lia). reflexivity.
    + cbn. auto.
    + cbn in L. lia.
Qed.
Lemma members_read4 m k l : Forall (fun kv => reads4 (snd kv)) l -> Forall (fun kv => clean_str (fst kv) /\ normal (snd kv)) l ->
  forall kv, reads4 (snd kv) -> clean_str (fst kv) /\ normal (snd kv) -> forall n r, (mneeds (kv :: l) <= n)%nat ->
  members_at n ((item4 m kv ++ flat_map (fun y => (44 :: new_line m) ++ y) (map (item4 m) l)) ++ new_line k ++ 125 :: r) = Some (kv :: l, r).
Proof.
  assert (forall k v n x, clean_str k -> normal v -> members_at (S n) ((dumps_str k ++ [58; 32] ++ dumps4 m v) ++ x) =
    obind (value_at n (dumps4 m v ++ x)) (fun '(v, s) => match ws s with
                | c :: r => if c =? 125 then Some ([(k, v)], r)
                  else if c =? 44 then obind (members_at n (ws r)) (fun '(l, r) => Some ((k, v) :: l, r)) else None
                | [] => None end)) as STEP.
  { intros a v n x C N. rewrite <- app_assoc. destruct (scan_str a (([58; 32] ++ dumps4 m v) ++ x) C) as (y & S & J).
    unfold dumps_str in S |- *. cbn [app skipn] in S |- *. cbn [members_at]. change (34 =? 34) with true. cbv iota. rewrite S. cbn [obind].
    rewrite ws_stay by lia. change (58 =? 58) with true. cbv iota. rewrite ws_space, ws_value4 by exact N. now rewrite J. }
  induction l as [|w l IH]; intros R N [a v] Rv [Ck Nv] n r L; (destruct n as [|n]; [cbn in L; lia|]); cbn [fst snd] in *; unfold item4 at 1; cbn [fst snd map flat_map].
  - rewrite app_nil_r, STEP by assumption. rewrite (Rv Nv); [|apply ends_line|cbn in L; lia]. cbn [obind]. rewrite ws_line. reflexivity.
  - inversion R as [|? ? Rw R']; subst. inversion N as [|? ? Nw N']; subst.
    rewrite <- (app_assoc (dumps_str a ++ [58; 32] ++ dumps4 m v)). rewrite STEP by assumption. rewrite <- !app_assoc, (Rv Nv).
    + cbn [obind]. rewrite <- !app_comm_cons. rewrite ws_stay by lia. change (44 =? 125) with false. change (44 =? 44) with true. cbv iota.
      repeat rewrite <- app_assoc. rewrite ws_line.
      match goal with |- context [ws (item4 m w ++ ?x)] => change (ws (item4 m w ++ x)) with (item4 m w ++ x) end.
      specialize (IH R' N' w Rw Nw n r). rewrite <- app_assoc in IH. rewrite IH; [reflexivity|]. destruct w. cbn in L |- *. lia.
    + cbn. auto.
    + destruct w. cbn in L. lia.
Qed.
Theorem value_read4 v : reads4 v.
Proof.
  induction v as [|b|z|t|s|l IH|l IH] using json_ind'; intros C m n r S L; (destruct n as [|n]; [cbn in L; lia|]).
  - apply value_scalar; [do 2 eexists; split; [reflexivity|]; cbn; lia|reflexivity].
  - destruct b; (apply value_scalar; [do 2 eexists; split; [reflexivity|]; cbn; lia|reflexivity]).
  - cbn [dumps4 dumps]. apply value_scalar; [|now apply scalar_int']. destruct (int_repr_nonempty z) as (c & t & -> & D). exists c, (t ++ r). split; [reflexivity|].
    unfold digit in D. lia.
  - cbn [dumps4 dumps]. apply value_scalar; [|now apply scalar_float']. destruct C as [(sg & ip & fp & ep & -> & SG & NI & _)|[->|[->| ->]]]; try (do 2 eexists; split; [reflexivity|]; cbn; lia).
    destruct (number_start sg ip (fp ++ ep) SG NI) as (c & t & -> & Hd). exists c, (t ++ r). split; [reflexivity|]. unfold number_head in Hd. lia.
  - cbn [dumps4 dumps]. destruct (scan_str s r C) as (x & E & J). unfold dumps_str in E |- *. cbn [app skipn] in E |- *. cbn [value_at].
    change (34 =? 34) with true. cbv iota. rewrite E. cbn. now rewrite J.
  - apply normal_arr in C. destruct l as [|v l]; [reflexivity|]. rewrite dumps4_arr. cbn [app value_at]. change (91 =? 34) with false. change (91 =? 91) with true. cbv iota.
    cbn [map intercalate]. inversion IH as [|? ? Rv R]; subst. inversion C as [|? ? Nv N]; subst.
    rewrite <- !app_assoc, ws_line. rewrite ws_value4 by exact Nv. destruct (dumps4_first (Datatypes.S m) v Nv) as (c & t & E & W & X). rewrite E at 1. cbn [app].
    replace (c =? 93) with false by lia. pose proof (elements_read4 (Datatypes.S m) m l R N v Rv Nv n r) as Q. rewrite <- app_assoc in Q. cbn [app] in Q. rewrite Q; [reflexivity|].
    change (need (JArr (v :: l))) with (Datatypes.S (needs (v :: l))) in L. lia.
  - apply normal_obj in C as [ND C]. destruct l as [|kv l]; [reflexivity|]. rewrite dumps4_obj. cbn [app value_at]. change (123 =? 34) with false. change (123 =? 91) with false. change (123 =? 123) with true. cbv iota.
    cbn [map intercalate]. inversion IH as [|? ? Rv R]; subst. inversion C as [|? ? Nv N]; subst.
    rewrite <- !app_assoc, ws_line.
    match goal with |- context [ws (item4 ?a kv ++ ?x)] => change (ws (item4 a kv ++ x)) with (item4 a kv ++ x);
      assert (item4 a kv ++ x = 34 :: skipn 1 (item4 a kv ++ x)) as W by reflexivity end.
    pose proof (members_read4 (Datatypes.S m) m l R N kv Rv Nv n r) as Q. rewrite <- app_assoc in Q. cbn [app] in Q, W |- *. rewrite Q by (
      change (need (JObj (kv :: l))) with (Datatypes.S (mneeds (kv :: l))) in L; lia).
    rewrite W. change (34 =? 125) with false. cbv iota. cbn [obind]. now rewrite dict_of_nodup.
Qed.

Lemma flat_length {A} (f : A -> str) (w1 w2 : A -> str) l : (forall x, In x l -> (length (w1 x) <= length (w2 x))%nat) ->
  forall s1 s2 : str, (length s1 <= length s2)%nat ->
  (length (flat_map (fun y => s1 ++ y) (map w1 l)) <= length (flat_map (fun y => s2 ++ y) (map w2 l)))%nat.
Proof.
  intros W s1 s2 S. induction l as [|x l IH]; [cbn; lia|]. cbn [map flat_map]. rewrite !app_length.
  pose proof (W x (or_introl eq_refl)). specialize (IH (fun y I => W y (or_intror I))). lia.
Qed.
Lemma dumps_shorter v : forall n, (length (dumps v) <= length (dumps4 n v))%nat.
Proof.
  assert (LN : forall n, (1 <= length (new_line n))%nat) by (intros n; unfold new_line; cbn [length]; lia).
  assert (LS : forall n, (length [44%N; 32%N] <= length (44%N :: new_line (S n)))%nat) by (intros n; specialize (LN (S n)); cbn [length]; lia).
  induction v as [|b|z|t|s|l IH|l IH] using json_ind'; intros n; try (cbn; lia).
  - destruct l as [|v l]; [cbn; lia|]. rewrite dumps4_arr. cbn [dumps map intercalate length]. rewrite !app_length. cbn [length]. inversion IH as [|? ? Rv R]; subst.
    specialize (Rv (S n)). assert (G : forall x, In x l -> (length (dumps x) <= length (dumps4 (S n) x))%nat) by (rewrite Forall_forall in R; auto).
    pose proof (flat_length (fun _ => []) dumps (dumps4 (S n)) l G _ _ (LS n)). lia.
  - destruct l as [|kv l]; [cbn; lia|]. rewrite dumps4_obj, dumps_obj. cbn [map intercalate length]. rewrite !app_length. cbn [length]. inversion IH as [|? ? Rv R]; subst.
    assert (T : forall x, (length (dumps (snd x)) <= length (dumps4 (S n) (snd x)))%nat -> (length (item_text x) <= length (item4 (S n) x))%nat)
      by (intros x Q; unfold item_text, item4; rewrite !app_length; lia).
    assert (G : forall x, In x l -> (length (item_text x) <= length (item4 (S n) x))%nat) by (rewrite Forall_forall in R; intros x I; apply T; now apply R).
    pose proof (T kv (Rv (S n))). pose proof (flat_length (fun _ => []) item_text (item4 (S n)) l G _ _ (LS n)). lia.
Qed.
Theorem loads_dumps4 v : normal v -> loads (dumps4 0 v) = Some v.
Proof.
  intros C. unfold loads. pose proof (ws_value4 0 v [] C) as W. rewrite app_nil_r in W. rewrite W.
  pose proof (value_read4 v C 0%nat (2 * length (dumps4 0 v) + 2)%nat [] I) as R. rewrite app_nil_r in R. rewrite R; [reflexivity|].
  pose proof (need_size v C). pose proof (dumps_shorter v 0). lia.
Qed.

Lemma ascii_line n : ascii (new_line n).
Proof. unfold new_line. constructor; [lia|]. induction (4 * n)%nat; constructor; [lia|assumption]. Qed.
Lemma ascii_both a b : ascii a -> ascii b -> ascii (a ++ b).
Proof. intros A B. apply Forall_app. auto. Qed.
Lemma ascii_all s (l : list str) : ascii s -> Forall ascii l -> ascii (flat_map (fun y => s ++ y) l).
Proof. intros A F. induction F as [|x l X F IH]; [constructor|]. cbn [flat_map]. apply ascii_both; [apply ascii_both; assumption|exact IH]. Qed.
Lemma normal_ascii4 v : forall n, normal v -> ascii (dumps4 n v).
Proof.
  induction v as [|b|z|t|s|l IH|l IH] using json_ind'; intros n C; try (exact (normal_ascii _ C)).
  - apply normal_arr in C. destruct l as [|v l]; [repeat constructor; lia|]. rewrite dumps4_arr. constructor; [lia|]. apply ascii_both; [apply ascii_line|]. apply ascii_both.
    + inversion IH as [|? ? Rv R]; subst. inversion C as [|? ? Nv N]; subst. cbn [map intercalate]. apply ascii_both; [auto|]. apply ascii_all; [constructor; [lia|apply ascii_line]|].
      apply Forall_map. apply Forall_forall. intros x I. pose proof (proj1 (Forall_forall _ _) R x I). pose proof (proj1 (Forall_forall _ _) N x I). cbn beta in *. auto.
    + apply ascii_both; [apply ascii_line|repeat constructor; lia].
  - apply normal_obj in C as [_ C]. destruct l as [|kv l]; [repeat constructor; lia|]. rewrite dumps4_obj. constructor; [lia|]. apply ascii_both; [apply ascii_line|].
    assert (T : forall x, clean_str (fst x) /\ normal (snd x) -> (forall n, normal (snd x) -> ascii (dumps4 n (snd x))) -> ascii (item4 (S n) x)).
    { intros x [X Y] Z. unfold item4. apply ascii_both; [apply dumps_str_ascii|]. apply ascii_both; [repeat constructor; lia|]. apply Z, Y. }
    apply ascii_both.
    + inversion IH as [|? ? Rv R]; subst. inversion C as [|? ? Nv N]; subst. cbn [map intercalate]. apply ascii_both; [auto|]. apply ascii_all; [constructor; [lia|apply ascii_line]|].
      apply Forall_map. apply Forall_forall. intros x I. pose proof (proj1 (Forall_forall _ _) R x I). pose proof (proj1 (Forall_forall _ _) N x I). cbn beta in *. auto.
    + apply ascii_both; [apply ascii_line|repeat constructor; lia].
Qed.
Theorem loads_bytes_dumps4 v : normal v -> loads_bytes (dumps4_bytes v) = Ok v.
Proof.
  intros C. unfold loads_bytes, dumps4_bytes. rewrite chars_encode by now apply normal_ascii4.
  rewrite (proj2 (forallb_ascii _) (normal_ascii4 v 0 C)). now rewrite loads_dumps4.
Qed.
