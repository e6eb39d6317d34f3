(** * Proofs about randomness *)
From Verif Require Import Base BaseFacts CanonModel CanonSpec CanonProofs RandomModel RandomSpec.
Local Open Scope N_scope.

(** ** Bit fields *)
Lemma lxor_shift a b k : b < 2 ^ k -> N.lxor (N.shiftl a k) b = a * 2 ^ k + b.
Proof.
  intros B. rewrite <- N.add_nocarry_lxor, N.shiftl_mul_pow2; [reflexivity|].
  apply N.bits_inj. intros n. rewrite N.land_spec, N.bits_0.
  destruct (N.ltb_spec n k).
  - now rewrite N.shiftl_spec_low by assumption.
  - rewrite (N.testbit_eqb b), N.div_small; [now rewrite andb_false_r|].
    apply N.lt_le_trans with (2 ^ k); [exact B|]. now apply N.pow_le_mono_r.
Qed.

Lemma shift_small a k j : a < 2 ^ j -> N.shiftl a k < 2 ^ (j + k).
Proof. intros A. rewrite N.shiftl_mul_pow2, N.pow_add_r. apply N.mul_lt_mono_pos_r; [|exact A]. apply N.neq_0_lt_0, N.pow_nonzero. discriminate. Qed.

Lemma token_value b t h p : t < 2 ^ 64 -> h < 2 ^ 64 -> p < 2 ^ 64 ->
  N.lxor (N.lxor (N.lxor (N.shiftl b 192) (N.shiftl t 128)) (N.shiftl h 64)) p =
  ((b * 2 ^ 64 + t) * 2 ^ 64 + h) * 2 ^ 64 + p.
Proof.
  intros T H P.
  rewrite (lxor_shift b (N.shiftl t 128) 192) by (apply (shift_small t 128 64 T)).
  replace (b * 2 ^ 192 + N.shiftl t 128) with (N.shiftl (b * 2 ^ 64 + t) 128)
    by (rewrite !N.shiftl_mul_pow2; change (2 ^ 192) with (2 ^ 64 * 2 ^ 128); ring).
  rewrite (lxor_shift _ (N.shiftl h 64) 128) by (apply (shift_small h 64 64 H)).
  replace ((b * 2 ^ 64 + t) * 2 ^ 128 + N.shiftl h 64) with (N.shiftl ((b * 2 ^ 64 + t) * 2 ^ 64 + h) 64)
    by (rewrite !N.shiftl_mul_pow2; change (2 ^ 128) with (2 ^ 64 * 2 ^ 64); ring).
  now rewrite (lxor_shift _ p 64) by exact P.
Qed.

Lemma token_layout c : fields_fit c ->
  canonical_token c = Ok (be_enc 32 (c_bits c) ++ be_enc 8 (c_time c) ++ be_enc 8 (c_thread c) ++ be_enc 8 (c_process c)).
Proof.
  intros (B & T & H & P). unfold canonical_token. rewrite token_value by assumption.
  set (l := be_enc 32 _ ++ _).
  assert (L : blen l = 56) by (subst l; rewrite !blen_app, !blen_be_enc; reflexivity).
  assert (V : be_int l = ((c_bits c * 2 ^ 64 + c_time c) * 2 ^ 64 + c_thread c) * 2 ^ 64 + c_process c).
  { subst l. rewrite !be_int_app, !blen_app, !blen_be_enc, !be_int_be_enc.
    change (256 ^ N.of_nat 32) with (2 ^ 256). change (256 ^ N.of_nat 8) with (2 ^ 64).
    rewrite !N.mod_small by assumption.
    change (256 ^ (N.of_nat 8 + (N.of_nat 8 + N.of_nat 8))) with (2 ^ 64 * 2 ^ 64 * 2 ^ 64).
    change (256 ^ (N.of_nat 8 + N.of_nat 8)) with (2 ^ 64 * 2 ^ 64). ring. }
  rewrite <- V, <- L. apply to_bytes_be_be_int.
Qed.

Lemma token_length c t : canonical_token c = Ok t -> length t = 56%nat.
Proof. intros E. apply to_bytes_be_len in E. unfold blen in E. lia. Qed.

Lemma skipn_exact {A} n (a b : list A) : length a = n -> skipn n (a ++ b) = b.
Proof. intros <-. rewrite skipn_app, skipn_all, Nat.sub_diag. reflexivity. Qed.
Lemma firstn_exact {A} n (a b : list A) : length a = n -> firstn n (a ++ b) = a.
Proof. intros <-. rewrite firstn_app, firstn_all, Nat.sub_diag. cbn. apply app_nil_r. Qed.

(** The part of a token that tells when and where it was made. *)
Lemma token_moment c d t u : fields_fit c -> fields_fit d ->
  canonical_token c = Ok t -> canonical_token d = Ok u -> skipn 32 t = skipn 32 u -> moment c = moment d.
Proof.
  intros C D Et Eu S.
  assert (Tt : t = be_enc 32 (c_bits c) ++ be_enc 8 (c_time c) ++ be_enc 8 (c_thread c) ++ be_enc 8 (c_process c)) by (pose proof (token_layout c C); congruence).
  assert (Tu : u = be_enc 32 (c_bits d) ++ be_enc 8 (c_time d) ++ be_enc 8 (c_thread d) ++ be_enc 8 (c_process d)) by (pose proof (token_layout d D); congruence).
  rewrite Tt, Tu in S. clear Tt Tu Et Eu.
  rewrite !skipn_exact in S by apply be_enc_length.
  destruct C as (_ & C1 & C2 & C3), D as (_ & D1 & D2 & D3).
  apply app_inj_len in S as [S1 S]; [|now rewrite !be_enc_length].
  apply app_inj_len in S as [S2 S3]; [|now rewrite !be_enc_length].
  unfold moment. apply be_enc_inj in S1, S2, S3; try assumption. congruence.
Qed.

(** ** Prefixes *)
Lemma app_comparable (a b c d : bytes) : a ++ b = c ++ d -> prefix a c \/ prefix c a.
Proof.
  revert c. induction a as [|x a IH]; intros [|y c] E; cbn in *.
  - left. now exists [].
  - left. now exists (y :: c).
  - right. now exists (x :: a).
  - injection E as -> E. destruct (IH c E) as [[z ->]|[z ->]]; [left|right]; now exists z.
Qed.

Lemma tokens_app a b : tokens (a ++ b) = tokens a ++ tokens b.
Proof. apply flat_map_app. Qed.
Lemma queries_app a b : queries (a ++ b) = queries a ++ queries b.
Proof. apply flat_map_app. Qed.

Lemma nth_error_snoc {A} (l : list A) x n y : nth_error (l ++ [x]) n = Some y ->
  (n < length l)%nat /\ nth_error l n = Some y \/ n = length l /\ y = x.
Proof.
  intros E. destruct (Nat.lt_ge_cases n (length l)) as [L|L].
  - left. split; [exact L|]. now rewrite nth_error_app1 in E.
  - right. rewrite nth_error_app2 in E by exact L. destruct (n - length l)%nat as [|k] eqn:K; cbn in E.
    + split; [lia|congruence].
    + now destruct k.
Qed.
Lemma nth_error_here {A} (l : list A) x r : nth_error (l ++ x :: r) (length l) = Some x.
Proof. rewrite nth_error_app2, Nat.sub_diag by lia. reflexivity. Qed.
Lemma nth_error_grow {A} (l r : list A) n x : nth_error l n = Some x -> nth_error (l ++ r) n = Some x.
Proof. intros E. rewrite nth_error_app1; [exact E|]. apply nth_error_Some. congruence. Qed.
Lemma nth_error_bound {A} (l : list A) n x : nth_error l n = Some x -> (n < length l)%nat.
Proof. intros E. apply nth_error_Some. congruence. Qed.

Section Pool.
Variable shake : bytes -> N -> bytes.
Variable block_size : N.
Variable seed : bytes.
Notation step := (step shake block_size).
Notation run := (run shake block_size).
Notation token_of := (token_of block_size).

Definition holds (t : thread) (k : bytes) : Prop :=
  at_ t = Absorbed k \/ exists sn, at_ t = Copied k sn.

(** A reading: the place of its token, what was absorbed before it, the rest. *)
Definition reading := (nat * (list bytes * (bytes * bytes)))%type.
Definition place (a : reading) : nat := fst a.
Definition input (a : reading) : bytes := let '(_, (P, (k, r))) := a in seed ++ concat P ++ k ++ r.
Definition well (D : list bytes) (a : reading) : Prop :=
  let '(n, (P, (k, _))) := a in (exists r, D = P ++ r) /\ nth_error P n = Some k.

Record inv1 (es : list event) (s : state) (own : nat -> nat) (A : list reading) : Prop := {
  v_abs : absorbed s = seed ++ concat (tokens es);
  v_own : forall i k, holds (threads s i) k -> nth_error (tokens es) (own i) = Some k;
  v_copied : forall i k sn, at_ (threads s i) = Copied k sn ->
    exists P r, tokens es = P ++ r /\ nth_error P (own i) = Some k /\ sn = seed ++ concat P;
  v_inj : forall i j k l, holds (threads s i) k -> holds (threads s j) l -> own i = own j -> i = j;
  v_queries : queries es = map input A;
  v_well : Forall (well (tokens es)) A;
  v_nodup : NoDup (map place A);
  v_fresh : forall i k, holds (threads s i) k -> ~ In (own i) (map place A);
}.

Lemma well_place D a : well D a -> (place a < length D)%nat.
Proof.
  destruct a as [n [P [k r]]]. intros [[z ->] E]. cbn. rewrite app_length. apply nth_error_bound in E. lia.
Qed.

(** Only thread [i] changes, to something that holds no token; no event. *)
Lemma inv1_quiet es s own A i t p : inv1 es s own A -> (forall k, ~ holds t k) ->
  inv1 es (set_thread i t {| absorbed := absorbed s; pool := p; threads := threads s |}) own A.
Proof.
  intros I N. split; cbn [absorbed threads set_thread]; try apply I.
  - intros j k. destruct (Nat.eqb_spec j i); [intros H; destruct (N _ H)|apply I].
  - intros j k sn. destruct (Nat.eqb_spec j i); [|apply I].
    intros H. destruct (N k). right. now exists sn.
  - intros j j' k l. destruct (Nat.eqb_spec j i); [intros H; destruct (N _ H)|].
    destruct (Nat.eqb_spec j' i); [intros _ H; destruct (N _ H)|]. apply I.
  - intros j k. destruct (Nat.eqb_spec j i); [intros H; destruct (N _ H)|apply I].
Qed.

Lemma inv1_events es s own A e : inv1 es s own A -> tokens e = [] -> queries e = [] -> inv1 (es ++ e) s own A.
Proof.
  intros I T Q. destruct I. split; rewrite ?tokens_app, ?queries_app, ?T, ?Q, ?app_nil_r; assumption.
Qed.

Lemma same_state s : {| absorbed := absorbed s; pool := pool s; threads := threads s |} = s.
Proof. now destruct s. Qed.

Lemma step_inv1 es s own A i : inv1 es s own A ->
  exists own' A', inv1 (es ++ fst (step i s)) (snd (step i s)) own' A'.
Proof.
  intros I. unfold RandomModel.step. set (t := threads s i).
  assert (FL : forall e, exists own' A', inv1 (es ++ fst (fail i e s)) (snd (fail i e s)) own' A').
  { intros e. exists own, A. cbn [fst snd fail]. apply inv1_events; [|reflexivity|reflexivity].
    rewrite <- (same_state s) at 1. cbn [set_thread absorbed pool threads]. apply (inv1_quiet es s own A i _ (pool s) I).
    intros k [H|[sn H]]; discriminate H. }
  destruct (todo t) as [|c rest] eqn:TD.
  { exists own, A. cbn. now rewrite app_nil_r. }
  assert (QD : c = Push (match c with Push x => x | _ => [] end) \/ (forall x, c <> Push x)).
  { destruct c; [right; discriminate|right; discriminate|now left]. }
  destruct QD as [->|NP].
  { exists own, A. cbn [fst snd]. rewrite app_nil_r. apply inv1_quiet; [exact I|]. intros k [H|[sn H]]; discriminate H. }
  assert (G : exists own' A', inv1 (es ++ fst
    (match at_ t with
    | Ready =>
      match token_of c (pool s) with
      | Err e => fail i e s
      | Ok k => ([], set_thread i {| todo := c :: rest; at_ := Tokened k; broken := broken t |} s)
      end
    | Tokened k =>
      ([Drew i k], set_thread i {| todo := c :: rest; at_ := Absorbed k; broken := broken t |}
             {| absorbed := absorbed s ++ k; pool := pool s; threads := threads s |})
    | Absorbed k =>
      ([], set_thread i {| todo := c :: rest; at_ := Copied k (absorbed s); broken := broken t |} s)
    | Copied k snapshot =>
      let done q size :=
        ([Asked i q size (shake q size)], set_thread i {| todo := rest; at_ := Ready; broken := broken t |} s) in
      match c with
      | Csprng _ _ size =>
        match pool s with
        | [] => fail i IndexErr s
        | p :: _ => done (snapshot ++ k ++ p) size
        end
      | Hash _ _ _ size => if size =? 0 then fail i TypeErr s else done (snapshot ++ k) size
      | Push _ => fail i OtherErr s
      end
    end)) (snd
    (match at_ t with
    | Ready =>
      match token_of c (pool s) with
      | Err e => fail i e s
      | Ok k => ([], set_thread i {| todo := c :: rest; at_ := Tokened k; broken := broken t |} s)
      end
    | Tokened k =>
      ([Drew i k], set_thread i {| todo := c :: rest; at_ := Absorbed k; broken := broken t |}
             {| absorbed := absorbed s ++ k; pool := pool s; threads := threads s |})
    | Absorbed k =>
      ([], set_thread i {| todo := c :: rest; at_ := Copied k (absorbed s); broken := broken t |} s)
    | Copied k snapshot =>
      let done q size :=
        ([Asked i q size (shake q size)], set_thread i {| todo := rest; at_ := Ready; broken := broken t |} s) in
      match c with
      | Csprng _ _ size =>
        match pool s with
        | [] => fail i IndexErr s
        | p :: _ => done (snapshot ++ k ++ p) size
        end
      | Hash _ _ _ size => if size =? 0 then fail i TypeErr s else done (snapshot ++ k) size
      | Push _ => fail i OtherErr s
      end
    end)) own' A').
  2:{ destruct c; [exact G|exact G|destruct (NP x eq_refl)]. }
  destruct (at_ t) as [|k|k|k sn] eqn:AT.
  - (* draws its token *)
    destruct (token_of c (pool s)) as [k|e]; [|apply FL]. exists own, A. cbn [fst snd]. rewrite app_nil_r.
    rewrite <- (same_state s) at 1. cbn [set_thread absorbed pool threads].
    apply (inv1_quiet es s own A i _ (pool s) I). intros k' [H|[sn H]]; discriminate H.
  - (* absorbs it *)
    exists (fun j => if Nat.eqb j i then length (tokens es) else own j), A. cbn [fst snd].
    assert (TK : tokens (es ++ [Drew i k]) = tokens es ++ [k]) by (now rewrite tokens_app).
    assert (OB : forall j l, holds (threads s j) l -> (own j < length (tokens es))%nat).
    { intros j l H. eapply nth_error_bound. exact (v_own _ _ _ _ I j l H). }
    split; cbn [absorbed threads set_thread]; rewrite ?TK.
    + rewrite (v_abs _ _ _ _ I), concat_app. cbn. now rewrite app_nil_r, app_assoc.
    + intros j l. destruct (Nat.eqb_spec j i) as [->|].
      * intros [H|[sn H]]; cbn in H; [injection H as <-|discriminate H]. apply nth_error_here.
      * intros H. apply nth_error_grow. now apply I.
    + intros j l sn. destruct (Nat.eqb_spec j i) as [->|]; [discriminate|].
      intros H. destruct (v_copied _ _ _ _ I j l sn H) as (P & r & E1 & E2 & E3). exists P, (r ++ [k]).
      split; [now rewrite E1, app_assoc|]. now split.
    + intros j j' l l'. destruct (Nat.eqb_spec j i) as [->|], (Nat.eqb_spec j' i) as [->|]; intros H1 H2 E; auto.
      * apply OB in H2. lia.
      * apply OB in H1. lia.
      * eapply (v_inj _ _ _ _ I); eassumption.
    + rewrite queries_app. cbn. rewrite app_nil_r. apply I.
    + eapply Forall_impl; [|apply I]. intros [n [P [l r]]] [[z Z] E]. split; [|exact E]. exists (z ++ [k]). now rewrite Z, app_assoc.
    + apply I.
    + intros j l. destruct (Nat.eqb_spec j i) as [->|]; [|apply I]. intros _ X. apply in_map_iff in X as (a & Ea & X).
      pose proof (proj1 (Forall_forall _ _) (v_well _ _ _ _ I) a X) as W. apply well_place in W. lia.
  - (* copies the object *)
    assert (HT : holds (threads s i) k) by now left.
    exists own, A. cbn [fst snd]. rewrite app_nil_r. split; cbn [absorbed threads set_thread]; try apply I.
    + intros j l. destruct (Nat.eqb_spec j i) as [->|]; [|apply I].
      intros [H|[sn H]]; cbn in H; [discriminate H|injection H as <- _]. now apply I.
    + intros j l sn. destruct (Nat.eqb_spec j i) as [->|]; [|apply I]. cbn. intros H. injection H as <- <-.
      exists (tokens es), []. split; [now rewrite app_nil_r|]. split; [now apply I|apply I].
    + intros j j' l l'. destruct (Nat.eqb_spec j i) as [->|], (Nat.eqb_spec j' i) as [->|]; intros H1 H2 E; auto.
      * eapply (v_inj _ _ _ _ I); eassumption.
      * eapply (v_inj _ _ _ _ I); eassumption.
      * eapply (v_inj _ _ _ _ I); eassumption.
    + intros j l. destruct (Nat.eqb_spec j i) as [->|]; [|apply I]. intros _. now apply (v_fresh _ _ _ _ I i k).
  - (* answers *)
    assert (HT : holds (threads s i) k) by (right; now exists sn).
    destruct (v_copied _ _ _ _ I i k sn AT) as (P & z & EP & EN & ES).
    assert (DONE : forall r size, exists own' A',
      inv1 (es ++ [Asked i (sn ++ k ++ r) size (shake (sn ++ k ++ r) size)])
        (set_thread i {| todo := rest; at_ := Ready; broken := broken t |} s) own' A').
    { intros r size. exists own, (A ++ [(own i, (P, (k, r)))]).
      assert (TK : tokens (es ++ [Asked i (sn ++ k ++ r) size (shake (sn ++ k ++ r) size)]) = tokens es)
        by (rewrite tokens_app; cbn; apply app_nil_r).
      assert (NH : forall l, ~ holds {| todo := rest; at_ := Ready; broken := broken t |} l)
        by (intros l [H|[? H]]; discriminate H).
      split; cbn [absorbed threads set_thread]; rewrite ?TK; try apply I.
      - intros j l. destruct (Nat.eqb_spec j i); [intros H; destruct (NH _ H)|apply I].
      - intros j l sn'. destruct (Nat.eqb_spec j i); [discriminate|apply I].
      - intros j j' l l'. destruct (Nat.eqb_spec j i); [intros H; destruct (NH _ H)|].
        destruct (Nat.eqb_spec j' i); [intros _ H; destruct (NH _ H)|]. apply I.
      - rewrite queries_app, map_app, (v_queries _ _ _ _ I). cbn. rewrite ES, <- app_assoc. reflexivity.
      - apply Forall_app. split; [apply I|]. constructor; [|constructor]. split; [now exists z|exact EN].
      - rewrite map_app. cbn. apply NoDup_app_remove_r with (l' := []) || idtac.
        rewrite <- (rev_involutive (map place A ++ [own i])). apply NoDup_rev. rewrite rev_app_distr. cbn.
        constructor; [|apply NoDup_rev, I]. rewrite <- in_rev. now apply (v_fresh _ _ _ _ I i k).
      - intros j l. destruct (Nat.eqb_spec j i) as [->|NE]; [intros H; destruct (NH _ H)|]. intros H X.
        rewrite map_app in X. apply in_app_or in X as [X|[X|[]]]; [now apply (v_fresh _ _ _ _ I j l H)|].
        cbn in X. apply NE. symmetry. eapply (v_inj _ _ _ _ I); eassumption. }
    destruct c as [x e size|x pad data size|x].
    + destruct (pool s) as [|p ps]; [apply FL|]. cbn [fst snd]. apply DONE.
    + destruct (size =? 0); [apply FL|]. cbn [fst snd]. destruct (DONE [] size) as (o & B & X).
      rewrite app_nil_r in X. exists o, B. exact X.
    + apply FL.
Qed.

Lemma run_inv1 l : forall es s own A, inv1 es s own A ->
  exists own' A', inv1 (es ++ fst (run l s)) (snd (run l s)) own' A'.
Proof.
  induction l as [|i l IH]; intros es s own A I.
  - exists own, A. cbn. now rewrite app_nil_r.
  - destruct (step_inv1 es s own A i I) as (o1 & A1 & I1). cbn [RandomModel.run]. destruct (step i s) as [e s1].
    cbn [fst snd] in I1. destruct (IH _ _ _ _ I1) as (o2 & A2 & I2). destruct (run l s1) as [es2 s2]. cbn [fst snd] in *.
    exists o2, A2. now rewrite app_assoc.
Qed.

Lemma launch_inv1 calls fill : inv1 [] (launch calls seed fill) (fun _ => 0%nat) [].
Proof.
  split; cbn.
  - now rewrite app_nil_r.
  - intros i k [H|[sn H]]; discriminate H.
  - discriminate.
  - intros i j k l [H|[sn H]]; discriminate H.
  - reflexivity.
  - constructor.
  - constructor.
  - intros i k _ [].
Qed.

Lemma nodup_inputs {X Y Z} (f : X -> Y) (g : X -> Z) (l : list X) :
  NoDup (map g l) -> (forall a b, In a l -> In b l -> f a = f b -> g a = g b) -> NoDup (map f l).
Proof.
  induction l as [|a l IH]; intros N E; [constructor|]. cbn in *. apply NoDup_cons_iff in N as [N1 N2]. constructor.
  - intros I. apply in_map_iff in I as (b & Eb & I). apply N1. rewrite (E a b); auto. now apply in_map.
  - apply IH; auto.
Qed.

Lemma inputs_apart D a b : apart D -> well D a -> well D b -> input a = input b -> place a = place b.
Proof.
  assert (G : forall a b, apart D -> well D a -> well D b -> input a = input b ->
    (exists t, fst (snd b) = fst (snd a) ++ t) -> place a = place b).
  { intros [n [P [k r]]] [m [P' [k' r']]] AP [[z Z] E] [[z' Z'] E'] EQ [t T]. cbn in *. subst P'.
    apply app_inv_head in EQ. rewrite concat_app, <- app_assoc in EQ. apply app_inv_head in EQ.
    assert (N : nth_error D n = Some k) by (rewrite Z; now apply nth_error_grow).
    assert (M : nth_error D m = Some k') by (rewrite Z'; now apply nth_error_grow).
    destruct t as [|u t].
    - cbn in EQ. destruct (Nat.eq_dec n m) as [|NE]; [assumption|exfalso].
      apply app_comparable in EQ as [EQ|EQ].
      + exact (AP n m k k' N M NE EQ).
      + exact (AP m n k' k M N (not_eq_sym NE) EQ).
    - exfalso. cbn in EQ. rewrite <- app_assoc in EQ.
      assert (U : nth_error D (length P) = Some u) by (rewrite Z', <- app_assoc; cbn; apply nth_error_here).
      assert (NE : n <> length P) by (apply nth_error_bound in E; lia).
      apply app_comparable in EQ as [EQ|EQ].
      + exact (AP _ _ _ _ N U NE EQ).
      + exact (AP _ _ _ _ U N (not_eq_sym NE) EQ). }
  intros AP Wa Wb EQ.
  assert (C : (exists t, fst (snd b) = fst (snd a) ++ t) \/ (exists t, fst (snd a) = fst (snd b) ++ t)).
  { destruct a as [n [P [k r]]], b as [m [P' [k' r']]]. cbn. destruct Wa as [[z Z] _], Wb as [[z' Z'] _]. rewrite Z in Z'.
    clear - Z'. revert P' Z'. induction P as [|x P IH]; intros [|y P'] E.
    - left. now exists [].
    - left. now exists (y :: P').
    - right. now exists (x :: P).
    - injection E as -> E. destruct (IH P' E) as [[t ->]|[t ->]]; [left|right]; now exists t. }
  destruct C as [C|C]; [now apply G|symmetry; apply G; auto].
Qed.

Lemma queries_nodup calls fill l :
  apart (tokens (fst (run l (launch calls seed fill)))) -> NoDup (queries (fst (run l (launch calls seed fill)))).
Proof.
  intros AP. destruct (run_inv1 l [] _ _ _ (launch_inv1 calls fill)) as (own & A & I). cbn [app] in I.
  rewrite (v_queries _ _ _ _ I). apply (nodup_inputs input place); [apply I|].
  intros a b Ia Ib. pose proof (proj1 (Forall_forall _ _) (v_well _ _ _ _ I)) as W.
  apply inputs_apart with (D := tokens (fst (run l (launch calls seed fill)))); auto.
Qed.

(** ** Which call drew which token *)
Section Calls.
Variable calls : nat -> list call.
Definition drawn_by (id : nat * nat) (k : bytes) : Prop :=
  exists c pl, nth_error (calls (fst id)) (snd id) = Some c /\ token_of c pl = Ok k.

Record inv2 (es : list event) (s : state) (pos : nat -> nat) (ids : list (nat * nat)) : Prop := {
  u_drawn : Forall2 drawn_by ids (tokens es);
  u_nodup : NoDup ids;
  u_todo : forall i, todo (threads s i) = [] \/ todo (threads s i) = skipn (pos i) (calls i);
  u_ids : forall i m, In (i, m) ids -> (m < pos i)%nat \/ m = pos i /\ exists k, holds (threads s i) k;
  u_tok : forall i k, at_ (threads s i) = Tokened k -> drawn_by (i, pos i) k;
}.

Lemma inv2_advance es s pos ids i t a p : inv2 es s pos ids -> at_ t = Ready ->
  todo t = [] \/ todo t = tl (todo (threads s i)) ->
  exists pos' ids', inv2 es (set_thread i t {| absorbed := a; pool := p; threads := threads s |}) pos' ids'.
Proof.
  intros I AT TD. exists (fun j => if Nat.eqb j i then S (pos i) else pos j), ids.
  split; cbn [set_thread threads]; try apply I.
  - intros j. destruct (Nat.eqb_spec j i) as [->|]; [|apply I].
    destruct TD as [TD|TD]; [now left|]. rewrite TD. destruct (u_todo _ _ _ _ I i) as [->| ->]; [now left|]. right.
    generalize (pos i) (calls i). clear. intros n l. revert n. induction l as [|x l IH]; intros [|n]; try reflexivity.
    cbn [skipn] in *. apply IH.
  - intros j m X. destruct (Nat.eqb_spec j i) as [->|].
    + left. destruct (u_ids _ _ _ _ I i m X) as [H|[H _]]; lia.
    + now apply (u_ids _ _ _ _ I).
  - intros j k. destruct (Nat.eqb_spec j i) as [->|]; [congruence|apply I].
Qed.

Lemma inv2_events es s pos ids e : inv2 es s pos ids -> tokens e = [] -> inv2 (es ++ e) s pos ids.
Proof. intros I T. destruct I. split; rewrite ?tokens_app, ?T, ?app_nil_r; assumption. Qed.

Lemma step_inv2 es s pos ids i : inv2 es s pos ids ->
  exists pos' ids', inv2 (es ++ fst (step i s)) (snd (step i s)) pos' ids'.
Proof.
  intros I. unfold RandomModel.step. set (t := threads s i).
  assert (ADV : forall e t' a p, tokens e = [] -> at_ t' = Ready ->
    todo t' = [] \/ todo t' = tl (todo (threads s i)) ->
    exists pos' ids', inv2 (es ++ e) (set_thread i t' {| absorbed := a; pool := p; threads := threads s |}) pos' ids').
  { intros e t' a p T A TD. destruct (inv2_advance es s pos ids i t' a p I A TD) as (p' & i' & X). exists p', i'.
    now apply inv2_events. }
  assert (FL : forall e, exists pos' ids', inv2 (es ++ fst (fail i e s)) (snd (fail i e s)) pos' ids').
  { intros e. cbn [fst snd fail]. destruct (ADV [Failed i e] {| todo := []; at_ := Ready; broken := Some e |} (absorbed s) (pool s)) as (p' & i' & X); auto.
    exists p', i'. exact X. }
  destruct (todo t) as [|c rest] eqn:TD.
  { exists pos, ids. cbn. now rewrite app_nil_r. }
  assert (AC : (exists x, c = Push x) \/ (forall x, c <> Push x)).
  { destruct c; [right; discriminate|right; discriminate|left; now exists x]. }
  destruct AC as [[x ->]|NP].
  { cbn [fst snd]. apply ADV; [reflexivity|reflexivity|]. right. cbn [todo]. fold t. now rewrite TD. }
  assert (G : exists r : list event * state,
    (match c with Push _ => False | _ => True end) /\
    r = (match at_ t with
    | Ready =>
      match token_of c (pool s) with
      | Err e => fail i e s
      | Ok k => ([], set_thread i {| todo := c :: rest; at_ := Tokened k; broken := broken t |} s)
      end
    | Tokened k =>
      ([Drew i k], set_thread i {| todo := c :: rest; at_ := Absorbed k; broken := broken t |}
             {| absorbed := absorbed s ++ k; pool := pool s; threads := threads s |})
    | Absorbed k =>
      ([], set_thread i {| todo := c :: rest; at_ := Copied k (absorbed s); broken := broken t |} s)
    | Copied k snapshot =>
      let done q size :=
        ([Asked i q size (shake q size)], set_thread i {| todo := rest; at_ := Ready; broken := broken t |} s) in
      match c with
      | Csprng _ _ size =>
        match pool s with
        | [] => fail i IndexErr s
        | p :: _ => done (snapshot ++ k ++ p) size
        end
      | Hash _ _ _ size => if size =? 0 then fail i TypeErr s else done (snapshot ++ k) size
      | Push _ => fail i OtherErr s
      end
    end) /\ exists pos' ids', inv2 (es ++ fst r) (snd r) pos' ids').
  2:{ destruct G as (r & N & R & G). destruct c; [subst r; exact G|subst r; exact G|destruct N]. }
  eexists. split; [destruct c; [exact Logic.I|exact Logic.I|destruct (NP x eq_refl)]|]. split; [reflexivity|].
  assert (HERE : todo (threads s i) = skipn (pos i) (calls i)).
  { destruct (u_todo _ _ _ _ I i) as [H|H]; [|exact H]. fold t in H. congruence. }
  assert (NTH : nth_error (calls i) (pos i) = Some c).
  { fold t in HERE. rewrite TD in HERE. clear - HERE. revert HERE. generalize (pos i) (calls i). intros n l. revert n.
    induction l as [|y l IH]; intros [|n] E; cbn in *; try discriminate E; [congruence|now apply IH]. }
  destruct (at_ t) as [|k|k|k sn] eqn:AT.
  - destruct (token_of c (pool s)) as [k|e] eqn:TK; [|apply FL]. exists pos, ids. cbn [fst snd]. rewrite app_nil_r.
    split; cbn [set_thread threads]; try apply I.
    + intros j. destruct (Nat.eqb_spec j i) as [->|]; [|apply I]. right. cbn. rewrite <- HERE. fold t. now rewrite TD.
    + intros j m X. destruct (Nat.eqb_spec j i) as [->|]; [|now apply I].
      destruct (u_ids _ _ _ _ I i m X) as [H|[_ [k' [H|[sn H]]]]]; [now left| |]; fold t in H; congruence.
    + intros j k'. destruct (Nat.eqb_spec j i) as [->|]; [|apply I]. cbn. intros H. injection H as <-.
      exists c, (pool s). now split.
  - exists pos, (ids ++ [(i, pos i)]). cbn [fst snd].
    split; cbn [set_thread threads].
    + rewrite tokens_app. apply Forall2_app; [apply I|]. cbn. constructor; [|constructor]. now apply I.
    + rewrite <- (rev_involutive (ids ++ _)). apply NoDup_rev. rewrite rev_app_distr. cbn. constructor; [|apply NoDup_rev, I].
      rewrite <- in_rev. intros X. destruct (u_ids _ _ _ _ I i _ X) as [H|[_ [k' [H|[sn H]]]]]; [lia| |]; fold t in H; congruence.
    + intros j. destruct (Nat.eqb_spec j i) as [->|]; [|apply I]. right. cbn. rewrite <- HERE. fold t. now rewrite TD.
    + intros j m X. apply in_app_or in X as [X|[X|[]]].
      * destruct (u_ids _ _ _ _ I j m X) as [H|[-> [k' H]]]; [now left|]. right. split; [reflexivity|].
        destruct (Nat.eqb_spec j i) as [->|]; [exists k; now left|now exists k'].
      * injection X as <- <-. right. split; [reflexivity|]. rewrite Nat.eqb_refl. exists k. now left.
    + intros j k'. destruct (Nat.eqb_spec j i) as [->|]; [discriminate|apply I].
  - exists pos, ids. cbn [fst snd]. rewrite app_nil_r.
    split; cbn [set_thread threads]; try apply I.
    + intros j. destruct (Nat.eqb_spec j i) as [->|]; [|apply I]. right. cbn. rewrite <- HERE. fold t. now rewrite TD.
    + intros j m X. destruct (u_ids _ _ _ _ I j m X) as [H|[-> [k' H]]]; [now left|]. right. split; [reflexivity|].
      destruct (Nat.eqb_spec j i) as [->|]; [exists k; right; now exists (absorbed s)|now exists k'].
    + intros j k'. destruct (Nat.eqb_spec j i) as [->|]; [discriminate|apply I].
  - assert (DONE : forall q size, exists pos' ids', inv2 (es ++ [Asked i q size (shake q size)])
        (set_thread i {| todo := rest; at_ := Ready; broken := broken t |} s) pos' ids').
    { intros q size.
      destruct (ADV [Asked i q size (shake q size)] {| todo := rest; at_ := Ready; broken := broken t |} (absorbed s) (pool s)) as (p' & i' & X).
      - reflexivity.
      - reflexivity.
      - right. cbn. fold t. now rewrite TD.
      - exists p', i'. exact X. }
    destruct c as [x e size|x pad data size|x].
    + destruct (pool s) as [|p ps]; [apply FL|]. cbn [fst snd]. apply DONE.
    + destruct (size =? 0); [apply FL|]. cbn [fst snd]. apply DONE.
    + apply FL.
Qed.

Lemma run_inv2 l : forall es s pos ids, inv2 es s pos ids ->
  exists pos' ids', inv2 (es ++ fst (run l s)) (snd (run l s)) pos' ids'.
Proof.
  induction l as [|i l IH]; intros es s pos ids I.
  - exists pos, ids. cbn. now rewrite app_nil_r.
  - destruct (step_inv2 es s pos ids i I) as (o1 & A1 & I1). cbn [RandomModel.run]. destruct (step i s) as [e s1].
    cbn [fst snd] in I1. destruct (IH _ _ _ _ I1) as (o2 & A2 & I2). destruct (run l s1) as [es2 s2]. cbn [fst snd] in *.
    exists o2, A2. now rewrite app_assoc.
Qed.

Lemma launch_inv2 fill : inv2 [] (launch calls seed fill) (fun _ => 0%nat) [].
Proof. split; cbn; [constructor|constructor|intros i; right; reflexivity|intros i m []|discriminate]. Qed.
End Calls.

Lemma forall2_nth {X Y} (R : X -> Y -> Prop) l m : Forall2 R l m -> forall n y, nth_error m n = Some y ->
  exists x, nth_error l n = Some x /\ R x y.
Proof.
  induction 1 as [|x y l m H F IH]; intros [|n] z E; cbn in *; try discriminate E.
  - injection E as <-. eauto.
  - eauto.
Qed.

(** Any two tokens come from different calls. *)
Lemma tokens_of_calls calls fill l p q a b :
  let D := tokens (fst (run l (launch calls seed fill))) in
  nth_error D p = Some a -> nth_error D q = Some b -> p <> q ->
  exists i n j m c d pl pl', nth_error (calls i) n = Some c /\ nth_error (calls j) m = Some d /\ (i, n) <> (j, m) /\
    token_of c pl = Ok a /\ token_of d pl' = Ok b.
Proof.
  intros D A B NE. destruct (run_inv2 calls l [] _ _ _ (launch_inv2 calls fill)) as (pos & ids & I). cbn [app] in I.
  destruct (forall2_nth _ _ _ (u_drawn _ _ _ _ _ I) p a A) as ([i n] & P & c & pl & C1 & C2).
  destruct (forall2_nth _ _ _ (u_drawn _ _ _ _ _ I) q b B) as ([j m] & Q & d & pl' & D1 & D2).
  exists i, n, j, m, c, d, pl, pl'. repeat (split; [assumption|]). split; [|now split].
  intros E. injection E as -> ->. apply NE.
  eapply (proj1 (NoDup_nth_error ids) (u_nodup _ _ _ _ _ I)); [eapply nth_error_bound; exact P|congruence].
Qed.
End Pool.

(** ** Tokens of different calls are apart *)
Lemma layout_prefix w1 b1 p1 i1 k1 w2 b2 p2 i2 k2 x z :
  layout w1 b1 p1 i1 k1 x -> layout w2 b2 p2 i2 k2 (x ++ z) -> i1 = i2.
Proof.
  intros (s1 & c1 & y1 & Hs1 & Hc1 & Hn1 & F1 & ->) (s2 & c2 & y2 & Hs2 & Hc2 & Hn2 & F2 & E).
  injection E as -> E. subst w2.
  assert (w1 = bval s2) as -> by congruence. rewrite <- !app_assoc in E.
  apply app_inj_len in E as [-> E]; [|unfold blen in *; lia].
  assert (HL : length i1 = length i2) by (unfold blen in *; lia).
  edestruct (framed_inj (bval s2)) as (Ei & _ & Er); [|exact F1|exact F2|exact E|].
  - cbn. congruence.
  - now injection Ei.
Qed.

Lemma bind_inv {A B} (x : result A) (f : A -> result B) y :
  (a <- x ;; f a) = Ok y -> exists a, x = Ok a /\ f a = Ok y.
Proof. destruct x as [a|e]; [|discriminate]. intros H. now exists a. Qed.

Lemma csprng_token bs x e n pl k : token_of bs (Csprng x e n) pl = Ok k ->
  exists t, canonical_token x = Ok t /\ k = t ++ e.
Proof. cbn. intros H. apply bind_inv in H as (t & T & H). exists t. split; congruence. Qed.
Lemma hash_token bs x pad data n pl k : token_of bs (Hash x pad data n) pl = Ok k ->
  exists t rest, canonical_token x = Ok t /\ canonical_pack (t :: rest) bs [pad] INT_BYTES = Ok k.
Proof.
  cbn. intros H. apply bind_inv in H as (b & B & H). apply bind_inv in H as (t & T & H).
  destruct pl as [|p pl]; [discriminate H|]. exists t, (p :: b :: data). now split.
Qed.

Lemma prefix_first_56 (a b t : bytes) e : length t = 56%nat -> a = t ++ e -> prefix a b -> firstn 56 b = t.
Proof. intros L -> [z ->]. rewrite <- app_assoc. now apply firstn_exact. Qed.

Lemma enc_of (l : bytes) n : length l = 8%nat -> be_int l = n -> l = be_enc 8 n.
Proof.
  intros L <-. apply be_int_inj; [now rewrite be_enc_length|]. rewrite be_int_be_enc, N.mod_small; [reflexivity|].
  pose proof (be_int_bound l) as B. unfold blen in B. rewrite L in B. exact B.
Qed.

Lemma pack_header items bs pad x : canonical_pack items bs [pad] INT_BYTES = Ok x ->
  exists count rest, length count = 8%nat /\ x = [x08] ++ count ++ be_enc 8 8 ++ be_enc 8 bs ++ rest.
Proof.
  intros H. apply canonical_pack_layout in H as (p & k & blob & _ & _ & (s & count & body & S & C & _ & F & ->) & B & BI & _).
  unfold INT_BYTES in *. inversion F as [|len item its rest Hl Hn F']; subst.
  exists count, (rest ++ repeat p k). split; [unfold blen in C; lia|].
  assert (s = x08) as -> by (apply bval_inj; rewrite S; reflexivity).
  rewrite <- (enc_of len 8) by (unfold blen in *; lia). rewrite <- (enc_of blob (be_int blob)) by (unfold blen in *; lia || reflexivity).
  cbn. now rewrite <- !app_assoc.
Qed.

Lemma pack_long t rest bs pad x : length t = 56%nat -> canonical_pack (t :: rest) bs [pad] INT_BYTES = Ok x -> (56 <= length x)%nat.
Proof.
  intros L H. apply canonical_pack_layout in H as (p & k & blob & _ & _ & (s & count & body & S & C & _ & F & ->) & _).
  inversion F as [|? ? ? r1 ? ? F1]; subst. inversion F1 as [|? ? ? r2 ? ? F2]; subst. inversion F2; subst.
  cbn. rewrite !app_length. cbn. rewrite !app_length. cbn. rewrite ?app_length. lia.
Qed.

Lemma header_of_token bs c t items pad x : fields_fit c -> canonical_token c = Ok t ->
  canonical_pack items bs [pad] INT_BYTES = Ok x -> firstn 56 x = t -> header_like bs (c_bits c).
Proof.
  intros FC T P E. apply pack_header in P as (count & rest & L & ->).
  assert (TL : t = be_enc 32 (c_bits c) ++ be_enc 8 (c_time c) ++ be_enc 8 (c_thread c) ++ be_enc 8 (c_process c))
    by (pose proof (token_layout c FC); congruence).
  rewrite TL in E.
  apply (f_equal (firstn 32)) in E. rewrite firstn_firstn in E. cbn [Nat.min] in E.
  rewrite (firstn_exact 32 (be_enc 32 _)) in E by apply be_enc_length.
  exists count, (firstn 7 rest). split; [exact L|]. rewrite <- E.
  replace ([x08] ++ count ++ be_enc 8 8 ++ be_enc 8 bs ++ rest) with (([x08] ++ count ++ be_enc 8 8 ++ be_enc 8 bs) ++ rest)
    by (now rewrite <- !app_assoc).
  rewrite firstn_app. rewrite firstn_all2 by (rewrite !app_length, !be_enc_length, L; cbn; lia).
  replace (32 - length ([x08] ++ count ++ be_enc 8 8 ++ be_enc 8 bs))%nat with 7%nat
    by (rewrite !app_length, !be_enc_length, L; reflexivity).
  now rewrite <- !app_assoc.
Qed.

(** The first call draws bits that do not look like the header of what the second makes. *)
Definition unlike (bs : N) (c d : call) : Prop :=
  match c, d with
  | Csprng x _ _, Hash _ _ _ _ | Hash _ _ _ _, Csprng x _ _ => ~ header_like bs (c_bits x)
  | _, _ => True
  end.

Lemma pair_apart bs c d x y pl pl' a b :
  context_of c = Some x -> context_of d = Some y -> fields_fit x -> fields_fit y -> moment x <> moment y ->
  unlike bs c d -> token_of bs c pl = Ok a -> token_of bs d pl' = Ok b -> ~ prefix a b.
Proof.
  intros Cx Dy Fx Fy NE U Ta Tb P.
  destruct c as [x' e n|x' pad data n|]; [| |discriminate Cx]; injection Cx as ->;
  (destruct d as [y' e' n'|y' pad' data' n'|]; [| |discriminate Dy]; injection Dy as ->).
  - apply csprng_token in Ta as (t & T & ->), Tb as (u & V & ->).
    pose proof (prefix_first_56 _ _ t e (token_length _ _ T) eq_refl P) as E.
    rewrite (firstn_exact 56 u e' (token_length _ _ V)) in E. apply NE. apply (token_moment x y t u); try assumption. now rewrite E.
  - apply csprng_token in Ta as (t & T & ->). apply hash_token in Tb as (u & r & V & K).
    pose proof (prefix_first_56 _ _ t e (token_length _ _ T) eq_refl P) as E.
    apply U. eapply header_of_token; eassumption.
  - apply hash_token in Ta as (t & r & T & K). apply csprng_token in Tb as (u & V & ->).
    destruct P as [z P]. apply U. apply (header_of_token bs y u (t :: r) pad a); try assumption.
    pose proof (pack_long t r bs pad a (token_length _ _ T) K) as L.
    rewrite <- (firstn_exact 56 u e' (token_length _ _ V)), P, firstn_app.
    replace (56 - length a)%nat with 0%nat by lia. cbn. now rewrite app_nil_r.
  - apply hash_token in Ta as (t & r & T & K). apply hash_token in Tb as (u & r' & V & K').
    apply canonical_pack_layout in K as (p1 & k1 & b1 & _ & _ & L1 & _).
    apply canonical_pack_layout in K' as (p2 & k2 & b2 & _ & _ & L2 & _).
    destruct P as [z ->]. pose proof (layout_prefix _ _ _ _ _ _ _ _ _ _ _ _ L1 L2) as E. injection E as -> _.
    apply NE. now apply (token_moment x y u u).
Qed.

Lemma token_context bs c pl k : token_of bs c pl = Ok k -> exists x, context_of c = Some x.
Proof. destruct c as [x e n|x p d n|x]; cbn; intros H; [now exists x|now exists x|discriminate H]. Qed.

Lemma tokens_apart shake bs seed calls fill l :
  (forall i c x, In c (calls i) -> context_of c = Some x -> fields_fit x) ->
  moments_differ calls ->
  (forall i j c d, In c (calls i) -> In d (calls j) -> unlike bs c d) ->
  apart (tokens (fst (run shake bs l (launch calls seed fill)))).
Proof.
  intros F M U p q a b A B NE.
  destruct (tokens_of_calls shake bs seed calls fill l p q a b A B NE) as (i & n & j & m & c & d & pl & pl' & C & D & N & Ta & Tb).
  destruct (token_context _ _ _ _ Ta) as [x X], (token_context _ _ _ _ Tb) as [y Y].
  apply (pair_apart bs c d x y pl pl'); try assumption.
  - eapply F; [eapply nth_error_In; exact C|exact X].
  - eapply F; [eapply nth_error_In; exact D|exact Y].
  - eapply (M i n j m); eassumption.
  - eapply U; eapply nth_error_In; eassumption.
Qed.

(** ** Every call ends after four of its thread's own steps *)
Section Progress.
Variable shake : bytes -> N -> bytes.
Variable block_size : N.
Notation step := (step shake block_size).
Notation run := (run shake block_size).

Definition stage_number (g : stage) : nat := match g with Ready => 0 | Tokened _ => 1 | Absorbed _ => 2 | Copied _ _ => 3 end.
Definition left (t : thread) : nat := (4 * length (todo t) - match todo t with [] => 0 | _ => stage_number (at_ t) end)%nat.

Lemma step_other i j s : j <> i -> threads (snd (step i s)) j = threads s j.
Proof.
  intros NE. unfold RandomModel.step.
  assert (ST : forall t s', threads s' j = threads s j -> threads (set_thread i t s') j = threads s j).
  { intros t s' E. cbn. now destruct (Nat.eqb_spec j i). }
  destruct (todo (threads s i)) as [|c rest]; [reflexivity|].
  destruct c as [x e n|x p d n|x]; destruct (at_ (threads s i)); try (cbn [snd]; now apply ST);
    try (destruct (token_of _ _ _); cbn [snd fail]; now apply ST).
  - destruct (pool s); cbn [snd fail]; now apply ST.
  - destruct (n =? 0); cbn [snd fail]; now apply ST.
Qed.

Lemma stage_bound g : (stage_number g <= 3)%nat. Proof. destruct g; cbn; lia. Qed.

Lemma step_left i s : (left (threads (snd (step i s)) i) <= pred (left (threads s i)))%nat.
Proof.
  unfold RandomModel.step, left. set (t := threads s i). destruct (todo t) as [|c rest] eqn:TD.
  { cbn [snd]. fold t. rewrite TD. cbn. lia. }
  assert (FL : forall e n, (4 * length (todo (threads (snd (fail i e s)) i)) - match todo (threads (snd (fail i e s)) i) with
     [] => 0 | _ => stage_number (at_ (threads (snd (fail i e s)) i)) end <= n)%nat).
  { intros e n. cbn. rewrite Nat.eqb_refl. cbn. lia. }
  pose proof (stage_bound (at_ t)) as SB. cbn [length] in *.
  destruct c as [x e n|x p d n|x]; destruct (at_ t) as [|k|k|k sn] eqn:AT;
    try (destruct (token_of _ _ _); [|apply FL]);
    try (destruct (pool s); [apply FL|]); try (destruct (n =? 0); [apply FL|]);
    cbn [snd set_thread threads stage_number]; rewrite Nat.eqb_refl; cbn [todo at_ length stage_number];
    try (destruct rest; cbn [length stage_number]; lia); lia.
Qed.

Definition own_steps (i : nat) (l : list nat) : nat := length (filter (Nat.eqb i) l).

Lemma run_left i l : forall s, (left (threads (snd (run l s)) i) <= left (threads s i) - own_steps i l)%nat.
Proof.
  induction l as [|j l IH]; intros s.
  - cbn. lia.
  - cbn [RandomModel.run]. pose proof (step_left j s) as SL. pose proof (step_other j i s) as SO.
    destruct (step j s) as [e s1]. cbn [snd] in *. specialize (IH s1). destruct (run l s1) as [es s2]. cbn [snd] in *.
    unfold own_steps in *. cbn [filter]. destruct (Nat.eqb_spec i j) as [->|NE].
    + cbn [length]. lia.
    + rewrite SO in IH by exact NE. lia.
Qed.

Lemma left_0 t : left t = 0%nat -> todo t = [].
Proof.
  unfold left. destruct (todo t) as [|c r]; [reflexivity|]. pose proof (stage_bound (at_ t)). cbn [length]. lia.
Qed.

(** What a thread got so far. *)
Definition sizes_right (i : nat) (cs : list call) (es : list event) (t : thread) : Prop :=
  broken t = None ->
  exists done, cs = done ++ todo t /\ length (answers_of i es) = length (filter wanted done) /\
    map (fun e => match e with Asked _ _ n _ => n | _ => 0 end)
        (filter (fun e => match e with Asked j _ _ _ => Nat.eqb j i | _ => false end) es) =
    map size_of (filter wanted done).

Lemma answers_app i a b : answers_of i (a ++ b) = answers_of i a ++ answers_of i b.
Proof. apply flat_map_app. Qed.

Lemma step_sizes_other i j cs es s : j <> i -> sizes_right i cs es (threads s i) ->
  sizes_right i cs (es ++ fst (step j s)) (threads (snd (step j s)) i).
Proof.
  intros NE H. rewrite step_other by auto. intros B. destruct (H B) as (d & D1 & D2 & D3). exists d. split; [exact D1|].
  assert (E : forall e, In e (fst (step j s)) -> match e with Asked k _ _ _ => k = j | _ => True end).
  { unfold RandomModel.step. destruct (todo (threads s j)) as [|c rest]; [intros e []|].
    destruct c as [x e n|x p dd n|x]; destruct (at_ (threads s j));
      try (destruct (token_of _ _ _)); try (destruct (pool s)); try (destruct (n =? 0));
      cbn; intros ev IN; repeat (destruct IN as [<-|IN]); auto; try destruct IN. }
  assert (A0 : answers_of i (fst (step j s)) = [] /\
    filter (fun e => match e with Asked j _ _ _ => Nat.eqb j i | _ => false end) (fst (step j s)) = []).
  { revert E. generalize (fst (step j s)). clear - NE. induction l as [|e l IH]; intros E; [split; reflexivity|].
    destruct IH as [I1 I2]; [intros; apply E; now right|]. pose proof (E e (or_introl eq_refl)) as Ee.
    cbn. rewrite I2. unfold answers_of in *. rewrite I1.
    destruct e as [k t|k q n a|k x]; try (split; reflexivity). subst k.
    apply Nat.eqb_neq in NE. rewrite NE. split; reflexivity. }
  destruct A0 as [A1 A2]. rewrite answers_app, filter_app, A1, A2, !app_nil_r. now split.
Qed.

Lemma step_sizes i cs es s : sizes_right i cs es (threads s i) ->
  sizes_right i cs (es ++ fst (step i s)) (threads (snd (step i s)) i).
Proof.
  intros H. unfold RandomModel.step. set (t := threads s i) in *. destruct (todo t) as [|c rest] eqn:TD.
  { cbn [fst snd]. rewrite app_nil_r. exact H. }
  assert (FL : forall e, sizes_right i cs (es ++ fst (fail i e s)) (threads (snd (fail i e s)) i)).
  { intros e B. cbn in B. rewrite Nat.eqb_refl in B. discriminate B. }
  assert (QUIET : forall e g a p, answers_of i e = [] ->
    filter (fun e => match e with Asked j _ _ _ => Nat.eqb j i | _ => false end) e = [] ->
    sizes_right i cs (es ++ e) (threads (set_thread i {| todo := c :: rest; at_ := g; broken := broken t |}
      {| absorbed := a; pool := p; threads := threads s |}) i)).
  { intros e g a p E1 E2. cbn. rewrite Nat.eqb_refl. intros B. cbn in B. destruct (H B) as (d & D1 & D2 & D3). exists d.
    rewrite answers_app, filter_app, E1, E2, !app_nil_r. cbn. rewrite <- TD. auto. }
  assert (DONE : forall q n, wanted c = true -> size_of c = n ->
    sizes_right i cs (es ++ [Asked i q n (shake q n)]) (threads (set_thread i {| todo := rest; at_ := Ready; broken := broken t |} s) i)).
  { intros q n W SZ. cbn. rewrite Nat.eqb_refl. intros B. cbn in B. destruct (H B) as (d & D1 & D2 & D3). exists (d ++ [c]).
    rewrite answers_app, !filter_app. cbn. rewrite Nat.eqb_refl, W, !app_length, D2, !map_app, D3. cbn. rewrite SZ.
    split; [|now split]. rewrite D1, TD, <- app_assoc. reflexivity. }
  destruct c as [x e n|x p d n|x].
  3:{ cbn [fst snd set_thread threads]. rewrite Nat.eqb_refl, app_nil_r. intros B. cbn in B. destruct (H B) as (dd & D1 & D2 & D3).
      exists (dd ++ [Push x]). rewrite filter_app. cbn. rewrite app_nil_r. split; [|now split].
      rewrite D1, TD, <- app_assoc. reflexivity. }
  all: destruct (at_ t) as [|k|k|k sn]; cbn [fst snd].
  all: try (destruct (token_of _ _ _) as [k|ee]; [|apply FL]).
  all: try (destruct (pool s) as [|p0 ps] eqn:PL; [apply FL|]).
  all: try (destruct (n =? 0) eqn:NZ; [apply FL|]).
  all: try (apply DONE; reflexivity).
  all: try (apply QUIET; reflexivity).
Qed.

Lemma run_sizes i cs l : forall es s, sizes_right i cs es (threads s i) ->
  sizes_right i cs (es ++ fst (run l s)) (threads (snd (run l s)) i).
Proof.
  induction l as [|j l IH]; intros es s H.
  - cbn. now rewrite app_nil_r.
  - cbn [RandomModel.run].
    assert (H1 : sizes_right i cs (es ++ fst (step j s)) (threads (snd (step j s)) i)).
    { destruct (Nat.eq_dec j i) as [->|NE]; [now apply step_sizes|now apply step_sizes_other]. }
    destruct (step j s) as [e s1]. cbn [fst snd] in *. specialize (IH _ _ H1). destruct (run l s1) as [es2 s2]. cbn [fst snd] in *.
    now rewrite app_assoc.
Qed.

Lemma calls_end calls seed fill l i :
  let '(es, s) := run l (launch calls seed fill) in
  (4 * length (calls i) <= own_steps i l)%nat ->
  todo (threads s i) = [] /\
  (broken (threads s i) = None ->
   map (fun e => match e with Asked _ _ n _ => n | _ => 0 end)
        (filter (fun e => match e with Asked j _ _ _ => Nat.eqb j i | _ => false end) es) =
   map size_of (filter wanted (calls i)) /\ length (answers_of i es) = length (filter wanted (calls i))).
Proof.
  pose proof (run_left i l (launch calls seed fill)) as RL.
  assert (S0 : sizes_right i (calls i) [] (threads (launch calls seed fill) i)).
  { intros _. exists []. repeat split. }
  pose proof (run_sizes i (calls i) l [] _ S0) as RS. destruct (run l (launch calls seed fill)) as [es s]. cbn [fst snd app] in *.
  intros OS. assert (T : todo (threads s i) = []).
  { apply left_0. revert RL. unfold left at 2. cbn [launch threads todo at_ stage_number]. intros RL.
    assert (Z : (match calls i with [] => 0 | _ :: _ => 0 end = 0)%nat) by (now destruct (calls i)). rewrite Z in RL. lia. }
  split; [exact T|]. intros B. destruct (RS B) as (d & D1 & D2 & D3). rewrite T, app_nil_r in D1. subst d. now split.
Qed.
End Progress.

(** ** The deque *)
Lemma push_all_pool xs : forall pool, (length pool <= POOL_SIZE)%nat ->
  push_all xs pool = firstn POOL_SIZE (rev xs ++ pool).
Proof.
  induction xs as [|x xs IH]; intros pool L.
  - cbn [push_all fold_left rev app]. symmetry. now apply firstn_all2.
  - unfold push_all in *. cbn [fold_left]. rewrite IH.
    + unfold appendleft. cbn [rev]. rewrite <- app_assoc. cbn [app].
      rewrite !firstn_app. f_equal. rewrite firstn_firstn. f_equal. lia.
    + unfold appendleft. rewrite firstn_length. lia.
Qed.

(** ** Salted multiplication *)
Lemma lxor_small a b : (0 <= a < 2 ^ 256 -> 0 <= b < 2 ^ 256 -> 0 <= Z.lxor a b < 2 ^ 256)%Z.
Proof.
  intros [A0 A] [B0 B]. assert (N : (0 <= Z.lxor a b)%Z) by (apply Z.lxor_nonneg; tauto). split; [exact N|].
  destruct (Z.eq_dec (Z.lxor a b) 0) as [->|NZ]; [reflexivity|].
  apply Z.log2_lt_pow2; [lia|]. pose proof (Z.log2_lxor a b A0 B0) as L.
  assert (LA : (Z.log2 a < 256)%Z) by (destruct (Z.eq_dec a 0) as [->|]; [reflexivity|apply Z.log2_lt_pow2; lia]).
  assert (LB : (Z.log2 b < 256)%Z) by (destruct (Z.eq_dec b 0) as [->|]; [reflexivity|apply Z.log2_lt_pow2; lia]).
  lia.
Qed.

Lemma begin_fit tick ints numbers first g : globals_fit g -> globals_fit (snd (multiply_begin tick ints numbers first g)).
Proof.
  intros [Sd O]. unfold multiply_begin. cbn [snd g_seed g_offset]. set (mix := Z.modulo _ MOD).
  assert (M : (0 <= mix < 2 ^ 256)%Z) by (apply Z.mod_pos_bound; reflexivity).
  pose proof (lxor_small _ _ Sd M) as L. split; [exact L|].
  cbn [g_offset]. rewrite <- Z.shiftr_div_pow2 in * by lia. rewrite Z.shiftr_lxor, O.
  replace (Z.shiftr (Z.lxor (g_seed g) mix) 256) with 0%Z; [reflexivity|].
  rewrite Z.shiftr_div_pow2 by lia. symmetry. now apply Z.div_small.
Qed.

Lemma begin_all_fit bs : forall g, globals_fit g -> globals_fit (begin_all bs g).
Proof.
  induction bs as [|b bs IH]; intros g G; [exact G|]. cbn. apply IH. now apply begin_fit.
Qed.

Lemma end_fit numbers offsets start mix seed : (0 <= seed < 2 ^ 256)%Z ->
  (0 <= multiply_end numbers offsets start mix seed < 2 ^ 256)%Z.
Proof.
  intros Sd. unfold multiply_end. destruct (multiply_loop numbers offsets start mix) as [a b].
  apply lxor_small; [exact Sd|]. apply Z.mod_pos_bound. reflexivity.
Qed.

Lemma to_32_ok n : (0 <= n < 2 ^ 256)%Z -> exists b, to_32_bytes n = Ok b /\ length b = 32%nat /\ Z.of_N (be_int b) = n.
Proof.
  intros [A B]. unfold to_32_bytes. destruct (Z.ltb_spec n 0); [lia|].
  assert (L : Z.to_N n < 2 ^ 256) by (change (2 ^ 256) with (Z.to_N (2 ^ 256)); lia).
  assert (E : to_bytes_be 32 (Z.to_N n) = Ok (be_enc 32 (Z.to_N n))).
  { transitivity (to_bytes_be (blen (be_enc 32 (Z.to_N n))) (be_int (be_enc 32 (Z.to_N n)))); [|apply to_bytes_be_be_int].
    rewrite blen_be_enc, be_int_be_enc, N.mod_small; [reflexivity|exact L]. }
  rewrite E. eexists. split; [reflexivity|]. split; [apply be_enc_length|].
  rewrite be_int_be_enc, N.mod_small by exact L. lia.
Qed.

Lemma new_globals_fit seed bits more : (0 <= bits < 2 ^ 256)%Z -> (0 <= more < 2 ^ 256)%Z -> globals_fit (new_globals seed bits more).
Proof.
  intros B M. split; cbn [g_seed g_offset new_globals]; [exact M|].
  rewrite <- Z.shiftr_div_pow2 by lia. rewrite Z.shiftr_lor.
  replace (Z.shiftr bits 256) with 0%Z by (rewrite Z.shiftr_div_pow2 by lia; symmetry; now apply Z.div_small).
  rewrite Z.lor_0_r. rewrite Z.shiftr_shiftl_l by lia. reflexivity.
Qed.

(** ** The daemon *)
Definition sound_daemon (d : daemon) : Prop :=
  (0 < max_delay d)%Z /\ (0 < initial d)%Z /\ (mutating d = false -> max_delay d = initial d).

Lemma daemon_step_sound second x d : sound_daemon d -> sound_daemon (daemon_step second x d).
Proof.
  intros (A & B & C). unfold daemon_step. destruct x as [now [delay|delay duration|]]; cbn [fst snd do_daemon].
  - destruct (Z.ltb_spec 0 delay); [|now split]. split; [|split]; cbn; auto.
  - destruct (Z.ltb_spec 0 delay); [|now split]. split; [|split]; cbn; auto. discriminate.
  - destruct (mutating d) eqn:M; cbn [negb]; [|split; [|split]; auto].
    destruct (Z.leb_spec (deadline d - now) 0); [split; [|split]; cbn; auto|].
    destruct (Z.ltb_spec second (max_delay d - (deadline d - now))); split; try split; cbn; auto; discriminate || lia || congruence.
Qed.

Lemma daemon_run_sound second ops : forall d, sound_daemon d -> sound_daemon (fold_left (fun d x => daemon_step second x d) ops d).
Proof. induction ops as [|x ops IH]; intros d D; [exact D|]. cbn. now apply IH, daemon_step_sound. Qed.
