(** * Primality of given numbers, by trial division or by Pocklington's criterion.
    Nothing in this file models code: it supplies proofs that numbers are prime. *)
From Coq Require Import ZArith Znumtheory Zpow_facts List Lia Permutation Bool.
Import ListNotations.
Local Open Scope Z_scope.

(** ** Prime factors *)
Lemma prime_factor : forall n, 1 < n -> exists q, prime q /\ (q | n).
Proof.
  intros n. pattern n. apply (well_founded_ind (Z.lt_wf 0)). clear n. intros n IH N.
  destruct (prime_dec n) as [P|P]; [exists n; split; [exact P|apply Z.divide_refl]|].
  destruct (not_prime_divide n N P) as (d & D & Dn).
  destruct (IH d ltac:(lia) ltac:(lia)) as (q & Q & Qd). exists q. split; [exact Q|].
  now apply Z.divide_trans with d.
Qed.

Lemma prime_by_factors n : 1 < n -> (forall q, prime q -> (q | n) -> n < q * q) -> prime n.
Proof.
  intros N A. destruct (prime_dec n) as [P|P]; [exact P|exfalso].
  destruct (not_prime_divide n N P) as (d & D & [e E]).
  assert (E0 : 1 < e) by nia.
  assert (S0 : exists f, 1 < f /\ (f | n) /\ f * f <= n).
  { destruct (Z.le_gt_cases (d * d) n).
    - exists d. split; [lia|]. split; [now exists e|lia].
    - exists e. split; [lia|]. split; [exists d; lia|]. nia. }
  destruct S0 as (f & F & Fn & FF). destruct (prime_factor f F) as (q & Q & Qf).
  pose proof (A q Q (Z.divide_trans _ _ _ Qf Fn)). pose proof (prime_ge_2 q Q).
  apply Z.divide_pos_le in Qf; [|lia]. nia.
Qed.

(** ** Trial division *)
Fixpoint trial (n d : Z) (fuel : nat) : bool :=
  if n <? d * d then true else
  match fuel with
  | O => false
  | S fuel => negb (n mod d =? 0) && trial n (d + 2) fuel
  end.
Lemma trial_ok n fuel : forall d, 3 <= d -> Z.odd d = true -> trial n d fuel = true ->
  forall q, d <= q -> Z.odd q = true -> (q | n) -> 0 < n -> n < q * q.
Proof.
  induction fuel as [|fuel IH]; intros d D O T q Q Oq Dq N; cbn [trial] in T;
    (destruct (Z.ltb_spec n (d * d)); [nia|]); [discriminate|].
  apply andb_true_iff in T as [T1 T2]. destruct (Z.eqb_spec (n mod d) 0) as [|M]; [discriminate|].
  apply (IH (d + 2)); auto; [lia| |].
  - now rewrite Z.odd_add, O.
  - destruct (Z.eq_dec q d) as [->|]; [exfalso; apply M; apply Z.mod_divide; [lia|exact Dq]|].
    destruct (Z.eq_dec q (d + 1)) as [->|]; [|lia]. rewrite Z.odd_add, O in Oq. discriminate Oq.
Qed.
Lemma trial_prime n fuel : 2 < n -> Z.odd n = true -> trial n 3 fuel = true -> prime n.
Proof.
  intros N O T. apply prime_by_factors; [lia|]. intros q Q D.
  pose proof (prime_ge_2 q Q). destruct (Z.odd q) eqn:Oq.
  - destruct (Z.eq_dec q 2) as [->|]; [discriminate|]. apply (trial_ok n fuel 3 ltac:(lia) eq_refl T q); auto; lia.
  - destruct D as [c ->]. rewrite Z.odd_mul, Oq, andb_false_r in O. discriminate O.
Qed.

(** ** Fermat's little theorem *)
Definition prod (l : list Z) : Z := fold_right Z.mul 1 l.
Lemma prod_perm l l' : Permutation l l' -> prod l = prod l'.
Proof. induction 1; unfold prod in *; cbn [fold_right]; [reflexivity|congruence|ring|congruence]. Qed.
Lemma prod_map a q l : (prod (map (fun i => a * i mod q) l)) mod q = (a ^ Z.of_nat (length l) * prod l) mod q.
Proof.
  induction l as [|x l IH]; [reflexivity|]. cbn [map length].
  change (prod (x :: l)) with (x * prod l).
  change (prod (?u :: ?v)) with (u * prod v). rewrite Nat2Z.inj_succ, Z.pow_succ_r by lia.
  destruct (Z.eq_dec q 0) as [->|Q].
  { rewrite !Zmod_0_r in *. rewrite IH. ring. }
  rewrite Z.mul_mod_idemp_l by exact Q.
  rewrite <- Z.mul_mod_idemp_r by exact Q. rewrite IH, Z.mul_mod_idemp_r by exact Q. f_equal. ring.
Qed.
Lemma rel_prime_prod q l : prime q -> (forall i, In i l -> 0 < i < q) -> rel_prime q (prod l).
Proof.
  intros P. induction l as [|x l IH]; intros A; [apply rel_prime_sym; apply rel_prime_1|].
  change (prod (x :: l)) with (x * prod l). apply rel_prime_mult.
  - apply prime_rel_prime; [exact P|]. intros D. pose proof (A x (or_introl eq_refl)).
    apply Z.divide_pos_le in D; lia.
  - apply IH. intros i I. apply A. now right.
Qed.

Theorem fermat a q : prime q -> ~ (q | a) -> a ^ (q - 1) mod q = 1.
Proof.
  intros P A. pose proof (prime_ge_2 q P) as Q2.
  set (l := map Z.of_nat (seq 1 (Z.to_nat (q - 1)))).
  assert (In_l : forall i, In i l <-> 0 < i < q).
  { intros i. unfold l. rewrite in_map_iff. split.
    - intros (k & <- & K). apply in_seq in K. lia.
    - intros I. exists (Z.to_nat i). rewrite Z2Nat.id by lia. split; [reflexivity|]. apply in_seq. lia. }
  assert (ND : NoDup l).
  { unfold l. apply FinFun.Injective_map_NoDup; [intros x y; lia|apply seq_NoDup]. }
  assert (CA : forall i j, (a * i) mod q = (a * j) mod q -> (q | i - j)).
  { intros i j E. apply Gauss with a; [|now apply prime_rel_prime].
    replace (a * (i - j)) with (a * i - a * j) by ring. apply Z.mod_divide; [lia|].
    rewrite Zminus_mod, E, Z.sub_diag. apply Zmod_0_l. }
  assert (PM : Permutation (map (fun i => a * i mod q) l) l).
  { apply NoDup_Permutation_bis.
    - assert (G : forall m, NoDup m -> (forall i, In i m -> 0 < i < q) -> NoDup (map (fun i => a * i mod q) m)).
      { induction m as [|x m IH]; intros N B; [constructor|]. cbn [map]. inversion N as [|? ? Nx Nm]; subst. constructor.
        - rewrite in_map_iff. intros (y & E & Y). apply CA in E. assert (x = y); [|congruence].
          pose proof (B x (or_introl eq_refl)). pose proof (B y (or_intror Y)).
          destruct (Z.lt_trichotomy x y) as [|[|]]; [| assumption |].
          + apply Z.divide_pos_le in E; lia.
          + apply Z.divide_opp_r in E. replace (- (y - x)) with (x - y) in E by ring. apply Z.divide_pos_le in E; lia.
        - apply IH; [exact Nm|]. intros i I. apply B. now right. }
      apply G; [exact ND|]. intros i I. now apply In_l.
    - now rewrite map_length.
    - intros y Y. apply in_map_iff in Y as (i & <- & I). apply In_l in I. apply In_l.
      pose proof (Z.mod_pos_bound (a * i) q ltac:(lia)).
      assert ((a * i) mod q <> 0); [|lia]. intros E. apply Z.mod_divide in E; [|lia].
      apply prime_mult in E; [|exact P]. destruct E as [E|E]; [now apply A|].
      apply Z.divide_pos_le in E; lia. }
  pose proof (prod_map a q l) as E. rewrite (prod_perm _ _ PM) in E.
  assert (Ll : Z.of_nat (length l) = q - 1) by (unfold l; rewrite map_length, seq_length; lia).
  rewrite Ll in E.
  assert (D : (q | a ^ (q - 1) - 1)).
  { apply Gauss with (prod l).
    - replace (prod l * (a ^ (q - 1) - 1)) with (a ^ (q - 1) * prod l - prod l) by ring.
      apply Z.mod_divide; [lia|]. rewrite Zminus_mod, <- E, Z.sub_diag. apply Zmod_0_l.
    - apply rel_prime_prod; [exact P|]. intros i I. now apply In_l. }
  destruct D as [c D]. replace (a ^ (q - 1)) with (1 + c * q) by lia.
  rewrite Z.mod_add by lia. apply Z.mod_small. lia.
Qed.

(** ** Pocklington's criterion *)
Lemma cong_pow a b e n : (n | a - b) -> 0 <= e -> (n | a ^ e - b ^ e).
Proof.
  intros D E. pattern e. apply natlike_ind; [| |exact E].
  - exists 0. rewrite !Z.pow_0_r. lia.
  - intros k K IH. rewrite !Z.pow_succ_r by exact K.
    replace (a * a ^ k - b * b ^ k) with (a * (a ^ k - b ^ k) + (a - b) * b ^ k) by ring.
    apply Z.divide_add_r; [now apply Z.divide_mul_r|now apply Z.divide_mul_l].
Qed.

(** Exponents with a^e = 1 modulo a prime are closed under gcd. *)
Lemma pow_gcd a q x y : prime q -> ~ (q | a) -> 0 < x -> 0 < y ->
  (q | a ^ x - 1) -> (q | a ^ y - 1) -> (q | a ^ (Z.gcd x y) - 1).
Proof.
  intros P A. revert y. pattern x. apply (well_founded_ind (Z.lt_wf 0)). clear x.
  intros x IHx y X. revert X. pattern y. apply (well_founded_ind (Z.lt_wf 0)). clear y.
  intros y IHy X Y Dx Dy.
  assert (SUB : forall u v, 0 < u < v -> (q | a ^ u - 1) -> (q | a ^ v - 1) -> (q | a ^ (v - u) - 1)).
  { intros u v U Du Dv. apply Gauss with (a ^ u).
    - replace (a ^ u * (a ^ (v - u) - 1)) with ((a ^ v - 1) - (a ^ u - 1)).
      + now apply Z.divide_sub_r.
      + replace v with (u + (v - u)) at 1 by lia. rewrite Z.pow_add_r by lia. ring.
    - apply rel_prime_Zpower_r; [lia|]. now apply prime_rel_prime. }
  destruct (Z.lt_trichotomy x y) as [L|[->|L]].
  - replace (Z.gcd x y) with (Z.gcd x (y - x)) by (apply Z.gcd_sub_diag_r).
    apply IHy; auto; try lia; apply SUB; auto; lia.
  - rewrite Z.gcd_diag, Z.abs_eq by lia. exact Dy.
  - replace (Z.gcd x y) with (Z.gcd (x - y) y) by (rewrite (Z.gcd_comm (x - y)), Z.gcd_sub_diag_r; apply Z.gcd_comm).
    apply IHx; auto; try lia; apply SUB; auto; lia.
Qed.

Lemma quotient_divides F m y h : 0 < F -> 0 < y -> 0 < m -> (F | m) ->
  F = h * Z.gcd F y -> (h * Z.gcd m y | m).
Proof.
  intros F0 Y M [R E] H. set (g := Z.gcd F y) in *. set (G := Z.gcd m y).
  assert (g0 : 0 < g) by (pose proof (Z.gcd_nonneg F y); assert (g <> 0) by (intros Z; apply Z.gcd_eq_0 in Z; lia); lia).
  (* G | R * g, by Bezout for g *)
  destruct (Z.gcd_bezout F y g eq_refl) as (u & v & B).
  assert (D : (G | R * g)).
  { replace (R * g) with (u * m + (R * v) * y) by (rewrite <- B, E; ring).
    apply Z.divide_add_r; apply Z.divide_mul_r; [apply Z.gcd_divide_l|apply Z.gcd_divide_r]. }
  destruct D as [c D]. exists c. rewrite E, H. replace (R * (h * g)) with (h * (R * g)) by ring. rewrite D. ring.
Qed.

Theorem pocklington n a F rs :
  1 < n -> 0 < F -> (F | n - 1) -> n < F * F ->
  (forall r, prime r -> (r | F) -> In r rs) ->
  (n | a ^ (n - 1) - 1) ->
  (forall r, In r rs -> exists u v, u * (a ^ ((n - 1) / r) - 1) + v * n = 1) ->
  prime n.
Proof.
  intros N F0 FD FF RS FA W. apply prime_by_factors; [exact N|]. intros q Q D.
  pose proof (prime_ge_2 q Q) as Q2.
  assert (A : ~ (q | a)).
  { intros B. assert (q | 1) as X; [|apply Z.divide_1_r_nonneg in X; lia].
    replace 1 with (a ^ (n - 1) - (a ^ (n - 1) - 1)) by ring. apply Z.divide_sub_r.
    - replace (n - 1) with (Z.succ (n - 2)) by lia. rewrite Z.pow_succ_r by lia. now apply Z.divide_mul_l.
    - now apply Z.divide_trans with n. }
  assert (Dn : (q | a ^ (n - 1) - 1)) by now apply Z.divide_trans with n.
  assert (Dq : (q | a ^ (q - 1) - 1)).
  { apply Z.mod_divide; [lia|]. rewrite Zminus_mod, (fermat a q Q A). rewrite (Z.mod_small 1) by lia. reflexivity. }
  assert (Dg : (q | a ^ (Z.gcd (n - 1) (q - 1)) - 1)) by (apply pow_gcd; auto; lia).
  assert (FQ : (F | q - 1)).
  { destruct (Z.gcd_divide_l F (q - 1)) as [h Hh].
    set (g := Z.gcd F (q - 1)) in *.
    assert (g0 : 0 <= g) by apply Z.gcd_nonneg.
    assert (h0 : 0 < h) by nia.
    destruct (Z.eq_dec h 1) as [->|H1].
    { rewrite Z.mul_1_l in Hh. rewrite Hh. apply Z.gcd_divide_r. }
    exfalso. destruct (prime_factor h ltac:(lia)) as (r & R & Rh).
    pose proof (prime_ge_2 r R).
    assert (RF : (r | F)) by (rewrite Hh; now apply Z.divide_mul_l).
    destruct (W r (RS r R RF)) as (u & v & B).
    destruct (quotient_divides F (n - 1) (q - 1) h F0 ltac:(lia) ltac:(lia) FD Hh) as [c C].
    destruct Rh as [t T].
    assert (E : (n - 1) / r = c * t * Z.gcd (n - 1) (q - 1)).
    { symmetry. apply Z.div_unique_exact; [lia|].
      set (G := Z.gcd (n - 1) (q - 1)) in *. clearbody G. rewrite C, T. ring. }
    assert (G0 : 0 <= Z.gcd (n - 1) (q - 1)) by apply Z.gcd_nonneg.
    assert (ct : 0 <= c * t) by nia.
    assert (X : (q | a ^ ((n - 1) / r) - 1)).
    { rewrite E, Z.mul_comm, Z.pow_mul_r by lia.
      pose proof (cong_pow _ 1 (c * t) q Dg ct) as Y. rewrite Z.pow_1_l in Y by lia. exact Y. }
    assert (q | 1) as Y; [|apply Z.divide_1_r_nonneg in Y; lia].
    rewrite <- B. apply Z.divide_add_r; apply Z.divide_mul_r; assumption. }
  apply Z.divide_pos_le in FQ; [|lia]. nia.
Qed.

(** ** Checking certificates *)
(** [q * n] for [n = off + 2 ^ k]. *)
Definition times (off k q : Z) : Z := off * q + Z.shiftl q k.
Lemma times_ok off k q n : 0 <= k -> n = off + 2 ^ k -> times off k q = q * n.
Proof. intros K ->. unfold times. rewrite Z.shiftl_mul_pow2 by exact K. ring. Qed.

(** [a ^ e] modulo [n = off + 2 ^ k], where the list has a multiple of [n] to subtract
    for every digit of [e] below the first, the last digit first. *)
Fixpoint power (n off k a : Z) (e : positive) (l : list Z) : option Z :=
  match e, l with
  | xH, [] => Some a
  | xO e, q :: l =>
    match power n off k a e l with
    | Some y => let z := Z.square y - times off k q in if (0 <=? z) && (z <? n) then Some z else None
    | None => None
    end
  | xI e, q :: l =>
    match power n off k a e l with
    | Some y => let z := a * Z.square y - times off k q in if (0 <=? z) && (z <? n) then Some z else None
    | None => None
    end
  | _, _ => None
  end.
Lemma power_ok n off k a e : 0 <= k -> n = off + 2 ^ k ->
  forall l y, power n off k a e l = Some y -> (n | a ^ Zpos e - y).
Proof.
  intros K N. induction e as [e IH|e IH|]; intros l y E.
  - destruct l as [|q l]; [discriminate|]. cbn [power] in E.
    destruct (power n off k a e l) as [w|] eqn:P; [|discriminate]. specialize (IH l w P). cbn zeta in E.
    destruct (_ && _); [|discriminate]. injection E as <-. rewrite (times_ok _ _ _ n K N), Z.square_spec.
    rewrite Pos2Z.inj_xI, Z.pow_add_r, Z.pow_1_r, Z.pow_twice_r by lia.
    destruct IH as [c C]. replace (a ^ Z.pos e) with (c * n + w) by lia.
    exists (a * c * c * n + 2 * a * c * w + q). ring.
  - destruct l as [|q l]; [discriminate|]. cbn [power] in E.
    destruct (power n off k a e l) as [w|] eqn:P; [|discriminate]. specialize (IH l w P). cbn zeta in E.
    destruct (_ && _); [|discriminate]. injection E as <-. rewrite (times_ok _ _ _ n K N), Z.square_spec.
    rewrite Pos2Z.inj_xO, Z.pow_twice_r by lia.
    destruct IH as [c C]. replace (a ^ Z.pos e) with (c * n + w) by lia.
    exists (c * c * n + 2 * c * w + q). ring.
  - destruct l; [|discriminate]. injection E as <-. rewrite Z.pow_1_r, Z.sub_diag. apply Z.divide_0_r.
Qed.

(** A step for one prime factor [r] of [n - 1]: the quotient [(n - 1) / r], the list
    for [a ^ ((n - 1) / r)], the inverse of that minus one and its multiple of [n]. *)
Record step := { s_r : positive; s_c : positive; s_list : list Z; s_u : Z; s_v : Z }.
Definition check_step (n : positive) (off k a : Z) (s : step) : bool :=
  Pos.eqb (s_r s * s_c s) (Pos.pred n) &&
  match power (Zpos n) off k a (s_c s) (s_list s) with
  | Some b => s_u s * (b - 1) - times off k (s_v s) =? 1
  | None => false
  end.
(** The prime factors of [n - 1] to use, with repetitions, a step for each of them,
    and the list for [a ^ (n - 1)]. *)
Definition check (n : positive) (off k a : Z) (mult : list positive) (ss : list step) (l : list Z) : bool :=
  let F := prod (map Zpos mult) in
  (1 <? Zpos n) && (0 <=? k) && (Zpos n =? off + 2 ^ k) && (Zpos n <? F * F) && ((Zpos n - 1) mod F =? 0) &&
  forallb (fun r => existsb (fun s => Pos.eqb r (s_r s)) ss) mult &&
  match power (Zpos n) off k a (Pos.pred n) l with Some z => z =? 1 | None => false end &&
  forallb (check_step n off k a) ss.

Lemma prime_of_prod l r : prime r -> (r | prod l) -> Forall prime l -> In r l.
Proof.
  intros R. induction l as [|x l IH]; intros D A.
  - change (prod []) with 1 in D. pose proof (prime_ge_2 r R). apply Z.divide_1_r_nonneg in D; lia.
  - change (prod (x :: l)) with (x * prod l) in D. inversion A; subst.
    apply prime_mult in D; [|exact R]. destruct D as [D|D].
    + left. symmetry. now apply prime_div_prime.
    + right. now apply IH.
Qed.

Theorem check_ok n off k a mult ss l :
  check n off k a mult ss l = true -> Forall (fun r => prime (Zpos r)) mult -> prime (Zpos n).
Proof.
  intros C A. unfold check in C. cbn zeta in C. rewrite !andb_true_iff in C.
  destruct C as [[[[[[[N K0] NK] FF] FD] M] X] K]. apply Z.ltb_lt in N, FF. apply Z.eqb_eq in FD, NK. apply Z.leb_le in K0.
  set (F := prod (map Zpos mult)) in *.
  assert (A' : Forall prime (map Zpos mult)) by now apply Forall_map.
  assert (F0 : 0 < F).
  { assert (0 <= F); [|nia]. unfold F. clear. induction mult; cbn [map]; [cbn; lia|].
    change (prod (?u :: ?v)) with (u * prod v). nia. }
  rewrite forallb_forall in M, K.
  apply (pocklington (Zpos n) a F (map Zpos mult)); auto.
  - apply Z.mod_divide; [lia|exact FD].
  - intros r R D. now apply prime_of_prod.
  - destruct (power (Z.pos n) off k a (Pos.pred n) l) as [z|] eqn:P; [|discriminate]. apply Z.eqb_eq in X. subst z.
    apply (power_ok _ _ _ _ _ K0 NK) in P. replace (Z.pos n - 1) with (Z.pos (Pos.pred n)) by lia. exact P.
  - intros r I. apply in_map_iff in I as (r' & <- & I). specialize (M r' I).
    apply existsb_exists in M as (s & Is & E). apply Pos.eqb_eq in E. subst r'.
    specialize (K s Is). unfold check_step in K. apply andb_true_iff in K as [E K]. apply Pos.eqb_eq in E.
    destruct (power (Z.pos n) off k a (s_c s) (s_list s)) as [b|] eqn:L; [|discriminate].
    apply Z.eqb_eq in K. rewrite (times_ok _ _ _ _ K0 NK) in K. apply (power_ok _ _ _ _ _ K0 NK) in L.
    assert (Q : Z.pos n - 1 = Zpos (s_c s) * Zpos (s_r s)) by lia.
    rewrite Q, Z.div_mul by lia. destruct L as [c L].
    exists (s_u s), (- s_u s * c - s_v s). replace (a ^ Z.pos (s_c s)) with (c * Z.pos n + b) by lia.
    transitivity (s_u s * (b - 1) - s_v s * Z.pos n); [ring|exact K].
Qed.
