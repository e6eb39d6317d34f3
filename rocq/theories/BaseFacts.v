(** * Facts about the vocabulary of Base. *)
From Verif Require Import Base.
From Coq Require Import ZifyBool ZifyNat ZifyN.
Local Open Scope N_scope.

Ltac divmod := Z.div_mod_to_equations.

Lemma bval_lt b : bval b < 256.
Proof. unfold bval. pose proof (Byte.to_N_bounded b). lia. Qed.

Lemma bval_byte_of n : bval (byte_of n) = n mod 256.
Proof.
  unfold bval, byte_of.
  destruct (Byte.of_N (n mod 256)) as [b|] eqn:E.
  - apply Byte.to_of_N in E. exact E.
  - apply Byte.of_N_None_iff in E.
    pose proof (N.mod_upper_bound n 256 ltac:(discriminate)). lia.
Qed.

Lemma byte_of_bval b : byte_of (bval b) = b.
Proof.
  unfold byte_of. rewrite N.mod_small by apply bval_lt.
  unfold bval. rewrite Byte.of_to_N. reflexivity.
Qed.

Lemma byte_of_bval_mod b n : n mod 256 = bval b -> byte_of n = b.
Proof.
  intros H. unfold byte_of. rewrite H. unfold bval. now rewrite Byte.of_to_N.
Qed.

Lemma bval_inj a b : bval a = bval b -> a = b.
Proof.
  intros H. rewrite <- (byte_of_bval a), <- (byte_of_bval b). now rewrite H.
Qed.

Lemma blen_nil {A} : blen (@nil A) = 0.
Proof. reflexivity. Qed.
Lemma blen_cons {A} (x : A) l : blen (x :: l) = 1 + blen l.
Proof. unfold blen. cbn [length]. lia. Qed.
Lemma blen_app {A} (l m : list A) : blen (l ++ m) = blen l + blen m.
Proof. unfold blen. rewrite app_length. lia. Qed.
Lemma blen_rev {A} (l : list A) : blen (rev l) = blen l.
Proof. unfold blen. now rewrite rev_length. Qed.
Lemma blen_repeat {A} (x : A) n : blen (repeat x n) = N.of_nat n.
Proof. unfold blen. now rewrite repeat_length. Qed.
Lemma blen_map {A B} (f : A -> B) l : blen (map f l) = blen l.
Proof. unfold blen. now rewrite map_length. Qed.
Lemma to_nat_blen {A} (l : list A) : N.to_nat (blen l) = length l.
Proof. unfold blen. lia. Qed.
Lemma blen_0 {A} (l : list A) : blen l = 0 -> l = [].
Proof. destruct l; [reflexivity|]. rewrite blen_cons. lia. Qed.

(** ** take / drop *)
Lemma take_firstn {A} n (l : list A) : take n l = firstn (N.to_nat n) l.
Proof.
  unfold take. destruct (N.leb_spec (blen l) n); [|reflexivity].
  symmetry. apply firstn_all2. unfold blen in *. lia.
Qed.
Lemma drop_skipn {A} n (l : list A) : drop n l = skipn (N.to_nat n) l.
Proof.
  unfold drop. destruct (N.leb_spec (blen l) n); [|reflexivity].
  symmetry. apply skipn_all2. unfold blen in *. lia.
Qed.
Lemma take_drop {A} n (l : list A) : take n l ++ drop n l = l.
Proof. rewrite take_firstn, drop_skipn. apply firstn_skipn. Qed.
Lemma blen_take {A} n (l : list A) : blen (take n l) = N.min n (blen l).
Proof. rewrite take_firstn. unfold blen. rewrite firstn_length. lia. Qed.
Lemma blen_drop {A} n (l : list A) : blen (drop n l) = blen l - n.
Proof. rewrite drop_skipn. unfold blen. rewrite skipn_length. lia. Qed.
Lemma take_app {A} n (l m : list A) : blen l = n -> take n (l ++ m) = l.
Proof.
  intros <-. rewrite take_firstn, to_nat_blen, firstn_app.
  rewrite firstn_all, Nat.sub_diag. now rewrite app_nil_r.
Qed.
Lemma drop_app {A} n (l m : list A) : blen l = n -> drop n (l ++ m) = m.
Proof.
  intros <-. rewrite drop_skipn, to_nat_blen, skipn_app.
  now rewrite skipn_all, Nat.sub_diag.
Qed.
Lemma take_all {A} n (l : list A) : blen l <= n -> take n l = l.
Proof. unfold take. intros H. destruct (N.leb_spec (blen l) n); [easy|lia]. Qed.
Lemma drop_all {A} n (l : list A) : blen l <= n -> drop n l = [].
Proof. unfold drop. intros H. destruct (N.leb_spec (blen l) n); [easy|lia]. Qed.
Lemma take_0 {A} (l : list A) : take 0 l = [].
Proof. now rewrite take_firstn. Qed.
Lemma drop_0 {A} (l : list A) : drop 0 l = l.
Proof. now rewrite drop_skipn. Qed.

Lemma app_inj_len {A} (a b c d : list A) :
  a ++ b = c ++ d -> length a = length c -> a = c /\ b = d.
Proof.
  revert c. induction a as [|x a IH]; intros [|y c] H L; cbn in *; try discriminate.
  - auto.
  - injection H as -> H. destruct (IH c H ltac:(lia)) as [-> ->]. auto.
Qed.
Lemma app_inj_len_r {A} (a b c d : list A) :
  a ++ b = c ++ d -> length b = length d -> a = c /\ b = d.
Proof.
  intros H L. apply app_inj_len; [exact H|].
  apply (f_equal (@length A)) in H. rewrite !app_length in H. lia.
Qed.

(** ** integers and byte strings *)
Lemma le_enc_length w n : length (le_enc w n) = w.
Proof. revert n. induction w; intros; cbn; congruence. Qed.
Lemma be_enc_length w n : length (be_enc w n) = w.
Proof. unfold be_enc. now rewrite rev_length, le_enc_length. Qed.
Lemma blen_be_enc w n : blen (be_enc w n) = N.of_nat w.
Proof. unfold blen. now rewrite be_enc_length. Qed.
Lemma blen_le_enc w n : blen (le_enc w n) = N.of_nat w.
Proof. unfold blen. now rewrite le_enc_length. Qed.

Lemma le_int_bound l : le_int l < 256 ^ blen l.
Proof.
  induction l as [|b l IH]; cbn [le_int].
  - reflexivity.
  - rewrite blen_cons. rewrite N.pow_add_r, N.pow_1_r.
    pose proof (bval_lt b). nia.
Qed.

Lemma le_int_le_enc w n : le_int (le_enc w n) = n mod 256 ^ N.of_nat w.
Proof.
  revert n. induction w as [|w IH]; intros n.
  - cbn. now rewrite N.mod_1_r.
  - cbn [le_enc le_int]. rewrite IH, bval_byte_of.
    replace (N.of_nat (S w)) with (N.succ (N.of_nat w)) by lia.
    rewrite N.pow_succ_r'.
    rewrite N.mod_mul_r; [reflexivity| |]; try discriminate.
    apply N.pow_nonzero. discriminate.
Qed.

Lemma le_enc_le_int l : le_enc (length l) (le_int l) = l.
Proof.
  induction l as [|b l IH]; [reflexivity|].
  cbn [length le_enc le_int].
  pose proof (bval_lt b).
  f_equal.
  - apply byte_of_bval_mod.
    rewrite N.mul_comm, N.mod_add by discriminate. now rewrite N.mod_small.
  - rewrite N.mul_comm, N.div_add by discriminate.
    rewrite N.div_small by assumption. exact IH.
Qed.

Lemma le_int_app l m : le_int (l ++ m) = le_int l + 256 ^ blen l * le_int m.
Proof.
  induction l as [|b l IH].
  - cbn. destruct (le_int m); reflexivity.
  - cbn [app le_int]. rewrite IH, blen_cons, N.pow_add_r, N.pow_1_r. lia.
Qed.

Lemma be_int_acc l a :
  fold_left (fun acc b => 256 * acc + bval b) l a = 256 ^ blen l * a + be_int l.
Proof.
  unfold be_int. revert a. induction l as [|b l IH]; intros a; cbn [fold_left].
  - cbn [blen length N.of_nat]. rewrite N.pow_0_r. lia.
  - rewrite IH. rewrite (IH (256 * 0 + bval b)).
    rewrite blen_cons, N.pow_add_r, N.pow_1_r. lia.
Qed.

Lemma be_int_cons b l : be_int (b :: l) = 256 ^ blen l * bval b + be_int l.
Proof.
  unfold be_int at 1. cbn [fold_left]. rewrite be_int_acc. reflexivity.
Qed.

Lemma be_int_app l m : be_int (l ++ m) = 256 ^ blen m * be_int l + be_int m.
Proof.
  unfold be_int at 1. rewrite fold_left_app. rewrite be_int_acc. reflexivity.
Qed.

Lemma be_int_rev l : be_int l = le_int (rev l).
Proof.
  induction l as [|b l IH]; [reflexivity|].
  rewrite be_int_cons. cbn [rev]. rewrite le_int_app, IH. cbn [le_int].
  rewrite blen_rev. lia.
Qed.

Lemma be_int_bound l : be_int l < 256 ^ blen l.
Proof. rewrite be_int_rev, <- (blen_rev l). apply le_int_bound. Qed.

Lemma be_int_be_enc w n : be_int (be_enc w n) = n mod 256 ^ N.of_nat w.
Proof. rewrite be_int_rev. unfold be_enc. rewrite rev_involutive. apply le_int_le_enc. Qed.

Lemma be_enc_be_int l : be_enc (length l) (be_int l) = l.
Proof.
  unfold be_enc. rewrite be_int_rev, <- (rev_length l), le_enc_le_int.
  apply rev_involutive.
Qed.

Lemma be_int_inj a b : length a = length b -> be_int a = be_int b -> a = b.
Proof.
  intros L H. rewrite <- (be_enc_be_int a), <- (be_enc_be_int b). congruence.
Qed.
Lemma le_int_inj a b : length a = length b -> le_int a = le_int b -> a = b.
Proof.
  intros L H. rewrite <- (le_enc_le_int a), <- (le_enc_le_int b). congruence.
Qed.

Lemma be_enc_inj w m n :
  m < 256 ^ N.of_nat w -> n < 256 ^ N.of_nat w -> be_enc w m = be_enc w n -> m = n.
Proof.
  intros Hm Hn H. apply (f_equal be_int) in H.
  rewrite !be_int_be_enc in H. rewrite !N.mod_small in H by assumption. exact H.
Qed.
Lemma le_enc_inj w m n :
  m < 256 ^ N.of_nat w -> n < 256 ^ N.of_nat w -> le_enc w m = le_enc w n -> m = n.
Proof.
  intros Hm Hn H. apply (f_equal le_int) in H.
  rewrite !le_int_le_enc in H. rewrite !N.mod_small in H by assumption. exact H.
Qed.

Lemma to_bytes_be_ok w n x :
  to_bytes_be w n = Ok x <-> n < 256 ^ w /\ x = be_enc (N.to_nat w) n.
Proof.
  unfold to_bytes_be. destruct (N.ltb_spec n (256 ^ w)).
  - split; [intros [= <-]; auto|intros [_ ->]; reflexivity].
  - split; [discriminate|lia].
Qed.
Lemma to_bytes_le_ok w n x :
  to_bytes_le w n = Ok x <-> n < 256 ^ w /\ x = le_enc (N.to_nat w) n.
Proof.
  unfold to_bytes_le. destruct (N.ltb_spec n (256 ^ w)).
  - split; [intros [= <-]; auto|intros [_ ->]; reflexivity].
  - split; [discriminate|lia].
Qed.
Lemma to_bytes_be_len w n x : to_bytes_be w n = Ok x -> blen x = w.
Proof. intros H. apply to_bytes_be_ok in H as [_ ->]. rewrite blen_be_enc. lia. Qed.
Lemma to_bytes_be_int w n x : to_bytes_be w n = Ok x -> be_int x = n.
Proof.
  intros H. apply to_bytes_be_ok in H as [L ->].
  rewrite be_int_be_enc, N2Nat.id. now apply N.mod_small.
Qed.
Lemma to_bytes_be_fit w n : n < 256 ^ w -> to_bytes_be w n = Ok (be_enc (N.to_nat w) n).
Proof. intros H. apply to_bytes_be_ok. auto. Qed.
Lemma to_bytes_le_fit w n : n < 256 ^ w -> to_bytes_le w n = Ok (le_enc (N.to_nat w) n).
Proof. intros H. apply to_bytes_le_ok. auto. Qed.
Lemma to_bytes_be_be_int l : to_bytes_be (blen l) (be_int l) = Ok l.
Proof.
  apply to_bytes_be_ok. split; [apply be_int_bound|].
  rewrite to_nat_blen. symmetry. apply be_enc_be_int.
Qed.

(** ** result *)
Lemma Ok_inj {A} (a b : A) : Ok a = Ok b -> a = b.
Proof. now intros [= ->]. Qed.
Lemma Err_inj {A} (a b : exn) : @Err A a = Err b -> a = b.
Proof. now intros [= ->]. Qed.
Lemma bind_ok {A B} (r : result A) (k : A -> result B) y :
  bind r k = Ok y <-> exists x, r = Ok x /\ k x = Ok y.
Proof.
  destruct r as [x|e]; cbn; split.
  - intros H. eauto.
  - intros (z & [= <-] & H). exact H.
  - discriminate.
  - intros (z & H & _). discriminate.
Qed.
Lemma bind_err {A B} (r : result A) (k : A -> result B) e :
  bind r k = Err e <-> r = Err e \/ exists x, r = Ok x /\ k x = Err e.
Proof.
  destruct r as [x|e']; cbn; split.
  - intros H. right. eauto.
  - intros [H|(z & [= <-] & H)]; [discriminate|exact H].
  - intros [= ->]. auto.
  - intros [[= ->]|(z & H & _)]; [reflexivity|discriminate].
Qed.

(** ** ceil_div *)
Lemma ceil_div_mul_ge a b : b <> 0 -> a <= b * ceil_div a b.
Proof.
  intros Hb. unfold ceil_div.
  pose proof (N.div_mod (a + b - 1) b Hb).
  pose proof (N.mod_upper_bound (a + b - 1) b Hb). nia.
Qed.
Lemma ceil_div_mul_lt a b : b <> 0 -> b * ceil_div a b < a + b.
Proof.
  intros Hb. unfold ceil_div.
  pose proof (N.div_mod (a + b - 1) b Hb).
  pose proof (N.mod_upper_bound (a + b - 1) b Hb). nia.
Qed.

(** ** equality tests *)
Lemma byte_eqb_eq a b : byte_eqb a b = true <-> a = b.
Proof.
  unfold byte_eqb. split.
  - intros H. apply Byte.byte_dec_bl. exact H.
  - intros ->. apply Byte.byte_dec_lb. reflexivity.
Qed.
Lemma bytes_eqb_eq a b : bytes_eqb a b = true <-> a = b.
Proof.
  revert b. induction a as [|x a IH]; intros [|y b]; cbn; split; try easy.
  - intros H. apply andb_prop in H as [H1 H2].
    apply byte_eqb_eq in H1 as ->. apply IH in H2 as ->. reflexivity.
  - intros [= -> ->]. apply andb_true_intro. split; [now apply byte_eqb_eq|now apply IH].
Qed.
Lemma bytes_eqb_refl a : bytes_eqb a a = true.
Proof. now apply bytes_eqb_eq. Qed.
Lemma bytes_eqb_neq a b : bytes_eqb a b = false <-> a <> b.
Proof.
  destruct (bytes_eqb a b) eqn:E.
  - apply bytes_eqb_eq in E. split; [discriminate|congruence].
  - split; [|reflexivity]. intros _ ->. rewrite bytes_eqb_refl in E. discriminate.
Qed.

(** ** xor *)
Lemma lxor_lt_256 a b : a < 256 -> b < 256 -> N.lxor a b < 256.
Proof.
  intros Ha Hb. destruct (N.eq_dec (N.lxor a b) 0) as [->|Hz]; [reflexivity|].
  apply N.log2_lt_pow2 with (b := 8); [lia|].
  eapply N.le_lt_trans; [apply N.log2_lxor|].
  apply N.max_lub_lt.
  - destruct (N.eq_dec a 0) as [->|]; [reflexivity|]. apply (N.log2_lt_pow2 a 8); lia.
  - destruct (N.eq_dec b 0) as [->|]; [reflexivity|]. apply (N.log2_lt_pow2 b 8); lia.
Qed.
Lemma bval_bxor a b : bval (bxor a b) = N.lxor (bval a) (bval b).
Proof.
  unfold bxor. rewrite bval_byte_of. apply N.mod_small.
  apply lxor_lt_256; apply bval_lt.
Qed.
Lemma bxor_involutive a b : bxor (bxor a b) b = a.
Proof.
  apply bval_inj. rewrite !bval_bxor, N.lxor_assoc, N.lxor_nilpotent.
  apply N.lxor_0_r.
Qed.
Lemma xor_bytes_length a b : length (xor_bytes a b) = Nat.min (length a) (length b).
Proof. revert b. induction a as [|x a IH]; intros [|y b]; cbn; auto. Qed.
Lemma xor_bytes_involutive a b : (length a <= length b)%nat -> xor_bytes (xor_bytes a b) b = a.
Proof.
  revert b. induction a as [|x a IH]; intros [|y b] H; cbn in *; try easy; try lia.
  rewrite bxor_involutive. f_equal. apply IH. lia.
Qed.

(** ** mapM *)
Lemma mapM_ok_length {A B} (f : A -> result B) l ys : mapM f l = Ok ys -> length ys = length l.
Proof.
  revert ys. induction l as [|x l IH]; intros ys H; cbn in *.
  - now injection H as <-.
  - apply bind_ok in H as (y & _ & H). apply bind_ok in H as (zs & Hz & H).
    injection H as <-. cbn. f_equal. now apply IH.
Qed.

#[global] Arguments le_enc : simpl never.
#[global] Arguments be_enc : simpl never.
#[global] Arguments take : simpl never.
#[global] Arguments drop : simpl never.
#[global] Arguments to_bytes_be : simpl never.
#[global] Arguments to_bytes_le : simpl never.
#[global] Arguments ceil_div : simpl never.
#[global] Arguments blen : simpl never.
