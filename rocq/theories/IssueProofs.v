(** * Messages of exceptions: proofs *)
From Coq Require Import ZArith Lia Strings.String Strings.Ascii DecimalString.
From Verif Require Import Base StrModel IssueModel IssueSpec.
Open Scope list_scope.

Lemma starts_app k s : starts_with k (k ++ s) = true.
Proof. induction k as [|c k IH]; cbn; [reflexivity|]. now rewrite N.eqb_refl. Qed.
Lemma starts_inv k : forall s, starts_with k s = true -> exists q, s = k ++ q.
Proof.
  induction k as [|c k IH]; intros s H; [now exists s|]. destruct s as [|y s]; [discriminate|]. cbn in H.
  apply andb_prop in H as [E H]. apply N.eqb_eq in E as ->. destruct (IH s H) as (q & ->). now exists q.
Qed.
Lemma skipped k y p : forall s, replace_from k y (p ++ s) (length p) = replace_from k y s 0.
Proof. induction p as [|c p IH]; intros s; cbn; [reflexivity|apply IH]. Qed.
Lemma hit k y s : k <> [] -> replace k y (k ++ s) = y ++ replace k y s.
Proof.
  destruct k as [|c k]; [congruence|]. intros _. unfold replace. cbn [app replace_from].
  change (c :: k ++ s) with ((c :: k) ++ s). rewrite starts_app. f_equal. cbn [length]. rewrite Nat.sub_succ, Nat.sub_0_r. apply skipped.
Qed.
(** No occurrence begins in [p], whatever comes after it. *)
Fixpoint clean (k p : str) : bool :=
  match p with
  | [] => true
  | _ :: p' => negb (starts_with k p || starts_with p k) && clean k p'
  end.
Lemma starts_either k : forall p s, starts_with k (p ++ s) = true -> starts_with k p = true \/ starts_with p k = true.
Proof.
  induction k as [|c k IH]; intros p s H; [now left|]. destruct p as [|d p]; [now right|]. cbn in *.
  apply andb_prop in H as [E H]. apply N.eqb_eq in E as ->. rewrite N.eqb_refl. cbn. eapply IH; eauto.
Qed.
Lemma pass k y p s : clean k p = true -> replace k y (p ++ s) = p ++ replace k y s.
Proof.
  unfold replace. induction p as [|c p IH]; intros H; [reflexivity|]. cbn [clean] in H. apply andb_prop in H as [N H].
  cbn [app replace_from]. destruct (starts_with k (c :: p ++ s)) eqn:E; [|f_equal; auto].
  destruct (starts_either k (c :: p) s E) as [X|X]; rewrite X in N; cbn in N; [discriminate|]. now rewrite orb_true_r in N.
Qed.
Definition breaks (k p : str) : bool := match p with [] => false | c :: _ => negb (existsb (N.eqb c) k) end.
Lemma over k y x p s : ~ contains k x -> breaks k p = true -> replace k y (x ++ p ++ s) = x ++ replace k y (p ++ s).
Proof.
  unfold replace. intros N B. destruct p as [|d p]; [discriminate|]. cbn in B. induction x as [|c x IH]; [reflexivity|].
  cbn [app replace_from]. destruct (starts_with k (c :: x ++ d :: p ++ s)) eqn:E.
  - exfalso. clear IH. apply starts_inv in E as (q & E). change (c :: x ++ d :: p ++ s) with ((c :: x) ++ d :: p ++ s) in E.
    assert (forall (u v a b : str), u ++ v = a ++ b -> (exists r, u = a ++ r) \/ (exists r, a = u ++ r /\ v = r ++ b)) as Z.
    { induction u as [|e u IHu]; intros v a b Q; [right; now exists a|]. destruct a as [|f a]; [left; now exists (e :: u)|].
      injection Q as -> Q. destruct (IHu v a b Q) as [[r ->]|[r [-> ->]]]; [left; now exists r|right; now exists r]. }
    apply Z in E as [[r E]|[r [E F]]].
    + apply N. exists [], r. exact E.
    + destruct r as [|e r].
      * apply N. exists [], []. now rewrite !app_nil_r in *.
      * injection F as <- _. rewrite E in B. rewrite existsb_app in B. cbn in B. rewrite N.eqb_refl in B. cbn in B.
        now rewrite orb_true_r in B.
  - f_equal. apply IH. intros (a & b & ->). apply N. now exists (c :: a), b.
Qed.
Lemma over_end k y x : k <> [] -> ~ contains k x -> replace k y (x ++ []) = x ++ [].
Proof.
  unfold replace. intros K N. rewrite app_nil_r. induction x as [|c x IH]; [reflexivity|]. cbn [replace_from].
  destruct (starts_with k (c :: x)) eqn:E.
  - exfalso. apply starts_inv in E as (q & E). apply N. now exists [], q.
  - f_equal. apply IH. intros (a & b & ->). apply N. now exists (c :: a), b.
Qed.
Lemma replace_nil k y : replace k y [] = [].
Proof. reflexivity. Qed.

(** The text of a number consists of digits and the sign. *)
Definition digit (c : N) : bool := ((48 <=? c) && (c <=? 57))%N || (c =? 45)%N.
Lemma lit_app a b : lit (String.append a b) = lit a ++ lit b.
Proof. unfold lit. induction a as [|c a IH]; cbn; [reflexivity|]. now rewrite IH. Qed.
Lemma uint_digits u : forallb digit (lit (NilEmpty.string_of_uint u)) = true.
Proof. unfold lit. induction u; cbn; auto. Qed.
Lemma nilzero_digits u : forallb digit (lit (NilZero.string_of_uint u)) = true.
Proof. destruct u; [reflexivity|..]; apply uint_digits. Qed.
Lemma decimal_digits n : forallb digit (decimal n) = true.
Proof. unfold decimal. destruct (Z.to_int n) as [u|u]; [apply nilzero_digits|]. cbn. apply nilzero_digits. Qed.
Lemma decimal_free k n : existsb (fun c => negb (digit c)) k = true -> ~ contains k (decimal n).
Proof.
  intros K (p & q & E). pose proof (decimal_digits n) as D. rewrite E, !forallb_app in D. apply andb_prop in D as [_ D].
  apply andb_prop in D as [D _]. rewrite forallb_forall in D. apply existsb_exists in K as (c & I & K). rewrite (D c I) in K. discriminate.
Qed.

(** The templates in pieces. *)
Lemma cut_INVALID_VALUE : INVALID_VALUE = lit "Invalid " ++ lit "NAME" ++ lit "!" ++ [].
Proof. vm_compute. reflexivity. Qed.
Lemma cut_INVALID_LENGTH : INVALID_LENGTH = lit "len(" ++ lit "NAME" ++ lit ") != " ++ lit "LENGTH" ++ lit "." ++ [].
Proof. vm_compute. reflexivity. Qed.
Lemma cut_VALUE_MUST : VALUE_MUST = lit "The " ++ lit "NAME" ++ lit " value must " ++ lit "CONTEXT" ++ lit "." ++ [].
Proof. vm_compute. reflexivity. Qed.
Lemma cut_MUST_SET_VALUE : MUST_SET_VALUE = lit "Must set " ++ lit "NAME" ++ lit " for " ++ lit "CONTEXT" ++ lit "." ++ [].
Proof. vm_compute. reflexivity. Qed.
Lemma cut_VALUE_ALREADY_SET : VALUE_ALREADY_SET = lit "The " ++ lit "OBJECT" ++ lit " is already set to " ++ lit "CONTEXT" ++ lit "." ++ [].
Proof. vm_compute. reflexivity. Qed.
Lemma cut_VALUE_MUST_BE_TYPE : VALUE_MUST_BE_TYPE = lit "The " ++ lit "NAME" ++ lit " value must be a " ++ lit "TYPE" ++ lit " object." ++ [].
Proof. vm_compute. reflexivity. Qed.
Lemma cut_VALUE_MUST_BE_SUBTYPE : VALUE_MUST_BE_SUBTYPE = lit "The " ++ lit "NAME" ++ lit " value must match or subclass " ++ lit "TYPE" ++ lit "." ++ [].
Proof. vm_compute. reflexivity. Qed.
Lemma cut_EXCEEDED_BLOCKSIZE : EXCEEDED_BLOCKSIZE = lit "Data block MUST NOT exceed " ++ lit "BLOCKSIZE" ++ lit " bytes." ++ [].
Proof. vm_compute. reflexivity. Qed.
Lemma cut_CANT_REASSIGN_ATTRIBUTE : CANT_REASSIGN_ATTRIBUTE = lit "Can't re-assign the existing " ++ lit "NAME" ++ lit " attribute." ++ [].
Proof. vm_compute. reflexivity. Qed.
Lemma cut_CANT_DEASSIGN_ATTRIBUTE : CANT_DEASSIGN_ATTRIBUTE = lit "Can't de-assign the existing " ++ lit "NAME" ++ lit " attribute." ++ [].
Proof. vm_compute. reflexivity. Qed.
Lemma cut_UNUSED_PARAMETERS : UNUSED_PARAMETERS = lit "The " ++ lit "PARAMETERS" ++ lit " parameters are not used when " ++ lit "CONTEXT" ++ lit "." ++ [].
Proof. vm_compute. reflexivity. Qed.
Lemma cut_SLOTS_CONFLICTS_WITH_CLASS_VARIABLES : SLOTS_CONFLICTS_WITH_CLASS_VARIABLES = lit "'" ++ lit "CONFLICTS" ++ lit "' in __slots__ conflicts with class variable" ++ [].
Proof. vm_compute. reflexivity. Qed.
Lemma cut_INVALID_KEY_SIZE : INVALID_KEY_SIZE = lit "`key` was " ++ lit "KEY_SIZE" ++ lit " bytes, but must be at least " ++ lit "MIN_SIZE" ++ lit " bytes." ++ [].
Proof. vm_compute. reflexivity. Qed.
Lemma cut_MODE_ISNT_CORRECT : MODE_ISNT_CORRECT = lit "The KDF mode must be set to " ++ lit "MODE" ++ lit " to use " ++ lit "MODE" ++ lit " key derivation." ++ [].
Proof. vm_compute. reflexivity. Qed.
Lemma cut_BLOCK_ID_IS_TOO_SMALL : BLOCK_ID_IS_TOO_SMALL = lit "A block id of " ++ lit "SIZE" ++ lit " bytes is too small. It must be at least " ++ lit "MIN" ++ lit " bytes to securely authenticate a block." ++ [].
Proof. vm_compute. reflexivity. Qed.
Lemma cut_BLOCK_ID_IS_TOO_BIG : BLOCK_ID_IS_TOO_BIG = lit "A block id of " ++ lit "SIZE" ++ lit " bytes is too big. It can be at most " ++ lit "MAX" ++ lit " bytes." ++ [].
Proof. vm_compute. reflexivity. Qed.
Lemma cut_IMPROPER_PASSPHRASE : IMPROPER_PASSPHRASE = lit "The given passphrase is too short, at least " ++ lit "NEED" ++ lit " more characters need to be added. 
Try using aiootp.mnemonic, it can help in generating a strong passphrase.
 _____________________________________
|                                     |
|            Usage Example:           |
|_____________________________________|

my_new_passphrase = b'-'.join(aiootp.mnemonic())

print(my_new_passphrase)
b'review-letter-blast-giant-connect-ring-balcony-frown'" ++ [].
Proof. vm_compute. reflexivity. Qed.
Lemma cut_IMPROPER_SALT : IMPROPER_SALT = lit "len(salt) must be >= " ++ lit "MIN_SALT_SIZE" ++ lit " and <= " ++ lit "MAX_SALT_SIZE" ++ [].
Proof. vm_compute. reflexivity. Qed.
Lemma cut_INVALID_MB : INVALID_MB = lit "mb:" ++ lit "MB" ++ lit " must be int >= " ++ lit "MIN_MB" ++ lit " and <= " ++ lit "MAX_MB" ++ [].
Proof. vm_compute. reflexivity. Qed.
Lemma cut_INVALID_CPU : INVALID_CPU = lit "cpu:" ++ lit "CPU" ++ lit " must be int >= " ++ lit "MIN_CPU" ++ lit " and <= " ++ lit "MAX_CPU" ++ [].
Proof. vm_compute. reflexivity. Qed.
Lemma cut_INVALID_CORES : INVALID_CORES = lit "cores:" ++ lit "CORES" ++ lit " must be int >= " ++ lit "MIN_CORES" ++ lit " and <= " ++ lit "MAX_CORES" ++ [].
Proof. vm_compute. reflexivity. Qed.
Lemma cut_INVALID_TAG_SIZE : INVALID_TAG_SIZE = lit "tag_size:" ++ lit "SIZE" ++ lit " must be int >= " ++ lit "MIN_TAG_SIZE" ++ [].
Proof. vm_compute. reflexivity. Qed.
Lemma cut_INVALID_SALT_SIZE : INVALID_SALT_SIZE = lit "salt_size:" ++ lit "SIZE" ++ lit " must be int >= " ++ lit "MIN_SALT_SIZE" ++ lit " and <= " ++ lit "MAX_SALT_SIZE" ++ [].
Proof. vm_compute. reflexivity. Qed.
Lemma cut_UNTRUSTED_RESOURCE_CONSUMPTION : UNTRUSTED_RESOURCE_CONSUMPTION = lit "The " ++ lit "PARAMETER" ++ lit " parameter was blocked from being processed because it fell outside of the allowed range of resource consumption set by the verification method. To continue verifying the provided hash, explicit permission must be given in the form of a `builtins.range` object which includes the value " ++ lit "VALUE" ++ lit ".

 _____________________________________
|                                     |
|            Usage Example:           |
|_____________________________________|

from aiootp import Passcrypt

allowed_resource_consumption = dict(
    mb_allowed=range(16, 256),  # Less than 256 MiB allowed
    cpu_allowed=range(2, 8),    # Less than 8 complexity allowed
    cores_allowed=range(1, 5),  # Less than 5 processes allowed
)
try:
    Passcrypt.verify(hashed_pw, pw, **allowed_resource_consumption)
except ResourceWarning as danger:
    admin.log(danger)
    hard_limits_exceeded = (
        danger.requested_resources.mb > 512
        or danger.requested_resources.cpu > 11
        or danger.requested_resources.cores > 8
    )
    below_security_guidelines = (
        danger.requested_resources.mb < 16
        or danger.requested_resources.cpu < 2
    )
    if hard_limits_exceeded:
        raise danger
    elif below_security_guidelines:
        raise PermissionError('Minimum hash difficulty unmet.')
    Passcrypt.verify(hashed_pw, pw)
" ++ [].
Proof. vm_compute. reflexivity. Qed.
Lemma cut_FILE_NOT_FOUND : FILE_NOT_FOUND = lit "The " ++ lit "NAME" ++ lit " filename was not located." ++ [].
Proof. vm_compute. reflexivity. Qed.
Lemma cut_NO_EXISTING_METATAG : NO_EXISTING_METATAG = lit "No metatag database named " ++ lit "TAG" ++ lit "." ++ [].
Proof. vm_compute. reflexivity. Qed.
Lemma cut_TAG_FILE_DOESNT_EXIST : TAG_FILE_DOESNT_EXIST = lit "TAG" ++ lit " tag data isn't in the database." ++ [].
Proof. vm_compute. reflexivity. Qed.
Lemma cut_INVALID_FILE_DIGEST : INVALID_FILE_DIGEST = lit "The summary & the hash digest of the given file don't match: " ++ lit "FILENAME" ++ lit "." ++ [].
Proof. vm_compute. reflexivity. Qed.
Lemma cut_UNDEFINED : UNDEFINED = lit "The following required attributes remained undefined after object initialization: " ++ lit "UNDEFINED_ATTRIBUTES" ++ lit "." ++ [].
Proof. vm_compute. reflexivity. Qed.
Lemma cut_CIPHERTEXT_SIZE : CIPHERTEXT_SIZE = lit "The given ciphertext length of " ++ lit "SIZE" ++ lit " isn't a valid size." ++ [].
Proof. vm_compute. reflexivity. Qed.
Lemma cut_OVERSPECIFIED : OVERSPECIFIED = lit "Specifying the type of the " ++ lit "NAME" ++ lit " variable is redundant or unnecessary." ++ [].
Proof. vm_compute. reflexivity. Qed.
Lemma cut_UNCHECKABLE : UNCHECKABLE = lit "The " ++ lit "NAME" ++ lit " variable's type was declared using " ++ lit "VALUE_TYPE" ++ lit ", which isn't checkable at runtime. Perhaps use a `Protocol` decorated with `@typing.runtime_checkable` instead?" ++ [].
Proof. vm_compute. reflexivity. Qed.
Ltac free := first [assumption|apply decimal_free; vm_compute; reflexivity].
Ltac step := match goal with
  | |- context [replace (lit ?k) ?y (lit ?k ++ ?s)] => rewrite (hit (lit k) y s) by (vm_compute; discriminate)
  | |- context [replace (lit ?k) ?y (lit ?a ++ ?s)] => rewrite (pass (lit k) y (lit a) s) by (vm_compute; reflexivity)
  | |- context [replace (lit ?k) ?y (?x ++ lit ?a ++ ?s)] => rewrite (over (lit k) y x (lit a) s) by (first [free|vm_compute; reflexivity])
  | |- context [replace (lit ?k) ?y (?x ++ [])] => rewrite (over_end (lit k) y x) by (first [free|vm_compute; discriminate])
  | |- context [replace (lit ?k) ?y []] => rewrite (replace_nil (lit k) y)
  end.
Ltac fill := rewrite ?cut_INVALID_VALUE, ?cut_INVALID_LENGTH, ?cut_VALUE_MUST, ?cut_MUST_SET_VALUE, ?cut_VALUE_ALREADY_SET, ?cut_VALUE_MUST_BE_TYPE, ?cut_VALUE_MUST_BE_SUBTYPE, ?cut_EXCEEDED_BLOCKSIZE, ?cut_CANT_REASSIGN_ATTRIBUTE, ?cut_CANT_DEASSIGN_ATTRIBUTE, ?cut_UNUSED_PARAMETERS, ?cut_SLOTS_CONFLICTS_WITH_CLASS_VARIABLES, ?cut_INVALID_KEY_SIZE, ?cut_MODE_ISNT_CORRECT, ?cut_BLOCK_ID_IS_TOO_SMALL, ?cut_BLOCK_ID_IS_TOO_BIG, ?cut_IMPROPER_PASSPHRASE, ?cut_IMPROPER_SALT, ?cut_INVALID_MB, ?cut_INVALID_CPU, ?cut_INVALID_CORES, ?cut_INVALID_TAG_SIZE, ?cut_INVALID_SALT_SIZE, ?cut_UNTRUSTED_RESOURCE_CONSUMPTION, ?cut_FILE_NOT_FOUND, ?cut_NO_EXISTING_METATAG, ?cut_TAG_FILE_DOESNT_EXIST, ?cut_INVALID_FILE_DIGEST, ?cut_UNDEFINED, ?cut_CIPHERTEXT_SIZE, ?cut_OVERSPECIFIED, ?cut_UNCHECKABLE; repeat step; rewrite ?app_nil_r; reflexivity.
