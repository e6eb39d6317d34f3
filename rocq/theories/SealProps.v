(** * Databases: what reaches the files (C79) *)
From Coq Require Import Lia.
From Verif Require Import Base BaseFacts DbModel DbSpec DbProofs DbToy SealSpec SealProofs DbProps.
Local Open Scope nat_scope.

Section Props.
Variable json : Type.
Variable dumps : json -> result bytes.
Variable loads : bytes -> result json.
Variable key : Type.
Variable root_filename : key -> bytes.
Variable filename_of : key -> bytes -> bytes -> bytes.
Variable encrypt : nat -> key -> bytes -> bytes -> bytes -> bytes.
Variable decrypt : key -> bytes -> bytes -> bytes -> result bytes.
Variable encrypt_manifest : nat -> key -> bytes -> bytes.
Variable decrypt_manifest : key -> bytes -> result bytes.
Variable new_salt : nat -> bytes.
Variable manifest_text : manifest -> bytes.
Variable manifest_of_text : bytes -> result manifest.
Variable set_order : list bytes -> list bytes.
Notation open_db := (open_db json loads key root_filename filename_of decrypt decrypt_manifest new_salt manifest_of_text set_order).
Notation session := (session json dumps loads key root_filename filename_of encrypt decrypt encrypt_manifest manifest_text set_order).
Notation sealed := (sealed key root_filename filename_of encrypt encrypt_manifest).
Notation ciphertext := (ciphertext key root_filename filename_of encrypt encrypt_manifest).
Notation own_name := (own_name key root_filename filename_of).
Notation salt := (salt json key).

(** C79: opening a database writes nothing, and whatever is done with it afterwards,
    the files change by operations on its own files in which every write is a
    ciphertext made with its own random values.  No laws about the cipher or the
    serialisation are needed and any files may be there before. *)
Theorem C79_only_ciphertexts : forall kk silent preload w d w1 os rs d' w2,
  open_db kk silent preload w = (Ok d, w1) -> session os d w1 = (rs, d', w2) ->
  exists l, log w2 = log w ++ l /\ disk w2 = replay l (disk w) /\ sealed kk (salt d) (clock w) l (clock w2).
Proof.
  intros kk silent preload w d w1 os rs d' w2 E F.
  destruct (open_moves _ _ _ _ _ _ _ _ _ _ _ _ _ _ _ _ E) as (L & D & C & R).
  destruct (R d eq_refl) as [K T].
  destruct (session_moves json dumps loads key root_filename filename_of encrypt decrypt encrypt_manifest
    manifest_text manifest_of_text set_order os d w1 rs d' w2 T F) as (_ & _ & _ & l & L2 & D2 & X).
  exists l. split; [congruence|]. split; [congruence|]. rewrite K in X.
  eapply sealed_weaken; [exact C|exact X].
Qed.

(** C79: of two writes the later one has later random values. *)
Theorem C79_fresh_random_values : forall kk s lo hi l1 n1 x1 l2 n2 x2 l3,
  sealed kk s lo (l1 ++ Write n1 x1 :: l2 ++ Write n2 x2 :: l3) hi ->
  exists c1 c2, lo <= c1 /\ c1 < c2 /\ c2 < hi /\ ciphertext kk s c1 n1 x1 /\ ciphertext kk s c2 n2 x2.
Proof.
  intros kk s lo hi l1 n1 x1 l2 n2 x2 l3.
  assert (Z : forall l lo n x r hi, sealed kk s lo (l ++ Write n x :: r) hi ->
    exists c, lo <= c /\ ciphertext kk s c n x /\ sealed kk s (S c) r hi).
  { clear. induction l as [|o l IH]; intros lo n x r hi H; cbn [app] in H; inversion H; subst.
    - eauto.
    - destruct (IH _ _ _ _ _ ltac:(eassumption)) as (c' & L & X & Y). exists c'. split; [lia|]. auto.
    - destruct (IH _ _ _ _ _ ltac:(eassumption)) as (c' & L & X & Y). exists c'. auto. }
  intros H. destruct (Z _ _ _ _ _ _ H) as (c1 & L1 & X1 & H1). destruct (Z _ _ _ _ _ _ H1) as (c2 & L2 & X2 & H2).
  exists c1, c2. pose proof (sealed_le _ _ _ _ _ _ _ _ _ _ H2). repeat split; auto; lia.
Qed.

(** C79: every other file in the directory is left as it was. *)
Theorem C79_other_files_untouched : forall kk silent preload w d w1 os rs d' w2 n,
  open_db kk silent preload w = (Ok d, w1) -> session os d w1 = (rs, d', w2) ->
  ~ own_name kk (salt d) n -> disk w2 n = disk w n.
Proof.
  intros kk silent preload w d w1 os rs d' w2 n E F N.
  destruct (C79_only_ciphertexts _ _ _ _ _ _ _ _ _ _ E F) as (l & _ & -> & X). generalize (disk w).
  induction X as [|lo c m data l hi L Y X IH|lo m l hi Y X IH]; intros f; [reflexivity| |]; cbn [replay fold_left] in *;
    unfold replay in IH; rewrite IH; cbn [apply_op].
  - destruct (bytes_eqb n m) eqn:Q; [|reflexivity]. apply bytes_eqb_eq in Q. subst m. destruct N.
    destruct Y as [(t & _ & -> & _)|[-> _]]; [right; now exists t|now left].
  - destruct (bytes_eqb n m) eqn:Q; [|reflexivity]. apply bytes_eqb_eq in Q. subst m. destruct (N Y).
Qed.
End Props.
Print Assumptions C79_only_ciphertexts.
Print Assumptions C79_fresh_random_values.
Print Assumptions C79_other_files_untouched.

(** A case: saving twice writes the manifest twice, with different random values. *)
Example C79_case : toy_open [x6b] true false world0 = (Ok toy_d0, tick world0) /\
  map (fun o => match o with Write n _ => n | Unlink n => n end)
    (log (snd (toy_session (some_ops ++ [SaveDatabase _]) toy_d0 (tick world0)))) <> [] /\
  ~ own_name bytes toy_root toy_name [x6b] (salt _ _ toy_d0) [].
Proof.
  split; [exact toy_opened|]. split; [vm_compute; discriminate|].
  intros [E|[t E]]; discriminate E.
Qed.
