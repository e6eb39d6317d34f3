(** * IgnoreProofs: facts behind the theorems about [Ignore]. *)

From Verif Require Import Base IgnoreModel IgnoreSpec.

Section Proofs.

Context {W E C : Type}.
Variable instance : E -> C -> bool.

Lemma is_ignored_takes : forall e (s : state W E C),
  is_ignored instance e s = true <-> takes instance (ignored_exceptions (self s)) e.
Proof.
  intros e s. unfold is_ignored, takes. now rewrite existsb_exists.
Qed.

Lemma is_ignored_not : forall e (s : state W E C),
  ~ takes instance (ignored_exceptions (self s)) e -> is_ignored instance e s = false.
Proof.
  intros e s H. destruct (is_ignored instance e s) eqn:I; [|reflexivity].
  now apply is_ignored_takes in I.
Qed.

Lemma is_ignored_set : forall e e' (s : state W E C),
  is_ignored instance e (set_error e' s) = is_ignored instance e s.
Proof. reflexivity. Qed.

End Proofs.
