(** * Mnemonics and phrases: vocabulary of the specification *)
From Verif Require Import Base WordLists MnemonicModel.
Local Open Scope N_scope.

(** A word of lowercase ASCII letters. *)
Definition lowercase_word (w : bytes) : Prop := w <> [] /\ Forall (fun b => 97 <= bval b <= 122) w.

(** The [i]-th block of 16 bytes. *)
Definition block16 (i : nat) (stream : bytes) : bytes := firstn 16 (skipn (16 * i) stream).

(** ASCII whitespace: tab, line feed, vertical tab, form feed, carriage return and
    space. *)
Definition blank (b : byte) : Prop := bval b = 32 \/ 9 <= bval b <= 13.
(** [p] is [q] with blanks around it. *)
Definition surrounded (p q : bytes) : Prop :=
  exists before after, Forall blank before /\ Forall blank after /\ p = before ++ q ++ after.

(** Words separated by single spaces. *)
Inductive sentence : list bytes -> bytes -> Prop :=
| sentence_one w : sentence [w] w
| sentence_more w ws s : sentence ws s -> sentence (w :: ws) (w ++ x20 :: s).

(** The words to choose from: the given ones, or those of the package if none are
    given.  The settings for passphrases: the given ones or the defaults. *)
Definition used_words (words : option (list bytes)) : list bytes :=
  match words with
  | Some (w :: ws) => w :: ws
  | None | Some [] => WORD_LIST
  end.
Definition used_settings (defaults : settings) (s : option settings) : settings :=
  match s with
  | Some s => s
  | None => defaults
  end.
