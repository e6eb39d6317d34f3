(** * Reading JSON: vocabulary of the specification *)
From Coq Require Import Strings.String.
From Verif Require Import Base StrModel JsonModel JsonSpec.
Import ListNotations.
Local Open Scope list_scope.
Local Open Scope N_scope.

(** The JSON grammar of a number with a fraction or an exponent. *)
Definition some_digits (d : str) : Prop := d <> [] /\ Forall (fun c => 48 <= c <= 57) d.
Definition natural (d : str) : Prop := d = [48] \/ exists c r, d = c :: r /\ 49 <= c <= 57 /\ Forall (fun c => 48 <= c <= 57) r.
Definition decimals (f : str) : Prop := f = [] \/ exists d, f = 46 :: d /\ some_digits d.
Definition power (e : str) : Prop :=
  e = [] \/ exists m sg d, e = m :: sg ++ d /\ (m = 101 \/ m = 69) /\ (sg = [] \/ sg = [43] \/ sg = [45]) /\ some_digits d.
Definition float_form (r : str) : Prop :=
  exists sg ip fp ep, r = sg ++ ip ++ fp ++ ep /\ (sg = [] \/ sg = [45]) /\ natural ip /\ decimals fp /\ power ep /\ (fp <> [] \/ ep <> []).
Definition float_value (r : str) : Prop :=
  float_form r \/ r = lit "NaN" \/ r = lit "Infinity" \/ r = lit "-Infinity".

(** Values a Python program can hold that JSON can carry without loss: dicts have
    no key twice, strings have no surrogate pairs. *)
Fixpoint normal (v : json) : Prop :=
  match v with
  | JNull | JBool _ | JInt _ => True
  | JFloat r => float_value r
  | JStr s => clean_str s
  | JArr l => (fix all l := match l with [] => True | v :: l => normal v /\ all l end) l
  | JObj l => NoDup (map fst l) /\
      (fix all l := match l with [] => True | (k, v) :: l => clean_str k /\ normal v /\ all l end) l
  end.
