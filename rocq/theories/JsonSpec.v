(** * JSON values: vocabulary of the specification *)
From Coq Require Import Strings.String.
From Verif Require Import Base StrModel JsonModel.
Local Open Scope N_scope.

(** Strings in which no surrogate code point follows another to make a pair.  All
    strings that encode to UTF-8, all file names of the operating system and all
    strings that [json.loads] returns are like this. *)
Definition high (c : N) : Prop := 55296 <= c <= 56319.
Definition low (c : N) : Prop := 56320 <= c <= 57343.
Fixpoint unpaired (s : str) : Prop :=
  match s with
  | c :: (d :: _) as s' => ~ (high c /\ low d) /\ unpaired s'
  | _ => True
  end.
Definition clean_str (s : str) : Prop := Forall (fun c => c < 1114112) s /\ unpaired s.

(** The texts of floats: [NaN], the infinities, and digits with a point or an
    exponent. *)
Definition float_text (r : str) : Prop :=
  r = lit "NaN" \/ r = lit "Infinity" \/ r = lit "-Infinity" \/
  (Forall (fun c => 48 <= c <= 57 \/ c = 43 \/ c = 45 \/ c = 46 \/ c = 101) r /\ (In 46 r \/ In 101 r)).

Fixpoint clean (v : json) : Prop :=
  match v with
  | JNull | JBool _ | JInt _ => True
  | JFloat r => float_text r
  | JStr s => clean_str s
  | JArr l => (fix all l := match l with [] => True | v :: l => clean v /\ all l end) l
  | JObj l => (fix all l := match l with [] => True | (k, v) :: l => clean_str k /\ clean v /\ all l end) l
  end.
