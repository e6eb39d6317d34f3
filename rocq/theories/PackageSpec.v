(** * Package signatures: vocabulary of the specification *)
From Coq Require Import Strings.String.
From Verif Require Import Base StrModel JsonModel JsonSpec CurveModel CurveSpec PackageModel.
Local Open Scope N_scope.
Open Scope list_scope.

Section Spec.
Variable C : curve.
Variable sha384 : bytes -> bytes.
Variable make_token : bytes -> bytes -> str -> str.
Variable read_token : str -> str -> result bytes.
Notation run := (run_sops C sha384 make_token read_token).
Notation do := (do_sop C sha384 make_token read_token).

(** The tokens of the database can be read back, and the secret keys of the curve
    survive the round trip through bytes. *)
Definition tokens_read : Prop := forall r k p, read_token (make_token r k p) p = Ok k /\ make_token r k p <> [].
Definition secrets_import : Prop := forall s, from_private C (raw_secret C s) = Ok s.

(** [p] signs the summary [S] in the history [ops]: one of the calls of
    [sign_package] returned while the summary of the package was [S] and its signing
    key had the public key [p]. *)
Definition signed (ops : list (sop C)) (p : public C) (S : list (str * json)) : Prop :=
  exists before after k, ops = before ++ SignPackage C :: after /\ snd (do (run before) (SignPackage C)) = Ok tt /\
    summary C read_token (run before) = Ok S /\ signing_key C read_token (run before) = Ok k /\ k_public k = Some p.

(** A summary without its checksum and its signature: what is signed. *)
Definition body (S : list (str * json)) : list (str * json) :=
  filter (fun kv => negb (str_eqb (fst kv) (lit "checksum")) && negb (str_eqb (fst kv) (lit "signature"))) S.
Definition field (S : list (str * json)) (name : string) (v : json) : Prop := dict_get str_eqb S (lit name) = Some v.
(** The bytes in a field given in hexadecimal. *)
Definition hex_field (S : list (str * json)) (name : string) (b : bytes) : Prop := exists s, field S name (JStr s) /\ fromhex s = Ok b.

(** The user gives only clean strings and values. *)
Definition clean_items (l : list (str * json)) : Prop := Forall (fun kv => clean_str (fst kv) /\ clean (snd kv)) l.
Definition clean_op (p : sop C) : Prop :=
  match p with
  | NewSigner _ package version _ scopes => clean_str package /\ clean_str version /\ clean_items scopes
  | UpdateScope _ l | UpdateCredentials _ l => clean_items l
  | AddFile _ name _ => clean_str name
  | _ => True
  end.
End Spec.

(** ** Hexadecimal texts *)

(** The character is a hexadecimal digit, small or capital, of this value. *)
Definition digit (c n : N) : Prop :=
  nth_error (lit "0123456789abcdef") (N.to_nat n) = Some c \/
  nth_error (lit "0123456789ABCDEF") (N.to_nat n) = Some c.
(** ASCII's space, tab, line feed, vertical tab, form feed and carriage return. *)
Definition blank (c : N) : Prop := In c [32; 9; 10; 11; 12; 13].
(** The text gives the bytes: two digits for each, the high one first, with any blanks between the bytes. *)
Inductive spells : str -> bytes -> Prop :=
| spells_nil : spells [] []
| spells_blank c s b : blank c -> spells s b -> spells (c :: s) b
| spells_byte c d s x b high low : digit c high -> digit d low -> bval x = 16 * high + low ->
    spells s b -> spells (c :: d :: s) (x :: b).
