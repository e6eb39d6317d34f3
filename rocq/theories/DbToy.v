(** * A storage that meets [storage_laws]

    Not a model of any code: an instance, so that the theorems about databases
    are shown to have cases.  Its cipher only marks the data. *)
From Coq Require Import Lia Permutation.
From Verif Require Import Base BaseFacts DbModel DbSpec.
Local Open Scope nat_scope.

Definition enc (b : bytes) : bytes := flat_map (fun c => [x01; c]) b ++ [x00].
Fixpoint dec (x : bytes) : option (bytes * bytes) :=
  match x with
  | x00 :: r => Some ([], r)
  | x01 :: c :: r => match dec r with Some (b, r') => Some (c :: b, r') | None => None end
  | _ => None
  end.
Lemma dec_enc b r : dec (enc b ++ r) = Some (b, r).
Proof. induction b as [|c b IH]; [reflexivity|]. unfold enc in *. cbn. rewrite IH. reflexivity. Qed.

Definition enc_list (l : list bytes) : bytes := flat_map (fun b => x01 :: enc b) l ++ [x00].
Fixpoint dec_list (fuel : nat) (x : bytes) : option (list bytes * bytes) :=
  match fuel with
  | O => None
  | S fuel =>
    match x with
    | x00 :: r => Some ([], r)
    | x01 :: r =>
      match dec r with
      | Some (b, r') => match dec_list fuel r' with Some (l, r'') => Some (b :: l, r'') | None => None end
      | None => None
      end
    | _ => None
    end
  end.
Lemma dec_enc_list l r fuel : length l < fuel -> dec_list fuel (enc_list l ++ r) = Some (l, r).
Proof.
  revert fuel. induction l as [|b l IH]; intros [|fuel] L; cbn in L; try lia; [reflexivity|].
  unfold enc_list in *. cbn [flat_map]. rewrite <- !app_comm_cons. cbn [dec_list]. rewrite <- !app_assoc, dec_enc, app_assoc, IH by lia. reflexivity.
Qed.
Lemma enc_list_length l : length l < length (enc_list l).
Proof.
  unfold enc_list. rewrite app_length. cbn. enough (length l <= length (flat_map (fun b => x01 :: enc b) l)) by lia.
  induction l as [|b l IH]; [apply le_n|]. cbn [flat_map]. rewrite app_length. cbn. lia.
Qed.

Fixpoint unpairs (l : list bytes) : option (dict bytes) :=
  match l with
  | [] => Some []
  | a :: b :: l => match unpairs l with Some d => Some ((a, b) :: d) | None => None end
  | _ => None
  end.
Definition pairs (d : dict bytes) : list bytes := flat_map (fun p => [fst p; snd p]) d.
Lemma unpairs_pairs d : unpairs (pairs d) = Some d.
Proof. induction d as [|[a b] d IH]; [reflexivity|]. unfold pairs in *. cbn. now rewrite IH. Qed.

Definition toy_manifest_text (m : manifest) : bytes := enc (m_salt m) ++ enc_list (m_metatags m) ++ enc_list (pairs (m_tags m)).
Definition toy_manifest_of_text (x : bytes) : result manifest :=
  match dec x with
  | Some (s, r) =>
    match dec_list (length r) r with
    | Some (l, r') =>
      match dec_list (length r') r' with
      | Some (p, []) => match unpairs p with Some d => Ok {| m_salt := s; m_metatags := l; m_tags := d |} | None => Err ValueErr end
      | _ => Err ValueErr
      end
    | None => Err ValueErr
    end
  | None => Err ValueErr
  end.
Lemma toy_manifest m : toy_manifest_of_text (toy_manifest_text m) = Ok m.
Proof.
  destruct m as [s l d]. unfold toy_manifest_of_text, toy_manifest_text. cbn [m_salt m_metatags m_tags]. rewrite dec_enc.
  rewrite dec_enc_list by (rewrite app_length; pose proof (enc_list_length l); lia).
  rewrite <- (app_nil_r (enc_list (pairs d))) at 2. rewrite dec_enc_list by apply enc_list_length. now rewrite unpairs_pairs.
Qed.

Definition toy_dumps (j : bytes) : result bytes := Ok (x22 :: j).
Definition toy_loads (x : bytes) : result bytes := match x with x22 :: j => Ok j | _ => Err ValueErr end.
Definition toy_root (k : bytes) : bytes := x00 :: k.
Definition toy_name (k s t : bytes) : bytes := x01 :: enc s ++ enc k ++ t.
Definition toy_encrypt (i : nat) (k s n x : bytes) : bytes := x02 :: x.
Definition toy_decrypt (k s n c : bytes) : result bytes := match c with x02 :: x => Ok x | _ => Err InvalidSHMAC end.
Definition toy_encrypt_manifest (i : nat) (k x : bytes) : bytes := x03 :: x.
Definition toy_decrypt_manifest (k c : bytes) : result bytes := match c with x03 :: x => Ok x | _ => Err InvalidSHMAC end.
Definition toy_salt (i : nat) : bytes := repeat x61 i.
Definition toy_order (l : list bytes) : list bytes := rev l.

Lemma toy_laws kk U : storage_laws toy_dumps toy_loads toy_name toy_encrypt toy_decrypt toy_encrypt_manifest toy_decrypt_manifest
  toy_salt toy_manifest_text toy_manifest_of_text kk U.
Proof.
  split.
  - reflexivity.
  - discriminate.
  - reflexivity.
  - intros m _ _ _ _ _. apply toy_manifest.
  - intros j x E. injection E as <-. destruct j; discriminate.
  - intros j x j' E L. injection E as <-. injection L as <-. eexists. split; reflexivity.
Qed.
Lemma toy_orders l : NoDup l -> Permutation (toy_order l) l.
Proof. intros _. apply Permutation_sym, Permutation_rev. Qed.
Lemma toy_names_inj k s t k' s' t' : toy_name k s t = toy_name k' s' t' -> k = k' /\ s = s' /\ t = t'.
Proof.
  unfold toy_name. intros E. injection E as E. assert (dec (enc s ++ enc k ++ t) = dec (enc s' ++ enc k' ++ t')) as D by now rewrite E.
  rewrite !dec_enc in D. injection D as -> D. assert (dec (enc k ++ t) = dec (enc k' ++ t')) as D2 by now rewrite D.
  rewrite !dec_enc in D2. injection D2 as -> ->. auto.
Qed.
Lemma toy_distinct k s U : distinct_names toy_root toy_name k s U.
Proof.
  split.
  - intros t u _ _ E. now apply toy_names_inj in E.
  - intros t _. split; [discriminate|]. split; discriminate.
Qed.
