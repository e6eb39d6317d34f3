(** * C88: saving a whole asynchronous database that is in use *)
From Coq Require Import Lia.
From Verif Require Import Base BaseFacts TasksModel TasksSpec SaveModel SaveSpec SaveProofs.

(** While one task saves the database, others set tags and query them, however the steps
    are mixed.  When the save has ended it has ended well; a process that opens the
    database then finds every tag that was listed when the save began in the manifest, and
    for every tag that had a value in the cache when the save began it reads a value which
    that tag had in the cache at a moment of the save.  The manifest lists no tag that was not
    listed at a moment since.  The files of tags that are not in
    the cache are as they were. *)
Theorem C88_save_while_setting_partial (V : Type) (seal : V -> bytes) (unseal : bytes -> option V)
    (mseal : list nat -> bytes) (munseal : bytes -> option (list nat)) (names : list nat)
    (os : list (nat * op V)) (w : nat -> slot V) (r : option bytes) (es : list sevent) (fine : bool) :
  (forall v, unseal (seal v) = Some v /\ seal v <> []) ->
  (forall l, munseal (mseal l) = Some l) ->
  NoDup names -> (forall g o, In (g, o) os -> In g names /\ harmless o) ->
  (forall g, cached (w g) <> None \/ listed (w g) = true -> In g names) ->
  let y es := saving_run seal unseal mseal names es (opening os 1 w r) in
  savers (y es) = [SDone fine] ->
  fine = true /\
  forall before rest, es = before ++ rest -> ~ In (Saver 0) before ->
  (forall g, listed (slots (y before) g) = true -> elsewhere_listed munseal (y es) g = Some true) /\
  (forall g, elsewhere_listed munseal (y es) g = Some true -> exists a b, es = before ++ a ++ b /\ listed (slots (y (before ++ a)) g) = true) /\
  (forall g, cached (slots (y before) g) <> None ->
     exists v, elsewhere seal unseal (y es) g = Done (Found v) /\
       exists a b, es = a ++ b /\ In (Saver 0) a /\ cached (slots (y a) g) = Some v) /\
  (forall g, cached (slots (y es) g) = None -> file (slots (y es) g) = file (slots (y before) g)).
Proof.
  intros US MU ND HO HW y HF.
  assert (K : forall before rest, es = before ++ rest -> ~ In (Saver 0) before ->
    inv seal unseal mseal names (y before) rest (y es)).
  { intros before rest -> NI. destruct (before_the_save seal unseal mseal names os w r before ND HO HW NI) as [A [B [C D]]].
    unfold y. rewrite saving_run_app. apply inv_run; assumption. }
  split.
  - destruct (K [] es eq_refl (fun H => H)) as [[x [Sx [_ X]]] _]. rewrite HF in Sx. injection Sx as <-. destruct fine; [reflexivity | now destruct X].
  - intros before rest E NI. destruct (K before rest E NI) as [[x [Sx [_ X]]] [_ [_ [_ [_ [_ [Hs Hf]]]]]]].
    rewrite HF in Sx. injection Sx as <-. destruct fine; [| now destruct X]. destruct X as [[l [Cl Rl]] [Ct Dn]].
    split; [| split; [| split]].
    + intros g L. unfold elsewhere_listed. rewrite Rl, MU. cbn [option_map]. f_equal. apply existsb_exists. exists g.
      split; [now apply Cl | apply Nat.eqb_refl].
    + intros g L. unfold elsewhere_listed in L. rewrite Rl, MU in L. cbn [option_map] in L. injection L as L. apply existsb_exists in L.
      destruct L as [h [I Eh]]. apply Nat.eqb_eq in Eh. subst h. destruct Cl as [_ Cl]. destruct (Cl g I) as [a [b [Eab La]]].
      exists a, b. split; [rewrite E, Eab; reflexivity |]. unfold y. rewrite saving_run_app. exact La.
    + intros g C. apply Ct in C. apply in_map_iff in C. destruct C as [[j [h t]] [Eh I]]. cbn in Eh. subst h.
      pose proof (Dn eq_refl j g t I) as ->. apply In_nth_error in I. destruct I as [k I].
      destruct (Hs k j g _ I) as [_ [_ [_ [v [n [[a [b [Eab [Ia Ca]]]] F]]]]]]. exists v. split.
      * unfold elsewhere. rewrite F. unfold alone. cbn. destruct (US v) as [U N]. destruct (seal v) as [| c0 cs] eqn:Ec; [congruence |].
        cbn. rewrite U. reflexivity.
      * exists (before ++ a), b. split; [rewrite E, Eab, app_assoc; reflexivity |]. split; [apply in_or_app; now right |].
        unfold y. rewrite saving_run_app. exact Ca.
    + intros g C. apply Hf. intros I. apply in_map_iff in I. destruct I as [[j [h t]] [Eh I]]. cbn in Eh. subst h.
      apply In_nth_error in I. destruct I as [k I]. destruct (Hs k j g _ I) as [_ [_ [Z _]]]. contradiction.
Qed.
Print Assumptions C88_save_while_setting_partial.

(** A save that has begun, or has not, can always be brought to its end, whatever the other
    tasks do and have done. *)
Theorem C88_can_end (V : Type) (seal : V -> bytes) (unseal : bytes -> option V) (mseal : list nat -> bytes)
    (names : list nat) (os : list (nat * op V)) (w : nat -> slot V) (r : option bytes) (n j : nat) (es : list sevent) :
  (j < n)%nat ->
  exists es' fine, nth_error (savers (saving_run seal unseal mseal names (es ++ es') (opening os n w r))) j = Some (SDone fine).
Proof.
  intros L.
  assert (Ln : length (savers (saving_run seal unseal mseal names es (opening os n w r))) = n).
  { induction es as [| e es IH] using rev_ind; [cbn; apply repeat_length |].
    rewrite saving_run_snoc. set (y := saving_run _ _ _ _ es _) in *. destruct e as [i | i | k]; cbn [advance].
    - destruct (nth_error (ops y) i) as [[g t] |]; [| exact IH]. destruct (step _ _ _ _). exact IH.
    - destruct (nth_error (savers y) i) as [x |] eqn:E; [| exact IH].
      destruct x; cbn [saver_step savers]; try (rewrite (replace_len _ _ _ _ E)); exact IH.
    - destruct (nth_error (subs y) k) as [[i [g t]] |]; [| exact IH]. destruct (step _ _ _ _). exact IH. }
  destruct (saver_ends seal unseal mseal names (saving_run seal unseal mseal names es (opening os n w r)) j) as [es' [fine F]]; [lia |].
  exists es', fine. rewrite saving_run_app. exact F.
Qed.
Print Assumptions C88_can_end.

Definition kept {V} (v : V) : slot V := {| cached := Some v; listed := true; file := None; born := 0 |}.
Definition unused {V} : slot V := {| cached := None; listed := false; file := None; born := 0 |}.

(** One step of a run that has been written out. *)
Lemma run_cons {V} (seal : V -> bytes) unseal mseal names e es y :
  saving_run seal unseal mseal names (e :: es) y = saving_run seal unseal mseal names es (advance seal unseal mseal names y e).
Proof. reflexivity. Qed.
Ltac go Y :=
  match type of Y with
  | saving_run ?a ?b ?c ?d (?e :: ?es) ?y = _ =>
    rewrite (run_cons a b c d e es y) in Y;
    let z := eval cbn in (advance a b c d y e) in
    let H := fresh in assert (H : advance a b c d y e = z) by reflexivity; rewrite H in Y; clear H;
    rewrite ?skipn_nil, ?app_nil_r in Y
  end.
Ltac follow y :=
  let Y := fresh "Y" in
  assert (Y : y = y) by reflexivity; unfold y at 1 in Y; unfold opening in Y; cbn [map fst snd repeat] in Y;
  repeat (go Y); cbn [saving_run fold_left] in Y; clearbody y; subst y.

(** A task that pops a tag while the database is saved makes the save raise AttributeError,
    before the other tags are saved: a process that opens the database then finds them in
    the manifest but not on disk. *)
Theorem C88_pop_stops_the_save_refuted (V : Type) (seal : V -> bytes) (unseal : bytes -> option V)
    (mseal : list nat -> bytes) (munseal : bytes -> option (list nat)) (v0 v1 : V) :
  (forall l, munseal (mseal l) = Some l) ->
  exists es, let y := saving_run seal unseal mseal [0; 1]%nat es (opening [(0%nat, Pop false)] 1
      (fun g => match g with 0%nat => kept v0 | 1%nat => kept v1 | _ => unused end) None) in
    savers y = [SDone false] /\ map snd (ops y) = [Done (Found v0)] /\
    cached (slots y 1%nat) = Some v1 /\
    elsewhere_listed munseal y 1 = Some true /\ elsewhere seal unseal y 1 = Done Missing.
Proof.
  intros M. exists [Saver 0; Saver 0; Saver 0; Saver 0; Saver 0; Op 0; Op 0; Op 0; Sub 0; Saver 0]%nat.
  intros y. follow y. unfold elsewhere_listed, elsewhere. cbn [root]. rewrite M. repeat split; reflexivity.
Qed.
Print Assumptions C88_pop_stops_the_save_refuted.

(** A tag that is popped while the database is saved can come back: the pop gives the value
    and both calls end well, yet a process that opens the database then finds the tag. *)
Theorem C88_popped_tag_comes_back_refuted (V : Type) (seal : V -> bytes) (unseal : bytes -> option V)
    (mseal : list nat -> bytes) (munseal : bytes -> option (list nat)) (v0 : V) :
  (forall v, unseal (seal v) = Some v /\ seal v <> []) -> (forall l, munseal (mseal l) = Some l) ->
  exists es, let y := saving_run seal unseal mseal [0]%nat es (opening [(0%nat, Pop false)] 1
      (fun g => match g with 0%nat => kept v0 | _ => unused end) None) in
    savers y = [SDone true] /\ map snd (ops y) = [Done (Found v0)] /\
    listed (slots y 0%nat) = false /\
    elsewhere_listed munseal y 0 = Some true /\ elsewhere seal unseal y 0 = Done (Found v0).
Proof.
  intros US M. exists [Saver 0; Saver 0; Saver 0; Saver 0; Saver 0; Sub 0; Op 0; Op 0; Op 0; Sub 0; Sub 0; Sub 0; Saver 0]%nat.
  destruct (US v0) as [U N]. intros y. follow y. unfold elsewhere_listed, elsewhere. cbn [root]. rewrite M.
  split; [reflexivity |]. split; [reflexivity |]. split; [reflexivity |]. split; [reflexivity |].
  cbn. destruct (seal v0) as [| b c] eqn:E; [congruence |]. cbn. rewrite U. reflexivity.
Qed.
Print Assumptions C88_popped_tag_comes_back_refuted.

(** Two tasks that save the database at the same time, and one that sets a tag between the
    moments at which they look at the manifest: both saves end well, and the file of the
    manifest begins with the old one and ends with the new one.  If they are of the same
    length, the tag is not listed although it was set before the second save began. *)
Theorem C88_two_saves_refuted (V : Type) (seal : V -> bytes) (unseal : bytes -> option V)
    (mseal : list nat -> bytes) (v0 v1 : V) :
  exists before rest, let y es := saving_run seal unseal mseal [0; 1]%nat es (opening [(1%nat, Set_ v1 true)] 2
      (fun g => match g with 0%nat => kept v0 | _ => unused end) None) in
    ~ In (Saver 1) before /\ map snd (ops (y before)) = [Done Fine] /\
    savers (y (before ++ rest)) = [SDone true; SDone true] /\
    root (y (before ++ rest)) = Some (mseal [0]%nat ++ skipn (length (mseal [0]%nat)) (mseal [0; 1]%nat)).
Proof.
  exists [Saver 0; Saver 0; Op 0]%nat.
  exists [Saver 1; Saver 1; Saver 0; Saver 1; Saver 1; Saver 0; Saver 0; Saver 1;
          Sub 0; Sub 0; Sub 0; Sub 0; Sub 1; Sub 1; Sub 1; Sub 1; Sub 2; Sub 2; Sub 2; Sub 2; Sub 3; Sub 3; Sub 3; Sub 3; Saver 0; Saver 1]%nat.
  intros y. split; [| split; [reflexivity |]].
  - cbn [In]. intros [H | [H | [H | []]]]; discriminate H.
  - cbn [app]. match goal with |- context [y ?l] => set (z := y l) end. unfold y in z. follow z. split; reflexivity.
Qed.
Print Assumptions C88_two_saves_refuted.

(** A concrete case: three tags, of which one is set again and one is new, while a task saves. *)
Definition nat_bytes (l : list nat) : bytes := flat_map (fun n => repeat x01 n ++ [x00]) l.
Fixpoint bytes_nat (n : nat) (c : bytes) : option (list nat) :=
  match c with
  | [] => match n with O => Some [] | _ => None end
  | x00 :: c => option_map (cons n) (bytes_nat 0 c)
  | _ :: c => bytes_nat (S n) c
  end.
Lemma bytes_nat_back l : bytes_nat 0 (nat_bytes l) = Some l.
Proof.
  induction l as [| n l IH]; [reflexivity |]. cbn [nat_bytes flat_map]. fold (nat_bytes l).
  assert (K : forall m k c, bytes_nat k ((repeat x01 m ++ [x00]) ++ c) = option_map (cons (m + k)%nat) (bytes_nat 0 c)).
  { induction m as [| m IHm]; intros k c; [reflexivity |]. cbn [repeat app bytes_nat]. rewrite IHm. replace (S m + k)%nat with (m + S k)%nat by lia. reflexivity. }
  rewrite K, IH, Nat.add_0_r. reflexivity.
Qed.
Definition a_schedule : list sevent :=
  [Op 2; Saver 0; Op 1; Saver 0; Saver 0; Saver 0; Saver 0; Sub 1; Op 0; Sub 0; Sub 1; Op 2; Sub 0; Sub 0; Sub 0; Sub 1; Sub 1; Op 2; Saver 0]%nat.
Definition a_start (y : byte) : dbase byte :=
  opening [(0, Set_ x07 true); (2, Set_ x08 true); (1, Query false true)]%nat 1
    (fun g => match g with 0%nat => kept y | 1%nat => {| cached := None; listed := true; file := Some (0%nat, [x05]); born := 1 |} | _ => unused end) None.
Definition one_byte (b : byte) : bytes := [b].
Definition the_byte (c : bytes) : option byte := match c with [b] => Some b | _ => None end.
Example C88_case :
  let y := saving_run one_byte the_byte nat_bytes [0; 1; 2]%nat a_schedule (a_start x03) in
  (forall v, the_byte (one_byte v) = Some v /\ one_byte v <> []) /\
  (forall l, bytes_nat 0 (nat_bytes l) = Some l) /\
  savers y = [SDone true] /\ map (elsewhere_listed (bytes_nat 0) y) [0; 1; 2]%nat = [Some true; Some true; Some true] /\
  map (fun g => elsewhere one_byte the_byte y g) [0; 1; 2]%nat = [Done (Found x07); Done (Found x05); Done (Found x08)] /\
  map snd (ops y) = [Done Fine; Done Fine; Done (Found x05)].
Proof. split; [split; [reflexivity | discriminate] |]. split; [exact bytes_nat_back |]. repeat split; reflexivity. Qed.
