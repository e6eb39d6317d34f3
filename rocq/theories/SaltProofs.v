(** * Proofs about salt files *)
From Verif Require Import Base SaltModel SaltSpec.
Local Open Scope N_scope.

(** ** A call by itself *)
Section Salt.
Variable privileged : bool.
Variable created : N.
Variable need : nat.
Variable process : nat -> nat.
Notation do_act := (do_act privileged created need).
Notation step := (step privileged created need process).
Notation run := (run privileged created need process).
Notation may_read := (may_read privileged).
Notation may_write := (may_write privileged).

(** What is left of a call, by itself. *)
Fixpoint finish (l : list (bool * act)) (fail : option exn) (g : option bytes) (d : fs)
  : result (option bytes) * fs :=
  match l with
  | [] => (match fail with Some e => Err e | None => Ok g end, d)
  | (always, a) :: l =>
    match fail, always with
    | Some _, false => finish l fail g d
    | _, _ =>
      match a with
      | Enter _ | Leave => finish l fail g d
      | _ =>
        match do_act a d with
        | Ok (d', r) => finish l fail (match r with Some _ => r | None => g end) d'
        | Err e => finish l (Some e) g d
        end
      end
    end
  end.

Lemma opened_readable : may_read OPENED = true.
Proof. unfold SaltModel.may_read. now rewrite orb_true_r. Qed.
Lemma opened_writable : may_write OPENED = true.
Proof. unfold SaltModel.may_write. now rewrite orb_true_r. Qed.
Lemma closed_writable : may_write CLOSED = privileged.
Proof. unfold SaltModel.may_write. now rewrite orb_false_r. Qed.
Lemma closed_unreadable : may_read CLOSED = privileged.
Proof. unfold SaltModel.may_read. now rewrite orb_false_r. Qed.

Lemma skipn_nil' {A} n : skipn n (@nil A) = [].
Proof. now destruct n. Qed.

Definition guarded (c : call) : Prop :=
  match c with Make _ _ | Read | Update _ | Delete => True | _ => False end.

(** A guarded call on a settled disk. *)
Lemma finish_answer c d s : guarded c -> settled need d s ->
  exists d', finish (code c) None None d = (fst (answer privileged c s), d') /\
    settled need d' (snd (answer privileged c s)).
Proof.
  intros G [D F]. pose proof (Nat.ltb_irrefl need) as LT. destruct d as [k f]. cbn [dirs file] in D, F. subst k.
  assert (M : forall x t tk, t = Make x tk ->
     let y := match x with [] => tk | _ => x end in
     answer privileged t s =
     (if blen y <? 32 then (Err ValueErr, s)
      else match s with
           | Some _ => if privileged then (Ok None, Some y) else (Err PermissionErr, s)
           | None => (Ok None, Some y)
           end)).
  { intros x t tk ->. now destruct x. }
  destruct c as [x tk| |x| |k|k|tk]; try contradiction.
  - rewrite (M x _ tk eq_refl). cbn [code]. set (y := match x with [] => tk | _ :: _ => x end).
    change MIN_SALT with 32. destruct (blen y <? 32) eqn:E.
    { exists {| dirs := need; file := f |}. split; [reflexivity|]. split; [reflexivity|exact F]. }
    apply N.ltb_ge in E. destruct s as [z|].
    + destruct F as [F Z]. change (Some (z, 0)) with (Some (z, CLOSED)) in F. subst f. cbn [finish SaltModel.do_act dirs file]. rewrite LT, closed_writable.
      destruct privileged.
      * cbn. rewrite skipn_nil', app_nil_r. eexists. split; [reflexivity|]. split; [reflexivity|]. now split.
      * cbn. eexists. split; [reflexivity|]. split; [reflexivity|]. now split.
    + subst f. cbn [finish SaltModel.do_act dirs file]. rewrite LT. cbn. rewrite skipn_nil', app_nil_r.
      eexists. split; [reflexivity|]. split; [reflexivity|]. now split.
  - cbn [code answer]. destruct s as [z|].
    + destruct F as [F Z]. change (Some (z, 0)) with (Some (z, CLOSED)) in F. subst f. cbn [finish SaltModel.do_act dirs file set_file]. rewrite opened_readable.
      change MIN_SALT with 32. rewrite (proj2 (N.ltb_ge _ _) Z). cbn.
      eexists. split; [reflexivity|]. split; [reflexivity|]. now split.
    + subst f. cbn. eexists. split; [reflexivity|]. now split.
  - cbn [code answer]. change MIN_SALT with 32. destruct (blen x <? 32) eqn:E.
    { exists {| dirs := need; file := f |}. split; [reflexivity|]. split; [reflexivity|exact F]. }
    apply N.ltb_ge in E. destruct s as [z|].
    + destruct F as [F Z]. change (Some (z, 0)) with (Some (z, CLOSED)) in F. subst f. cbn [finish SaltModel.do_act dirs file set_file]. rewrite LT, opened_writable.
      cbn. rewrite skipn_nil', app_nil_r. eexists. split; [reflexivity|]. split; [reflexivity|]. now split.
    + subst f. cbn. eexists. split; [reflexivity|]. now split.
  - cbn [code answer]. destruct s as [z|].
    + destruct F as [F Z]. change (Some (z, 0)) with (Some (z, CLOSED)) in F. subst f. cbn. eexists. split; [reflexivity|]. now split.
    + subst f. cbn. eexists. split; [reflexivity|]. now split.
Qed.

(** ** Many threads *)
Hypothesis one_process : forall i j, process i = process j.
Variable P : call -> Prop.
Hypothesis P_file : forall c, P c -> file_call c.
Hypothesis P_make : forall token, P (EnsureFile token) -> P (Make [] token).

Definition plain (a : act) : bool := match a with Enter _ | Leave | Mkdir _ => false | _ => true end.

Lemma plain_dirs a d d' r : plain a = true -> do_act a d = Ok (d', r) -> dirs d' = dirs d.
Proof.
  intros PL E. destruct a; try discriminate PL; cbn in E;
    repeat match type of E with context[match ?x with _ => _ end] => destruct x eqn:? end; try discriminate E;
    now injection E as <- _.
Qed.

(** What is left of a call inside its block. *)
Fixpoint shape (l : list (bool * act)) : Prop :=
  match l with
  | [] => False
  | (always, a) :: r =>
    match r with
    | [] => always = true /\ a = Leave
    | _ => plain a = true /\ shape r
    end
  end.

Definition read1 := [(false, Chmod OPENED); (false, Load); (true, Chmod CLOSED); (true, Leave)].
Definition read2 := [(false, Load); (true, Chmod CLOSED); (true, Leave)].
Definition read3 := [(true, Chmod CLOSED); (true, Leave)].
Definition read4 := [(true, Leave)].

Definition outside (t : thread) : Prop :=
  now t = [] \/
  (guarded (current t) /\ P (current t) /\ now t = code (current t) /\ got t = None /\ failure t = None).

(** How a reading may end. *)
Definition ends (ov : Prop) (s : option bytes) (t : thread) : Prop :=
  outcome t = fst (answer privileged Read s) \/ (privileged = false /\ ov /\ outcome t = Err PermissionErr).

Definition reading (ov : Prop) (s : option bytes) (f : option (bytes * N)) (t : thread) : Prop :=
  current t = Read /\
  ( now t = read1 /\ got t = None /\ failure t = None
  \/ now t = read2 /\ got t = None /\
     match s with
     | Some _ => failure t = None /\ (forall c m, f = Some (c, m) -> may_read m = true \/ ov)
     | None => failure t = Some FileNotFoundErr
     end
  \/ now t = read3 /\ ends ov s t
  \/ now t = read4 /\ ends ov s t).

Definition busy_reader (t : thread) : Prop := now t = read2 \/ now t = read3.

Definition shared (ov : Prop) (w : world) (s : option bytes) : Prop :=
  (forall j x, In (j, x) (inside w) -> x = false /\ P Read /\ reading ov s (file (disk w)) (threads w j)) /\
  match s with
  | None => file (disk w) = None
  | Some c => exists m, file (disk w) = Some (c, m) /\ 32 <= blen c /\
      (m = CLOSED \/ exists j x, In (j, x) (inside w) /\ busy_reader (threads w j))
  end.

Definition owned (w : world) (s : option bytes) : Prop :=
  exists i d', inside w = [(i, true)] /\
    let t := threads w i in
    guarded (current t) /\ current t <> Read /\ P (current t) /\ shape (now t) /\
    finish (now t) (failure t) (got t) (disk w) = (fst (answer privileged (current t) s), d') /\
    settled need d' (snd (answer privileged (current t) s)).

Record inv (ov : Prop) (w : world) (s : option bytes) : Prop := {
  i_dirs : dirs (disk w) = need;
  i_nodup : NoDup (map fst (inside w));
  i_later : forall j, Forall P (later (threads w j));
  i_outside : forall j, ~ In j (map fst (inside w)) -> outside (threads w j);
  i_file : owned w s \/ shared ov w s;
}.

Lemma outcome_answer_none s i c r : answer privileged c s = (r, s) -> (forall token, c <> EnsureFile token) ->
  forall R, history privileged R s [Done i c r] s.
Proof. intros A N R. eapply Happened; [exact N|exact A|constructor]. Qed.

(** Changing one thread that is and stays outside. *)
Lemma inv_outside ov w s i t : inv ov w s -> ~ In i (map fst (inside w)) ->
  outside t -> Forall P (later t) -> inv ov (set_thread i t w) s.
Proof.
  intros I N O L. split; cbn [disk inside threads set_thread].
  - apply I.
  - apply I.
  - intros j. destruct (Nat.eqb_spec j i); [assumption|apply I].
  - intros j J. destruct (Nat.eqb_spec j i); [assumption|now apply I].
  - destruct (i_file _ _ _ I) as [(k & d' & E & R)|[S F]].
    + left. exists k, d'. cbn [disk inside threads set_thread]. split; [exact E|].
      destruct (Nat.eqb_spec k i) as [->|]; [|exact R]. exfalso. apply N. rewrite E. now left.
    + right. split; cbn [disk inside threads set_thread].
      * intros j x J. destruct (Nat.eqb_spec j i) as [->|]; [|now apply S]. exfalso. apply N.
        now apply in_map with (f := fst) in J.
      * destruct s as [c|]; [|exact F]. destruct F as (m & F & Z & M). exists m. split; [exact F|]. split; [exact Z|].
        destruct M as [M|(j & x & J & B)]; [now left|right]. exists j, x. split; [exact J|].
        destruct (Nat.eqb_spec j i) as [->|]; [|exact B]. exfalso. apply N. now apply in_map with (f := fst) in J.
Qed.

Lemma inv_weaken (ov ov' : Prop) w s : (ov -> ov') -> inv ov w s -> inv ov' w s.
Proof.
  intros W I. split; try apply I. destruct (i_file _ _ _ I) as [O|[S F]]; [now left|right]. split; [|exact F].
  intros j x J. destruct (S j x J) as (X & PR & C & R). split; [exact X|]. split; [exact PR|]. split; [exact C|].
  assert (EW : forall t, ends ov s t -> ends ov' s t) by (intros t [E|(E1 & E2 & E3)]; [now left|right; auto]).
  destruct R as [R|[R|[R|R]]]; [now left|right; left|right; right; left|right; right; right].
  - destruct R as (R1 & R2 & R3). split; [exact R1|]. split; [exact R2|]. destruct s; [|exact R3].
    destruct R3 as [R3 R4]. split; [exact R3|]. intros c m E. destruct (R4 c m E); auto.
  - destruct R; split; auto.
  - destruct R; split; auto.
Qed.

Lemma outside_set i t w : threads (set_thread i t w) i = t.
Proof. cbn. now rewrite Nat.eqb_refl. Qed.

Lemma may_enter_exclusive i l : may_enter process true i l = true -> l = [].
Proof.
  destruct l as [|[j x] l]; [reflexivity|]. cbn. rewrite (one_process j i), Nat.eqb_refl. cbn. discriminate.
Qed.
Lemma may_enter_shared i l j x : may_enter process false i l = true -> In (j, x) l -> x = false.
Proof.
  intros M J. unfold may_enter in M. rewrite forallb_forall in M. specialize (M _ J). cbn in M.
  rewrite (one_process j i), Nat.eqb_refl in M. now destruct x.
Qed.

Lemma inside_not w i x : NoDup (map fst (inside w)) -> inside w = [(i, x)] -> forall j, j <> i -> ~ In j (map fst (inside w)).
Proof. intros _ -> j N [E|[]]. cbn in E. congruence. Qed.

Lemma settled_shared ov w s : dirs (disk w) = need -> inside w = [] -> settled need (disk w) s -> shared ov w s.
Proof.
  intros D I [_ F]. split; [rewrite I; intros ? ? []|]. destruct s as [x|]; [|exact F].
  destruct F as [F Z]. exists 0. split; [exact F|]. split; [exact Z|]. now left.
Qed.

Lemma shared_settled ov w s : dirs (disk w) = need -> inside w = [] -> shared ov w s -> settled need (disk w) s.
Proof.
  intros D I [_ F]. split; [exact D|]. destruct s as [x|]; [|exact F].
  destruct F as (m & F & Z & [->|(j & y & J & _)]); [now split|]. rewrite I in J. destruct J.
Qed.

(** ** A step *)
Definition crowded (w : world) : Prop := (2 <= length (inside w))%nat.

Lemma remove_in {A B} (i : A) (eqb : A -> A -> bool) (l : list (A * B)) j x :
  In (j, x) (filter (fun '(k, _) => negb (eqb k i)) l) <-> In (j, x) l /\ eqb j i = false.
Proof. rewrite filter_In, negb_true_iff. tauto. Qed.

Lemma nodup_filter {A B} (f : A * B -> bool) (l : list (A * B)) : NoDup (map fst l) -> NoDup (map fst (filter f l)).
Proof.
  induction l as [|[a b] l IH]; intros N; [constructor|]. cbn in *. apply NoDup_cons_iff in N as [N1 N2].
  destruct (f (a, b)); [|auto]. cbn. constructor; [|auto]. intros I. apply N1. apply in_map_iff in I as ([a' b'] & <- & I).
  apply filter_In in I as [I _]. now apply in_map with (f := fst) in I.
Qed.

(** A step of a thread outside. *)
Lemma step_outside ov w s i : inv ov w s -> ~ In i (map fst (inside w)) ->
  let '(es, w') := step i w in
  (exists s', history privileged (privileged = false /\ ov) s es s' /\ inv ov w' s') /\
  (forall j c r, In (Done j c r) es -> P c).
Proof.
  intros I N. unfold SaltModel.step. destruct (i_outside _ _ _ I i N) as [E|(G & PC & E & G0 & F0)].
  - rewrite E. unfold advance. set (t := threads w i) in *. pose proof (i_later _ _ _ I i) as L. fold t in L.
    destruct (failure t) eqn:F.
    { split; [exists s; split; [constructor|exact I]|]. intros ? ? ? []. }
    destruct (later t) as [|c rest] eqn:LE.
    { split; [exists s; split; [constructor|exact I]|]. intros ? ? ? []. }
    pose proof (Forall_inv L) as Pc. pose proof (Forall_inv_tail L) as Pr.
    assert (B : guarded c -> exists s', history privileged (privileged = false /\ ov) s [] s' /\ inv ov (set_thread i (begin c rest) w) s').
    { intros G. exists s. split; [constructor|]. apply inv_outside; [exact I|exact N| |exact Pr]. right. now repeat split. }
    destruct c as [x tk| |x| |k|k|tk].
    + split; [now apply B|intros ? ? ? []].
    + split; [now apply B|intros ? ? ? []].
    + split; [now apply B|intros ? ? ? []].
    + split; [now apply B|intros ? ? ? []].
    + destruct (P_file _ Pc).
    + destruct (P_file _ Pc).
    + split.
      * exists s. split; [apply Tested; constructor|]. apply inv_outside; [exact I|exact N|now left|]. cbn [later].
        destruct (file (disk w)); [exact Pr|]. constructor; [now apply P_make|exact Pr].
      * intros j c r [J|[]]. now injection J as <- <- <-.
  - rewrite E. set (t := threads w i) in *.
    (* refused before the block, or about to enter *)
    assert (K : (code (current t) = [(false, Refuse)] /\ answer privileged (current t) s = (Err ValueErr, s)) \/
                (exists x r, code (current t) = (false, Enter x) :: r /\ shape r /\ (x = false <-> current t = Read))).
    { destruct (current t) as [x tk| |x| |k|k|tk]; try contradiction; cbn [code answer].
      - set (y := match x with [] => tk | _ :: _ => x end). change MIN_SALT with 32. destruct (blen y <? 32) eqn:Z.
        + left. split; [reflexivity|]. subst y. destruct x; now rewrite Z.
        + right. exists true. eexists. split; [reflexivity|]. split; [now repeat split|]. split; discriminate.
      - right. exists false. eexists. split; [reflexivity|]. split; [now repeat split|]. now split.
      - change MIN_SALT with 32. destruct (blen x <? 32) eqn:Z.
        + left. split; [reflexivity|]. reflexivity.
        + right. exists true. eexists. split; [reflexivity|]. split; [now repeat split|]. split; discriminate.
      - right. exists true. eexists. split; [reflexivity|]. split; [now repeat split|]. split; discriminate. }
    assert (NE : forall token, current t <> EnsureFile token) by (intros tk Y; rewrite Y in G; exact G).
    destruct K as [[K A]|(x & r & K & SH & X)].
    + rewrite K, F0. cbn. split.
      * exists s. split; [eapply outcome_answer_none; [exact A|exact NE]|].
        apply inv_outside; [exact I|exact N|now left|]. cbn. apply I.
      * intros j c r [J|[]]. injection J as <- <- <-. exact PC.
    + rewrite K, F0. destruct (may_enter process x i (inside w)) eqn:M.
      2:{ split; [exists s; split; [constructor|exact I]|]. intros ? ? ? []. }
      assert (OV : over i (with_rest r t) = []).
      { unfold over. cbn. destruct r; [destruct SH|reflexivity]. }
      rewrite OV. split; [|intros ? ? ? []]. exists s. split; [constructor|].
      split; cbn [disk inside threads set_thread set_inside].
      * apply I.
      * cbn. constructor; [exact N|apply I].
      * intros j. destruct (Nat.eqb_spec j i); [cbn; apply I|apply I].
      * intros j J. cbn in J. destruct (Nat.eqb_spec j i) as [->|]; [tauto|]. apply I. tauto.
      * destruct x.
        -- left. pose proof (may_enter_exclusive _ _ M) as IE.
           assert (ST : settled need (disk w) s).
           { destruct (i_file _ _ _ I) as [(k & d' & Y & _)|Y]; [congruence|]. exact (shared_settled ov w s (i_dirs _ _ _ I) IE Y). }
           destruct (finish_answer (current t) (disk w) s G ST) as (d' & FE & SE).
           exists i, d'. cbn [disk inside threads set_thread set_inside]. rewrite IE, Nat.eqb_refl. split; [reflexivity|]. cbn.
           split; [exact G|]. split; [intros Y; apply X in Y; discriminate|]. split; [exact PC|]. split; [exact SH|]. split; [|exact SE].
           rewrite K in FE. cbn in FE. rewrite G0, F0. exact FE.
        -- right. apply proj1 in X. specialize (X eq_refl).
           destruct (i_file _ _ _ I) as [(k & d' & Y & _)|[S F]].
           { rewrite Y in M. apply (may_enter_shared i _ k true) in M; [discriminate|now left]. }
           split; cbn [disk inside threads set_thread set_inside].
           ++ intros j y [J|J].
              ** injection J as <- <-. split; [reflexivity|]. split; [now rewrite <- X|]. rewrite Nat.eqb_refl. split; [exact X|].
                 left. cbn. rewrite X in K. cbn [code] in K. injection K as <-. now repeat split.
              ** destruct (Nat.eqb_spec j i) as [->|]; [|now apply S]. exfalso. apply N. now apply in_map with (f := fst) in J.
           ++ destruct s as [c|]; [|exact F]. destruct F as (m & F & Z & MM). exists m. split; [exact F|]. split; [exact Z|].
              destruct MM as [MM|(j & y & J & B)]; [now left|right]. exists j, y. split; [now right|].
              destruct (Nat.eqb_spec j i) as [->|]; [|exact B]. exfalso. apply N. now apply in_map with (f := fst) in J.
Qed.

(** A step of the thread that owns the file. *)
Lemma step_owner ov w s i : inv ov w s -> owned w s -> In i (map fst (inside w)) ->
  let '(es, w') := step i w in
  (exists s', history privileged (privileged = false /\ ov) s es s' /\ inv ov w' s') /\
  (forall j c r, In (Done j c r) es -> P c).
Proof.
  intros I (k & d' & E & G & NR & PC & SH & FE & SE) J. rewrite E in J. destruct J as [J|[]]. cbn in J. subst k.
  unfold SaltModel.step. set (t := threads w i) in *.
  assert (NE : forall token, current t <> EnsureFile token) by (intros tk Y; rewrite Y in G; exact G).
  destruct (now t) as [|[always a] rest] eqn:NW; [destruct SH|].
  (* after a step that is not the last *)
  assert (GO : forall f g d, rest <> [] -> shape rest -> dirs d = need ->
    finish rest f g d = (fst (answer privileged (current t) s), d') ->
    inv ov (set_thread i {| current := current t; now := rest; later := later t; got := g; failure := f |} (set_disk d w)) s).
  { intros f g d RN SR DD FR. split; cbn [disk inside threads set_thread set_disk].
    - exact DD.
    - apply I.
    - intros j. destruct (Nat.eqb_spec j i); [cbn; apply I|apply I].
    - intros j. rewrite E. cbn. intros N. destruct (Nat.eqb_spec j i) as [->|]; [tauto|].
      apply I. rewrite E. cbn. tauto.
    - left. exists i, d'. cbn [disk inside threads set_thread set_disk]. rewrite Nat.eqb_refl.
      split; [exact E|]. split; [exact G|]. split; [exact NR|]. split; [exact PC|]. split; [exact SR|]. split; [exact FR|exact SE]. }
  destruct rest as [|b rest'] eqn:RE.
  - destruct SH as [-> ->].
    assert (X : outcome t = fst (answer privileged (current t) s) /\ disk w = d').
    { cbn in FE. unfold outcome. destruct (failure t); cbn in FE; split; congruence. }
    destruct X as [X <-].
    assert (Y : forall t', t' = with_rest [] t ->
      (exists s', history privileged (privileged = false /\ ov) s (over i t') s' /\
        inv ov (set_thread i t' (set_inside (filter (fun '(j, _) => negb (Nat.eqb j i)) (inside w)) w)) s') /\
      (forall j c r, In (Done j c r) (over i t') -> P c)).
    { intros t' ->. split.
      - exists (snd (answer privileged (current t) s)). split.
        + unfold over. cbn. eapply Happened; [exact NE| |constructor]. rewrite surjective_pairing at 1. f_equal.
          now rewrite <- X.
        + rewrite E. cbn. rewrite Nat.eqb_refl. cbn. split; cbn [disk inside threads set_thread set_inside].
          * apply I.
          * constructor.
          * intros j. destruct (Nat.eqb_spec j i); [cbn; apply I|apply I].
          * intros j _. destruct (Nat.eqb_spec j i) as [->|]; [now left|]. apply I. rewrite E. cbn. intros [Z|[]]. congruence.
          * right. apply settled_shared; [apply I|reflexivity|exact SE].
      - intros j c r [Z|[]]. injection Z as <- <- <-. exact PC. }
    destruct (failure t); apply Y; reflexivity.
  - destruct SH as [PL SR]. fold shape in SR.
    assert (RN : b :: rest' <> []) by discriminate.
    destruct (failure t) as [e|] eqn:F; [destruct always|].
    + assert (FE' : match do_act a (disk w) with
        | Ok (d', r) => finish (b :: rest') (Some e) (match r with Some _ => r | None => got t end) d'
        | Err e => finish (b :: rest') (Some e) (got t) (disk w)
        end = (fst (answer privileged (current t) s), d')).
      { destruct a; try discriminate PL; exact FE. }
      destruct (do_act a (disk w)) as [[d r]|e'] eqn:DE.
      * pose proof (GO (Some e) _ d RN SR (eq_trans (plain_dirs _ _ _ _ PL DE) (i_dirs _ _ _ I)) FE') as V.
        destruct a; try discriminate PL; (split; [exists s; split; [constructor|exact V]|intros ? ? ? []]).
      * pose proof (GO (Some e') _ (disk w) RN SR (i_dirs _ _ _ I) FE') as V.
        destruct a; try discriminate PL; (split; [exists s; split; [constructor|exact V]|intros ? ? ? []]).
    + pose proof (GO (Some e) _ (disk w) RN SR (i_dirs _ _ _ I) FE) as V. unfold with_rest. rewrite F.
      split; [exists s; split; [constructor|exact V]|intros ? ? ? []].
    + assert (FE' : match do_act a (disk w) with
        | Ok (d', r) => finish (b :: rest') None (match r with Some _ => r | None => got t end) d'
        | Err e => finish (b :: rest') (Some e) (got t) (disk w)
        end = (fst (answer privileged (current t) s), d')).
      { destruct a; try discriminate PL; exact FE. }
      destruct (do_act a (disk w)) as [[d r]|e'] eqn:DE.
      * pose proof (GO None _ d RN SR (eq_trans (plain_dirs _ _ _ _ PL DE) (i_dirs _ _ _ I)) FE') as V.
        destruct a; try discriminate PL; (split; [exists s; split; [constructor|exact V]|intros ? ? ? []]).
      * pose proof (GO (Some e') _ (disk w) RN SR (i_dirs _ _ _ I) FE') as V.
        destruct a; try discriminate PL; (split; [exists s; split; [constructor|exact V]|intros ? ? ? []]).
Qed.

Lemma reading_file (ov ov' : Prop) s f f' t : (ov -> ov') ->
  (f' = f \/ (forall c m, f' = Some (c, m) -> may_read m = true \/ ov')) ->
  reading ov s f t -> reading ov' s f' t.
Proof.
  intros W C (Cu & R). split; [exact Cu|].
  assert (EW : ends ov s t -> ends ov' s t) by (intros [E|(E1 & E2 & E3)]; [now left|right; auto]).
  destruct R as [R|[R|[R|R]]]; [now left|right; left|right; right; left|right; right; right].
  - destruct R as (R1 & R2 & R3). split; [exact R1|]. split; [exact R2|]. destruct s; [|exact R3].
    destruct R3 as [R3 R4]. split; [exact R3|]. intros c m E. destruct C as [->|C]; [|exact (C c m E)].
    destruct (R4 c m E); auto.
  - destruct R; split; auto.
  - destruct R; split; auto.
Qed.

Lemma crowd w i j x y : NoDup (map fst (inside w)) -> In (i, x) (inside w) -> In (j, y) (inside w) -> j <> i -> crowded w.
Proof.
  unfold crowded. intros N A B J. destruct (inside w) as [|a [|b l]]; [destruct A| |cbn; lia].
  destruct A as [->|[]]. destruct B as [B|[]]. congruence.
Qed.

Definition busy_now (l : list (bool * act)) : Prop := l = read2 \/ l = read3.

(** A step of a reader that stays inside. *)
Lemma reader_moves ov w s i x t' d : inv ov w s -> shared ov w s -> In (i, x) (inside w) ->
  dirs d = need -> Forall P (later t') -> reading (ov \/ crowded w) s (file d) t' ->
  (file d = file (disk w) \/ (exists c m, file d = Some (c, m) /\ (may_read m = true \/ m = CLOSED))) ->
  match s with
  | None => file d = None
  | Some c => exists m, file d = Some (c, m) /\ 32 <= blen c /\
      (m = CLOSED \/ busy_now (now t') \/
       (file d = file (disk w) /\ ~ busy_now (now (threads w i))))
  end ->
  inv (ov \/ crowded w) (set_thread i t' (set_disk d w)) s.
Proof.
  intros I [S F] J D L R C M. split; cbn [disk inside threads set_thread set_disk].
  - exact D.
  - apply I.
  - intros j. destruct (Nat.eqb_spec j i); [assumption|apply I].
  - intros j N. destruct (Nat.eqb_spec j i) as [->|]; [|now apply I].
    exfalso. apply N. now apply in_map with (f := fst) in J.
  - right. split; cbn [disk inside threads set_thread set_disk].
    + intros j y K. destruct (S j y K) as (Y & PR & RD). split; [exact Y|]. split; [exact PR|].
      destruct (Nat.eqb_spec j i) as [->|N]; [exact R|].
      eapply reading_file; [| |exact RD]; [tauto|]. destruct C as [C|(c & m & C & CM)]; [now left|right].
      intros c' m' E. rewrite C in E. injection E as <- <-. destruct CM; [now left|].
      right. right. eapply crowd; [apply I|exact J|exact K|exact N].
    + destruct s as [c|]; [|exact M]. destruct M as (m & M1 & M2 & M3). exists m. split; [exact M1|]. split; [exact M2|].
      destruct M3 as [M3|[M3|[M3 M4]]]; [now left| |].
      * right. exists i, x. split; [exact J|]. now rewrite Nat.eqb_refl.
      * destruct F as (m' & F1 & _ & F3). rewrite M3, F1 in M1. injection M1 as <-.
        destruct F3 as [F3|(j & y & K & B)]; [now left|right]. exists j, y. split; [exact K|].
        destruct (Nat.eqb_spec j i) as [->|]; [contradiction|exact B].
Qed.

Lemma step_reader ov w s i : inv ov w s -> shared ov w s -> In i (map fst (inside w)) ->
  let '(es, w') := step i w in
  (exists s', history privileged (privileged = false /\ ov) s es s' /\ inv (ov \/ crowded w) w' s') /\
  (forall j c r, In (Done j c r) es -> P c).
Proof.
  intros I SH J. apply in_map_iff in J as ([k x] & Ek & J). cbn in Ek. subst k.
  destruct (proj1 SH i x J) as (-> & PR & Cu & R).
  unfold SaltModel.step. set (t := threads w i) in *.
  assert (Q : forall w', inv (ov \/ crowded w) w' s ->
    (exists s', history privileged (privileged = false /\ ov) s [] s' /\ inv (ov \/ crowded w) w' s') /\
    (forall j c r, In (Done j c r) [] -> P c)).
  { intros w' V. split; [exists s; split; [constructor|exact V]|intros ? ? ? []]. }
  pose proof (i_later _ _ _ I i) as L. fold t in L.
  destruct R as [(NW & G & F)|[(NW & G & F)|[(NW & EN)|(NW & EN)]]]; rewrite NW; cbn [read1 read2 read3 read4].
  - rewrite F. cbn [SaltModel.do_act]. pose proof (proj2 SH) as FS. destruct s as [c|].
    + destruct FS as (m & FS & Z & _). rewrite FS. cbn [over now]. apply Q.
      apply (reader_moves ov w (Some c) i false); [exact I|exact SH|exact J|cbn; apply I|exact L| | |].
      * split; [exact Cu|]. right. left. split; [reflexivity|]. split; [exact G|]. split; [reflexivity|]. cbn.
        intros c' m' E. injection E as _ <-. left. apply opened_readable.
      * right. cbn. exists c, OPENED. split; [reflexivity|]. left. apply opened_readable.
      * cbn. exists OPENED. split; [reflexivity|]. split; [exact Z|]. right. left. now left.
    + rewrite FS. cbn [over now]. apply Q.
      apply (reader_moves ov w None i false _ (disk w)); [exact I|exact SH|exact J|apply I|exact L| |now left|exact FS].
      split; [exact Cu|]. right. left. split; [reflexivity|]. split; [exact G|]. reflexivity.
  - pose proof (proj2 SH) as FS. destruct s as [c|].
    + destruct F as [F RM]. rewrite F. cbn [SaltModel.do_act]. destruct FS as (m & FS & Z & _). rewrite FS.
      change MIN_SALT with 32. rewrite (proj2 (N.ltb_ge _ _) Z).
      destruct (may_read m) eqn:MR; cbn [over now]; apply Q.
      * apply (reader_moves ov w (Some c) i false); [exact I|exact SH|exact J|apply I|exact L| |now left|].
        -- split; [exact Cu|]. right. right. left. split; [reflexivity|]. left. unfold outcome. cbn. reflexivity.
        -- exists m. split; [exact FS|]. split; [exact Z|]. right. left. now right.
      * apply (reader_moves ov w (Some c) i false _ (disk w)); [exact I|exact SH|exact J|apply I|exact L| |now left|].
        -- split; [exact Cu|]. right. right. left. split; [reflexivity|]. right. unfold outcome. cbn.
           split; [|split; [|reflexivity]].
           ++ unfold SaltModel.may_read in MR. now destruct privileged.
           ++ destruct (RM c m FS) as [RM'|RM']; [congruence|now left].
        -- exists m. split; [exact FS|]. split; [exact Z|]. right. left. now right.
    + rewrite F. unfold with_rest. rewrite F. cbn [over now]. apply Q.
      apply (reader_moves ov w None i false _ (disk w)); [exact I|exact SH|exact J|apply I|exact L| |now left|exact FS].
      split; [exact Cu|]. right. right. left. split; [reflexivity|]. left. reflexivity.
  - pose proof (proj2 SH) as FS.
    assert (Y : match failure t with Some _ | None =>
      match do_act (Chmod CLOSED) (disk w) with
      | Ok (d, r) =>
        inv (ov \/ crowded w) (set_thread i {| current := current t; now := read4; later := later t;
                got := match r with Some _ => r | None => got t end; failure := failure t |} (set_disk d w)) s
      | Err e =>
        inv (ov \/ crowded w) (set_thread i {| current := current t; now := read4; later := later t;
                got := got t; failure := Some e |} (set_disk (disk w) w)) s
      end end).
    { cbn [SaltModel.do_act]. destruct s as [c|].
      - destruct FS as (m & FS & Z & _). rewrite FS. 
        assert (V : inv (ov \/ crowded w) (set_thread i {| current := current t; now := read4; later := later t;
                got := got t; failure := failure t |} (set_disk (set_file (Some (c, CLOSED)) (disk w)) w)) (Some c)).
        { apply (reader_moves ov w (Some c) i false); [exact I|exact SH|exact J|cbn; apply I|exact L| | |].
          * split; [exact Cu|]. right. right. right. split; [reflexivity|].
            destruct EN as [EN|(E1 & E2 & E3)]; [left; exact EN|right; auto].
          * right. exists c, CLOSED. split; [reflexivity|now right].
          * exists CLOSED. split; [reflexivity|]. split; [exact Z|now left]. }
        destruct (failure t); exact V.
      - rewrite FS.
        assert (V : inv (ov \/ crowded w) (set_thread i {| current := current t; now := read4; later := later t;
                got := got t; failure := Some FileNotFoundErr |} (set_disk (disk w) w)) None).
        { apply (reader_moves ov w None i false _ (disk w)); [exact I|exact SH|exact J|apply I|exact L| |now left|exact FS].
          split; [exact Cu|]. right. right. right. split; [reflexivity|]. left. reflexivity. }
        destruct (failure t); exact V. }
    destruct (failure t) as [e|]; destruct (do_act (Chmod CLOSED) (disk w)) as [[d r]|e'] eqn:DE; cbn [over now];
      apply Q; exact Y.
  - assert (Y : (exists s', history privileged (privileged = false /\ ov) s (over i (with_rest [] t)) s' /\
        inv (ov \/ crowded w) (set_thread i (with_rest [] t)
          (set_inside (filter (fun '(j, _) => negb (Nat.eqb j i)) (inside w)) w)) s') /\
      (forall j c r, In (Done j c r) (over i (with_rest [] t)) -> P c)).
    { unfold over. cbn [now with_rest]. split.
      - exists s. split.
        + change (current (with_rest [] t)) with (current t). rewrite Cu. change (outcome (with_rest [] t)) with (outcome t).
          destruct EN as [EN|(E1 & E2 & E3)].
          * rewrite EN. apply (outcome_answer_none s i Read); [|discriminate]. now destruct s.
          * rewrite E3. apply Refused; [now split|constructor].
        + apply (inv_weaken ov); [tauto|]. split; cbn [disk inside threads set_thread set_inside].
          * apply I.
          * apply nodup_filter, I.
          * intros j. destruct (Nat.eqb_spec j i); [exact L|apply I].
          * intros j N. destruct (Nat.eqb_spec j i) as [->|NE]; [now left|]. apply I. intros K. apply N.
            apply in_map_iff in K as ([k y] & <- & K). cbn in *. apply in_map_iff. exists (k, y). split; [reflexivity|].
            apply remove_in. split; [exact K|]. now apply Nat.eqb_neq.
          * right. split; cbn [disk inside threads set_thread set_inside].
            -- intros j y K. apply remove_in in K as [K NE]. rewrite NE. now apply (proj1 SH).
            -- pose proof (proj2 SH) as FS. destruct s as [c|]; [|exact FS].
               destruct FS as (m & FS & Z & B). exists m. split; [exact FS|]. split; [exact Z|].
               destruct B as [B|(j & y & K & B)]; [now left|right]. exists j, y.
               assert (NE : j <> i). { intros ->. fold t in B. unfold busy_reader in B. rewrite NW in B. destruct B; discriminate. }
               split; [apply remove_in; split; [exact K|now apply Nat.eqb_neq]|].
               now rewrite (proj2 (Nat.eqb_neq _ _) NE).
      - intros j c r [Z|[]]. injection Z as <- <- <-. cbn. now rewrite Cu. }
    destruct (failure t); exact Y.
Qed.

Lemma step_inv ov w s i : inv ov w s ->
  let '(es, w') := step i w in
  (exists s', history privileged (privileged = false /\ ov) s es s' /\ inv (ov \/ crowded w) w' s') /\
  (forall j c r, In (Done j c r) es -> P c).
Proof.
  intros I. destruct (in_dec Nat.eq_dec i (map fst (inside w))) as [J|J].
  - destruct (i_file _ _ _ I) as [O|S].
    + pose proof (step_owner ov w s i I O J) as X. destruct (step i w) as [es w']. destruct X as [(s' & H & V) X].
      split; [|exact X]. exists s'. split; [exact H|]. apply (inv_weaken ov); [tauto|exact V].
    + exact (step_reader ov w s i I S J).
  - pose proof (step_outside ov w s i I J) as X. destruct (step i w) as [es w']. destruct X as [(s' & H & V) X].
    split; [|exact X]. exists s'. split; [exact H|]. apply (inv_weaken ov); [tauto|exact V].
Qed.

Lemma history_weaken (R R' : Prop) s es s' : (R -> R') -> history privileged R s es s' -> history privileged R' s es s'.
Proof.
  intros W H. induction H; [constructor|now apply Tested|eapply Happened; eassumption|apply Refused; auto].
Qed.

Lemma history_app R s es s1 es' s2 : history privileged R s es s1 -> history privileged R s1 es' s2 ->
  history privileged R s (es ++ es') s2.
Proof.
  intros H K. induction H; cbn; [exact K|apply Tested; auto|eapply Happened; eauto|apply Refused; auto].
Qed.

(** At some point of the schedule, two threads were in their blocks. *)
Definition overlap (l : list nat) (w : world) : Prop :=
  exists l1 l2, l = l1 ++ l2 /\ crowded (snd (run l1 w)).

Lemma run_inv l : forall ov w s, inv ov w s ->
  exists s', history privileged (privileged = false /\ (ov \/ overlap l w)) s (fst (run l w)) s' /\
    inv (ov \/ overlap l w) (snd (run l w)) s' /\
    (forall j c r, In (Done j c r) (fst (run l w)) -> P c).
Proof.
  induction l as [|i l IH]; intros ov w s I.
  - exists s. split; [constructor|]. split; [apply (inv_weaken ov); [tauto|exact I]|intros ? ? ? []].
  - pose proof (step_inv ov w s i I) as X. cbn [SaltModel.run].
    assert (OV : forall e w', step i w = (e, w') -> overlap l w' -> overlap (i :: l) w).
    { intros e w' E (l1 & l2 & -> & C). exists (i :: l1), l2. split; [reflexivity|]. cbn. rewrite E.
      destruct (run l1 w'). exact C. }
    destruct (step i w) as [e w'] eqn:E. destruct X as [(s1 & H & V) X].
    destruct (IH _ _ _ V) as (s2 & H2 & V2 & X2). specialize (OV _ _ eq_refl).
    destruct (run l w') as [es w''] eqn:RE. cbn [fst snd] in *.
    assert (CR : crowded w -> overlap (i :: l) w). { intros C. exists [], (i :: l). split; [reflexivity|exact C]. }
    exists s2. split; [|split].
    + eapply history_app; [eapply history_weaken; [|exact H]|eapply history_weaken; [|exact H2]]; tauto.
    + eapply inv_weaken; [|exact V2]. tauto.
    + intros j c r K. apply in_app_or in K as [K|K]; [eapply X, K|eapply X2, K].
Qed.

Lemma launch_inv calls d s : settled need d s -> (forall i, Forall P (calls i)) -> inv False (launch calls d) s.
Proof.
  intros S A. split; cbn.
  - apply S.
  - constructor.
  - exact A.
  - intros j _. now left.
  - right. apply settled_shared; [apply S|reflexivity|exact S].
Qed.
End Salt.

(** ** One call after another *)
Section Alone.
Variable privileged : bool.
Variable created : N.
Variable need : nat.
Variable process : nat -> nat.
Notation run := (run privileged created need process).
Notation step := (step privileged created need process).

Lemma run_app l1 l2 w : run (l1 ++ l2) w =
  (fst (run l1 w) ++ fst (run l2 (snd (run l1 w))), snd (run l2 (snd (run l1 w)))).
Proof.
  revert w. induction l1 as [|i l1 IH]; intros w.
  - cbn. now destruct (run l2 w).
  - cbn [SaltModel.run app]. destruct (step i w) as [e w1]. rewrite (IH w1). destruct (run l1 w1) as [es w2]. cbn.
    now rewrite app_assoc.
Qed.

Lemma run_stuck n i w : step i w = ([], w) -> run (repeat i n) w = ([], w).
Proof. intros E. induction n; [reflexivity|]. cbn. now rewrite E, IHn. Qed.

Ltac go := cbn -[may_read may_write Nat.ltb blen N.ltb skipn CLOSED OPENED settled];
  rewrite ?opened_readable, ?opened_writable, ?closed_writable.
Ltac fin := eexists; split; [reflexivity|]; split; [reflexivity|]; first [assumption | reflexivity | now split].

Lemma alone_answer c d s : file_call c -> settled need d s ->
  exists d', alone privileged created need process c d = (fst (answer privileged c s), d') /\
    settled need d' (snd (answer privileged c s)).
Proof.
  intros G [D F]. pose proof (Nat.ltb_irrefl need) as LT. destruct d as [k f]. cbn [dirs file] in D, F. subst k.
  assert (MK : forall x tk, let y := match x with [] => tk | _ => x end in
    let a := if blen y <? 32 then (Err ValueErr : result (option bytes), s)
      else match s with
           | Some _ => if privileged then (Ok None, Some y) else (Err PermissionErr, s)
           | None => (Ok None, Some y)
           end in
    exists d', alone privileged created need process (Make x tk) {| dirs := need; file := f |} = (fst a, d') /\
     settled need d' (snd a)).
  { intros x tk y a. subst a. unfold alone, launch, idle. cbn [repeat SaltModel.run]. unfold SaltModel.step at 1. cbn [now threads].
    cbn [advance failure later]. unfold begin.
    assert (CE : code (Make x tk) = if blen y <? 32 then [(false, Refuse)]
      else [(false, Enter true); (false, Truncate); (false, Write y); (false, Chmod CLOSED); (true, Leave)]) by reflexivity.
    rewrite CE. clear CE. clearbody y.
    destruct (blen y <? 32) eqn:E; [go; fin|]. apply N.ltb_ge in E. destruct s as [z|].
    - destruct F as [F Z]. change (Some (z, 0)) with (Some (z, CLOSED)) in F. subst f. go. rewrite LT. go.
      destruct privileged.
      + go. rewrite skipn_nil', app_nil_r. fin.
      + go. fin.
    - subst f. go. rewrite LT. go. rewrite skipn_nil', app_nil_r. fin. }
  destruct c as [x tk| |x| |k|k|tk]; try contradiction.
  - destruct (MK x tk) as (d' & E1 & E2). exists d'. rewrite E1. destruct x; cbn [answer]; now split.
  - unfold alone, launch, idle. cbn [answer]. destruct s as [z|].
    + destruct F as [F Z]. change (Some (z, 0)) with (Some (z, CLOSED)) in F. subst f. go.
      change MIN_SALT with 32. rewrite (proj2 (N.ltb_ge _ _) Z). go. fin.
    + subst f. go. fin.
  - unfold alone, launch, idle. cbn [answer]. cbn [repeat SaltModel.run]. unfold SaltModel.step at 1. cbn [now threads].
    cbn [advance failure later]. unfold begin. cbn [code]. change MIN_SALT with 32.
    destruct (blen x <? 32) eqn:E; [go; fin|]. apply N.ltb_ge in E. destruct s as [z|].
    + destruct F as [F Z]. change (Some (z, 0)) with (Some (z, CLOSED)) in F. subst f. go. rewrite LT. go.
      rewrite skipn_nil', app_nil_r. fin.
    + subst f. go. fin.
  - unfold alone, launch, idle. cbn [answer]. destruct s as [z|].
    + destruct F as [F Z]. change (Some (z, 0)) with (Some (z, CLOSED)) in F. subst f. go. fin.
    + subst f. go. fin.
  - destruct s as [z|].
    + unfold alone, launch, idle. cbn [answer]. destruct F as [F Z]. change (Some (z, 0)) with (Some (z, CLOSED)) in F. subst f.
      go. fin.
    + subst f. unfold alone, launch, idle. cbn [answer]. cbn [repeat SaltModel.run]. unfold SaltModel.step at 1. cbn [now threads].
      cbn [advance failure later disk file]. unfold SaltModel.step at 1. cbn [now threads set_thread Nat.eqb].
      cbn [advance failure later]. unfold begin. cbn [code]. change MIN_SALT with 32.
      destruct (blen tk <? 32) eqn:E; [go; fin|]. apply N.ltb_ge in E.
      go. rewrite LT. go. rewrite skipn_nil', app_nil_r. fin.
Qed.

Lemma calls_alone_answers l : forall d s, Forall file_call l -> settled need d s ->
  exists d', calls_alone privileged created need process l d = (fst (answers privileged l s), d') /\
    settled need d' (snd (answers privileged l s)).
Proof.
  induction l as [|c l IH]; intros d s A S; [exists d; now split|].
  destruct (alone_answer c d s (Forall_inv A) S) as (d1 & E1 & S1). cbn [calls_alone answers]. rewrite E1.
  destruct (answer privileged c s) as [r s1]. cbn [fst snd] in *.
  destruct (IH d1 s1 (Forall_inv_tail A) S1) as (d2 & E2 & S2). rewrite E2.
  destruct (answers privileged l s1) as [rs s2]. exists d2. now split.
Qed.
End Alone.

(** ** Histories without updates and deletions *)
Definition opening (c : call) : Prop :=
  match c with Make _ _ | Read | EnsureFile _ => True | _ => False end.

Lemma history_keeps R x es s' : history false R (Some x) es s' ->
  (forall i c r, In (Done i c r) es -> opening c) ->
  s' = Some x /\ forall i y, In (Done i Read (Ok y)) es -> y = Some x.
Proof.
  intros H. remember (Some x) as s eqn:S. induction H; intros A; subst.
  - split; [reflexivity|]. intros ? ? [].
  - destruct IHhistory as [I1 I2]; [reflexivity|intros; eapply A; right; eassumption|]. split; [exact I1|].
    intros j y [E|E]; [discriminate|eauto].
  - assert (O : opening c) by (eapply A; now left).
    assert (Y : s1 = Some x /\ (c = Read -> r = Ok (Some x))).
    { destruct c as [a b| |a| |k|k|a]; try contradiction.
      - split; [|discriminate]. destruct a; cbn in H0; destruct (_ <? 32); now injection H0 as _ <-.
      - cbn in H0. injection H0 as <- <-. now split.
      - now destruct (H a). }
    destruct Y as [-> Y]. destruct IHhistory as [I1 I2]; [reflexivity|intros; eapply A; right; eassumption|].
    split; [exact I1|]. intros j y [E|E]; [|eauto]. injection E as _ -> ->. specialize (Y eq_refl). congruence.
  - destruct IHhistory as [I1 I2]; [reflexivity|intros; eapply A; right; eassumption|]. split; [exact I1|].
    intros j y [E|E]; [discriminate|eauto].
Qed.

Lemma history_one_salt R s es s' : history false R s es s' ->
  (forall i c r, In (Done i c r) es -> opening c) ->
  exists x, forall i y, In (Done i Read (Ok y)) es -> y = Some x.
Proof.
  destruct s as [x|].
  { intros H A. exists x. apply (history_keeps R x es s' H A). }
  intros H. remember None as s eqn:S. induction H; intros A; subst.
  - exists []. intros ? ? [].
  - destruct IHhistory as [x X]; [reflexivity|intros; eapply A; right; eassumption|]. exists x.
    intros j y [E|E]; [discriminate|eauto].
  - assert (O : opening c) by (eapply A; now left).
    assert (NR : r <> Ok None -> c = Read -> s1 = None /\ r = Err FileNotFoundErr).
    { intros _ ->. cbn in H0. injection H0 as <- <-. now split. }
    assert (NY : forall j y, Done i c r = Done j Read (Ok y) -> False).
    { intros j y E. injection E as _ -> ->. cbn in H0. discriminate. }
    destruct s1 as [z|].
    + destruct (history_keeps R z es s' H1) as [_ K]; [intros; eapply A; right; eassumption|]. exists z.
      intros j y [E|E]; [destruct (NY _ _ E)|eauto].
    + destruct IHhistory as [x X]; [reflexivity|intros; eapply A; right; eassumption|]. exists x.
      intros j y [E|E]; [destruct (NY _ _ E)|eauto].
  - destruct IHhistory as [x X]; [reflexivity|intros; eapply A; right; eassumption|]. exists x.
    intros j y [E|E]; [discriminate|eauto].
Qed.
