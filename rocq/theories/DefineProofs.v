(** * Proofs about defining classes with typed slots *)
From Coq Require Import Lia.
From Verif Require Import Base StrModel StrFacts ContainersModel ContainersSpec ContainersProofs DefineModel DefineSpec.
Import ListNotations.
Local Open Scope N_scope.

Definition merge (l set : list (str * N)) : list (str * N) := fold_left (fun d p => dict_set str_eqb d (fst p) (snd p)) l set.
Definition decl_ok (checkable : N -> bool) (slots : list str) (p : str * N) : Prop :=
  checkable (snd p) = true /\ fst p <> DICT /\ In (fst p) slots.

Lemma copy_types_ok ck sl : forall l set set', copy_types ck sl l set = Ok set' <-> Forall (decl_ok ck sl) l /\ set' = merge l set.
Proof.
  induction l as [|[s t] l IH]; intros set set'; cbn [copy_types].
  - split; [intros E; injection E as <-; split; [constructor|reflexivity]|intros [_ ->]; reflexivity].
  - split.
    + intros E. destruct (ck t) eqn:C; [|discriminate]. cbn [negb] in E. destruct (str_eqb s DICT) eqn:D; [discriminate|].
      destruct (mem s sl) eqn:M; [|discriminate]. cbn [negb] in E. apply IH in E as [F ->]. split; [|reflexivity]. constructor; [|exact F].
      split; [exact C|]. split; [|now apply mem_in]. cbn. intros ->. rewrite (proj2 (str_eqb_eq _ _) eq_refl) in D. discriminate.
    + intros [F ->]. inversion F as [|x y (C & D & M) F']; subst. cbn in C, D, M. rewrite C. cbn [negb].
      destruct (str_eqb s DICT) eqn:E; [apply str_eqb_eq in E; contradiction|]. apply mem_in in M. rewrite M. cbn [negb]. apply IH. auto.
Qed.
Lemma get_merge : forall l set s, NoDup (map fst l) ->
  dict_get str_eqb (merge l set) s = match dict_get str_eqb l s with Some t => Some t | None => dict_get str_eqb set s end.
Proof.
  induction l as [|[k t] l IH]; intros set s N; [reflexivity|]. cbn [map fst] in N. inversion N as [|x y NI N']; subst.
  change (merge ((k, t) :: l) set) with (merge l (dict_set str_eqb set k t)). rewrite (IH _ _ N'). cbn [dict_get].
  rewrite (get_set _ str_eqb_eq). destruct (str_eqb k s) eqn:E.
  - apply str_eqb_eq in E as <-. destruct (dict_get str_eqb l k) as [u|] eqn:G; [|reflexivity].
    exfalso. apply NI. apply (get_in _ str_eqb_eq) in G. apply in_map_iff. exists (k, u). auto.
  - reflexivity.
Qed.
Lemma nodup_merge : forall l set, NoDup (map fst set) -> NoDup (map fst (merge l set)).
Proof.
  induction l as [|[k t] l IH]; intros set N; [exact N|]. change (merge ((k, t) :: l) set) with (merge l (dict_set str_eqb set k t)). apply IH. now apply (nodup_set _ str_eqb_eq).
Qed.
Lemma in_merge : forall l set x, In x (merge l set) -> In x l \/ In x set.
Proof.
  induction l as [|[k t] l IH]; intros set x I; [auto|]. change (merge ((k, t) :: l) set) with (merge l (dict_set str_eqb set k t)) in I.
  apply IH in I as [I|I]; [cbn; auto|]. apply in_dict_set in I as [I|[E1 E2]]; [auto|]. left. left. destruct x as [a b]. cbn in *. subst b.
  destruct E2 as [->|E2]; [reflexivity|]. apply str_eqb_eq in E2 as ->. reflexivity.
Qed.
Fixpoint merge_all (ts : list (list (str * N))) : list (str * N) :=
  match ts with [] => [] | l :: ts => merge l (merge_all ts) end.
Fixpoint first_in (ts : list (list (str * N))) (s : str) : option N :=
  match ts with [] => None | l :: ts => match dict_get str_eqb l s with Some t => Some t | None => first_in ts s end end.
Lemma copy_all_ok ck sl : forall ts set, copy_all ck sl ts = Ok set <-> Forall (Forall (decl_ok ck sl)) ts /\ set = merge_all ts.
Proof.
  induction ts as [|l ts IH]; intros set; cbn [copy_all merge_all].
  - split; [intros E; injection E as <-; split; [constructor|reflexivity]|intros [_ ->]; reflexivity].
  - split.
    + intros E. destruct (copy_all ck sl ts) as [set0|e] eqn:C; [|discriminate]. cbn [bind] in E. apply copy_types_ok in E as [F ->].
      destruct (proj1 (IH set0) eq_refl) as [FT ->]. split; [constructor; assumption|reflexivity].
    + intros [F ->]. inversion F as [|x y F1 F2]; subst. rewrite (proj2 (IH (merge_all ts)) (conj F2 eq_refl)). cbn [bind]. apply copy_types_ok. auto.
Qed.
Lemma get_merge_all : forall ts s, Forall (fun l => NoDup (map fst l)) ts -> dict_get str_eqb (merge_all ts) s = first_in ts s.
Proof. induction ts as [|l ts IH]; intros s F; [reflexivity|]. inversion F; subst. cbn. rewrite get_merge by assumption. now rewrite IH. Qed.
Lemma nodup_merge_all : forall ts, NoDup (map fst (merge_all ts)).
Proof. induction ts as [|l ts IH]; [constructor|]. cbn. now apply nodup_merge. Qed.
Lemma in_merge_all : forall ts x, In x (merge_all ts) -> exists l, In l ts /\ In x l.
Proof. induction ts as [|l ts IH]; intros x I; [destruct I|]. cbn in I. apply in_merge in I as [I|I]; [exists l; cbn; auto|]. destruct (IH x I) as (l' & A & B). exists l'. cbn. auto. Qed.

Lemma in_unique : forall l seen x, In x (unique seen l) <-> In x l /\ ~ In x seen.
Proof.
  induction l as [|y l IH]; intros seen x; cbn; [tauto|]. destruct (mem y seen) eqn:M.
  - rewrite IH. apply mem_in in M. split; [tauto|]. intros [[->|I] N]; tauto.
  - cbn. rewrite IH. cbn. assert (N : ~ In y seen) by (intros I; apply mem_in in I; congruence). split.
    + intros [->|[I K]]; [tauto|]. tauto.
    + intros [[->|I] K]; [auto|]. destruct (str_eqb y x) eqn:E; [apply str_eqb_eq in E; auto|]. right. split; [exact I|]. intros [->|J]; [|auto].
      rewrite (proj2 (str_eqb_eq _ _) eq_refl) in E. discriminate.
Qed.
Lemma in_all_slots b mro s : In s (all_slots b mro) <-> In s (b_slots b) \/ exists d, In d mro /\ In s (d_slots d).
Proof.
  unfold all_slots. rewrite in_unique, in_app_iff, in_concat. split.
  - intros [[I|(l & A & B)] _]; [auto|]. apply in_map_iff in A as (d & <- & A). eauto.
  - intros [I|(d & A & B)]; (split; [|intros []]); [auto|]. right. exists (d_slots d). split; [now apply in_map|exact B].
Qed.

Definition good (ck : N -> bool) (d : defined) : Prop := forall l, d_types d = Some l ->
  NoDup (map fst l) /\ Forall (decl_ok ck (d_slots d)) l /\ forall s, In s (d_slots d) -> s <> DICT -> In s (map fst l).
Definition typed_among (mro : list defined) : bool := existsb (fun d => match d_types d with Some _ => true | None => false end) mro.

Lemma first_tables mro s : first_in (map (fun d => match d_types d with Some t => t | None => [] end) mro) s = first_type mro s.
Proof.
  induction mro as [|d mro IH]; [reflexivity|]. cbn [map first_in first_type]. unfold type_of. destruct (d_types d); cbn; now rewrite IH.
Qed.
Lemma first_inherited mro s t : dict_get str_eqb (inherited mro) s = Some t -> first_type mro s = Some t.
Proof.
  induction mro as [|d mro IH]; [discriminate|]. cbn [inherited first_type]. unfold type_of. destruct (d_types d) as [l|]; [intros ->; reflexivity|exact IH].
Qed.
Lemma first_declared b mro s : first_in (declared b mro) s = match own_type b s with Some t => Some t | None => first_type mro s end.
Proof.
  unfold declared, own_type. cbn [first_in]. rewrite first_tables. destruct (b_types b) as [l|]; [reflexivity|].
  destruct (dict_get str_eqb (inherited mro) s) eqn:E; [|reflexivity]. symmetry. now apply first_inherited.
Qed.
Lemma inherited_one mro : inherited mro = [] \/ exists d, In d mro /\ d_types d = Some (inherited mro).
Proof.
  induction mro as [|d mro IH]; [auto|]. cbn [inherited]. destruct (d_types d) as [l|] eqn:E; [right; exists d; cbn; auto|].
  destruct IH as [IH|(d' & A & B)]; [auto|]. right. exists d'. cbn. auto.
Qed.
Lemma bigger ck sl sl' l : (forall s, In s sl -> In s sl') -> Forall (decl_ok ck sl) l -> Forall (decl_ok ck sl') l.
Proof. intros S. apply Forall_impl. intros x (A & B & C). repeat split; auto. Qed.

Lemma tables_ok ck b mro : Forall (good ck) mro ->
  Forall (Forall (decl_ok ck (all_slots b mro))) (map (fun d => match d_types d with Some t => t | None => [] end) mro) /\ Forall (decl_ok ck (all_slots b mro)) (inherited mro) /\
  Forall (fun l => NoDup (map fst l)) (map (fun d => match d_types d with Some t => t | None => [] end) mro) /\ NoDup (map fst (inherited mro)).
Proof.
  intros G. rewrite Forall_forall in G.
  assert (ONE : forall d l, In d mro -> d_types d = Some l -> Forall (decl_ok ck (all_slots b mro)) l /\ NoDup (map fst l)).
  { intros d l I E. destruct (G d I l E) as (N & F & _). split; [|exact N]. apply (bigger ck (d_slots d)); [|exact F]. intros s J. apply in_all_slots. eauto. }
  split; [|split; [|split]].
  - apply Forall_map, Forall_forall. intros d I. destruct (d_types d) eqn:E; [now apply (ONE d)|constructor].
  - destruct (inherited_one mro) as [->|(d & I & E)]; [constructor|]. now apply (ONE d).
  - apply Forall_map, Forall_forall. intros d I. destruct (d_types d) eqn:E; [now apply (ONE d)|constructor].
  - destruct (inherited_one mro) as [->|(d & I & E)]; [constructor|]. now apply (ONE d).
Qed.

Definition fits (ck : N -> bool) (b : body) (mro : list defined) : Prop :=
  (forall s, In s (all_slots b mro) -> ~ In s (all_restricted b mro)) /\
  (typed_among mro = true ->
    (forall l, b_types b = Some l -> Forall (decl_ok ck (all_slots b mro)) l) /\
    (forall s, In s (all_slots b mro) -> s <> DICT -> first_in (declared b mro) s <> None)).

Lemma define_ok ck b mro d : Forall (good ck) mro -> proper b -> define ck b mro = Ok d <->
  fits ck b mro /\ d = {| d_slots := all_slots b mro; d_types := if typed_among mro then Some (merge_all (declared b mro)) else None; d_restricted := all_restricted b mro |}.
Proof.
  intros G P. destruct (tables_ok ck b mro G) as (T1 & T2 & T3 & T4). unfold define, fits. fold (typed_among mro).
  assert (R : existsb (fun s => mem s (all_restricted b mro)) (all_slots b mro) = false <-> forall s, In s (all_slots b mro) -> ~ In s (all_restricted b mro)).
  { split.
    - intros E s I J. assert (X : existsb (fun s => mem s (all_restricted b mro)) (all_slots b mro) = true) by (apply existsb_exists; exists s; split; [exact I|now apply mem_in]). congruence.
    - intros H. apply Bool.not_true_iff_false. intros X. apply existsb_exists in X as (s & I & J). apply mem_in in J. now apply (H s). }
  destruct (existsb (fun s => mem s (all_restricted b mro)) (all_slots b mro)) eqn:EX.
  { split; [discriminate|]. intros [[X _] _]. apply R in X. discriminate. }
  assert (R' := proj1 R eq_refl). destruct (typed_among mro) eqn:T.
  - unfold make_types.
    assert (ND : Forall (fun l => NoDup (map fst l)) (declared b mro)) by (unfold declared; constructor; [destruct (b_types b) as [l|] eqn:E; [now apply P|exact T4]|exact T3]).
    assert (C : forall set, copy_all ck (all_slots b mro) (declared b mro) = Ok set <-> (forall l, b_types b = Some l -> Forall (decl_ok ck (all_slots b mro)) l) /\ set = merge_all (declared b mro)).
    { intros set. rewrite copy_all_ok. apply and_iff_compat_r. unfold declared. split.
      - intros F l E. rewrite E in F. now inversion F.
      - intros F. constructor; [|exact T1]. destruct (b_types b) as [l|]; [now apply F|exact T2]. }
    assert (FST : forall s, mem s (map fst (merge_all (declared b mro))) = true <-> first_in (declared b mro) s <> None).
    { intros s. rewrite mem_in, <- get_merge_all by exact ND. destruct (dict_get str_eqb (merge_all (declared b mro)) s) as [t|] eqn:E.
      - split; [discriminate|]. intros _. apply (get_in _ str_eqb_eq) in E. apply in_map_iff. exists (s, t). auto.
      - apply (get_none _ str_eqb_eq) in E. split; [contradiction|congruence]. }
    split.
    + intros H. destruct (copy_all ck (all_slots b mro) (declared b mro)) as [set|e] eqn:E; [|discriminate]. cbn [bind] in H. destruct (proj1 (C set) eq_refl) as [F ->].
      destruct (forallb _ (all_slots b mro) && _) eqn:D; [|discriminate]. cbn [bind] in H. injection H as <-. apply Bool.andb_true_iff in D as [D1 D2].
      split; [|reflexivity]. split; [exact R'|]. intros _. split; [exact F|]. intros s I N. apply FST. rewrite forallb_forall in D1. specialize (D1 s I).
      destruct (str_eqb s DICT) eqn:Q; [apply str_eqb_eq in Q; contradiction|exact D1].
    + intros [[_ X] ->]. destruct (X eq_refl) as [F Y]. rewrite (proj2 (C _) (conj F eq_refl)). cbn [bind].
      assert (D1 : forallb (fun s => str_eqb s DICT || mem s (map fst (merge_all (declared b mro)))) (all_slots b mro) = true).
      { apply forallb_forall. intros s I. destruct (str_eqb s DICT) eqn:Q; [reflexivity|]. apply FST, Y; [exact I|]. intros ->. rewrite (proj2 (str_eqb_eq _ _) eq_refl) in Q. discriminate. }
      assert (D2 : forallb (fun s => mem s (all_slots b mro)) (map fst (merge_all (declared b mro))) = true).
      { apply forallb_forall. intros s I. apply mem_in. apply in_map_iff in I as ([s' t] & <- & I). apply in_merge_all in I as (l & Il & I).
        assert (FA : Forall (Forall (decl_ok ck (all_slots b mro))) (declared b mro)) by (unfold declared; constructor; [destruct (b_types b) as [l'|]; [now apply F|exact T2]|exact T1]).
        rewrite Forall_forall in FA. specialize (FA l Il). rewrite Forall_forall in FA. apply (FA _ I). }
      rewrite D1, D2. reflexivity.
  - split.
    + intros H. injection H as <-. split; [|reflexivity]. split; [exact R'|discriminate].
    + intros [_ ->]. reflexivity.
Qed.

Lemma define_good ck b mro d : Forall (good ck) mro -> proper b -> define ck b mro = Ok d -> good ck d /\
  (forall s, type_of d s = if typed_among mro then match own_type b s with Some t => Some t | None => first_type mro s end else None).
Proof.
  intros G P H. apply define_ok in H as [[_ F] ->]; [|exact G|exact P]. destruct (tables_ok ck b mro G) as (T1 & T2 & T3 & T4).
  assert (ND : Forall (fun l => NoDup (map fst l)) (declared b mro)) by (unfold declared; constructor; [destruct (b_types b) as [l|] eqn:E; [now apply P|exact T4]|exact T3]).
  split.
  - intros l E. cbn [d_types d_slots] in *. destruct (typed_among mro) eqn:T; [|discriminate]. injection E as <-. destruct (F eq_refl) as [F1 F2].
    split; [apply (nodup_merge_all (declared b mro))|]. split.
    + apply Forall_forall. intros x I. apply (in_merge_all (declared b mro)) in I as (l & Il & I).
      assert (FA : Forall (Forall (decl_ok ck (all_slots b mro))) (declared b mro)) by (unfold declared; constructor; [destruct (b_types b) as [l'|]; [now apply F1|exact T2]|exact T1]).
      rewrite Forall_forall in FA. specialize (FA l Il). rewrite Forall_forall in FA. now apply FA.
    + intros s I N. specialize (F2 s I N). rewrite <- get_merge_all in F2 by exact ND.
      destruct (dict_get str_eqb (merge_all (declared b mro)) s) as [t|] eqn:E; [|congruence]. apply (get_in _ str_eqb_eq) in E. apply in_map_iff. exists (s, t). auto.
  - intros s. unfold type_of. cbn [d_types]. destruct (typed_among mro); [|reflexivity]. rewrite get_merge_all by exact ND. apply first_declared.
Qed.
Lemma good_fully ck d : good ck d -> is_typed d -> fully_typed ck d.
Proof.
  intros G T. unfold is_typed in T. destruct (d_types d) as [l|] eqn:E; [|congruence]. destruct (G l E) as (N & F & A). unfold fully_typed, type_of. rewrite E. rewrite Forall_forall in F. split.
  - intros s. split.
    + intros [I D]. specialize (A s I D). apply in_map_iff in A as ([s' t] & <- & A). exists t. now apply (in_get _ str_eqb_eq).
    + intros (t & H). apply (get_in _ str_eqb_eq) in H. destruct (F _ H) as (_ & D & I). auto.
  - intros s t H. apply (get_in _ str_eqb_eq) in H. now destruct (F _ H) as (C & _).
Qed.
Lemma good_roots ck : good ck slots_root /\ good ck typed_root.
Proof. split; intros l E; [discriminate|]. injection E as <-. split; [constructor|]. split; [constructor|]. intros s []. Qed.
Lemma flat_good ck env m : Forall (good ck) env -> Forall (good ck) (flat_map (fun i => match nth_error env i with Some d => [d] | None => [] end) m).
Proof.
  intros G. apply Forall_forall. intros d I. apply in_flat_map in I as (i & _ & I). destruct (nth_error env i) as [d'|] eqn:E; [|destruct I]. destruct I as [<-|[]].
  apply nth_error_In in E. rewrite Forall_forall in G. auto.
Qed.
Lemma all_good ck : forall l env, Forall (fun p => proper (fst p)) l -> Forall (good ck) env -> Forall (good ck) (define_all ck env l).
Proof.
  induction l as [|[b m] l IH]; intros env P G; [exact G|]. inversion P as [|x y Pb Pl]; subst. cbn [define_all]. apply IH; [exact Pl|].
  destruct (define ck b _) as [d|e] eqn:E; [|exact G]. apply Forall_app. split; [exact G|]. constructor; [|constructor].
  apply (define_good ck b _ d (flat_good ck env m G) Pb E).
Qed.
Lemma line_good ck : forall bs mro, Forall proper bs -> line ck bs = Some mro -> Forall (good ck) mro /\ typed_among mro = true /\ forall s, first_type mro s = nearest bs s.
Proof.
  induction bs as [|b bs IH]; intros mro P L; cbn [line] in L.
  - injection L as <-. split; [|split; reflexivity]. destruct (good_roots ck). auto.
  - inversion P as [|x y Pb Pl]; subst. destruct (line ck bs) as [m|] eqn:E; [|discriminate]. destruct (IH m Pl eq_refl) as (G & T & N).
    destruct (define ck b m) as [d|e] eqn:D; [|discriminate]. injection L as <-. destruct (define_good ck b m d G Pb D) as [Gd TD]. split; [constructor; assumption|].
    split.
    + unfold typed_among in *. cbn. rewrite T. apply Bool.orb_true_r.
    + intros s. cbn [first_type nearest]. rewrite TD, T, N. destruct (own_type b s); [reflexivity|]. now destruct (nearest bs s).
Qed.
Lemma typed_iff mro : typed_among mro = true <-> Exists is_typed mro.
Proof.
  unfold typed_among, is_typed. rewrite existsb_exists, Exists_exists. split; intros (d & I & H); exists d; (split; [exact I|]); destruct (d_types d); congruence.
Qed.
Lemma in_restricted b mro s : In s (all_restricted b mro) <-> reserved_name b mro s.
Proof.
  unfold all_restricted, reserved_name. rewrite in_app_iff, in_concat. apply or_iff_compat_l. split.
  - intros (l & A & B). apply in_map_iff in A as (d & <- & A). eauto.
  - intros (d & A & B). exists (d_restricted d). split; [now apply in_map|exact B].
Qed.
Lemma first_some mro s : first_type mro s <> None <-> exists d, In d mro /\ type_of d s <> None.
Proof.
  induction mro as [|d mro IH]; cbn; [split; [congruence|intros (d & [] & _)]|]. destruct (type_of d s) eqn:E.
  - split; [|discriminate]. intros _. exists d. split; [auto|congruence].
  - rewrite IH. split; [intros (d' & A & B); eauto|]. intros (d' & [<-|A] & B); [congruence|eauto].
Qed.
Lemma fits_iff ck b mro : Forall (good ck) mro -> proper b -> fits ck b mro <->
  (forall s, has_slot b mro s -> ~ reserved_name b mro s) /\
  (Exists is_typed mro -> (forall s t, declares b s t -> ck t = true /\ s <> DICT /\ has_slot b mro s) /\
    forall s, has_slot b mro s -> s <> DICT -> own_type b s <> None \/ exists d, In d mro /\ is_typed d /\ In s (d_slots d)).
Proof.
  intros G P. rewrite Forall_forall in G. unfold fits. rewrite <- typed_iff.
  assert (S : forall s, In s (all_slots b mro) <-> has_slot b mro s) by (intros s; apply in_all_slots).
  assert (D : forall s, s <> DICT -> first_in (declared b mro) s <> None <-> own_type b s <> None \/ exists d, In d mro /\ is_typed d /\ In s (d_slots d)).
  { intros s ND. rewrite first_declared.
    assert (F : first_type mro s <> None <-> exists d, In d mro /\ is_typed d /\ In s (d_slots d)).
    { rewrite first_some. split; intros (d & I & H); exists d; (split; [exact I|]).
      - assert (T : is_typed d) by (unfold is_typed, type_of in *; destruct (d_types d); congruence). split; [exact T|].
        destruct (good_fully ck d (G d I) T) as [A _]. destruct (type_of d s) as [t|] eqn:E; [|congruence]. apply (proj2 (A s)). eauto.
      - destruct H as [T H]. destruct (good_fully ck d (G d I) T) as [A _]. destruct (proj1 (A s) (conj H ND)) as [t ->]. discriminate. }
    destruct (own_type b s); [split; [left; discriminate|discriminate]|]. rewrite F. split; [auto|intros [X|X]; [congruence|exact X]]. }
  split.
  - intros [R T]. split; [intros s I J; apply (R s); [now apply S|now apply in_restricted]|]. intros Y. destruct (T Y) as [A B]. split.
    + intros s t (l & E & I). specialize (A l E). rewrite Forall_forall in A. destruct (A _ I) as (X & Z & W). cbn in *. rewrite <- S. auto.
    + intros s I N. apply D, B; [exact N|now apply S|exact N].
  - intros [R T]. split; [intros s I J; apply (R s); [now apply S|now apply in_restricted]|]. intros Y. destruct (T Y) as [A B]. split.
    + intros l E. apply Forall_forall. intros [s t] I. destruct (A s t) as (X & Z & W); [exists l; auto|]. repeat split; [exact X|exact Z|now apply S].
    + intros s I N. apply D, B; [exact N|now apply S|exact N].
Qed.
Lemma nodup_unique : forall l seen, NoDup (unique seen l).
Proof.
  induction l as [|x l IH]; intros seen; cbn; [constructor|]. destruct (mem x seen); [apply IH|]. constructor; [|apply IH]. rewrite in_unique. cbn. tauto.
Qed.
Lemma unique_prefix : forall l r seen, NoDup l -> (forall x, In x l -> ~ In x seen) -> exists r', unique seen (l ++ r) = l ++ r'.
Proof.
  induction l as [|x l IH]; intros r seen N D; [exists (unique seen r); reflexivity|]. inversion N; subst. cbn. destruct (mem x seen) eqn:M.
  - apply mem_in in M. exfalso. apply (D x); cbn; auto.
  - destruct (IH r (x :: seen)) as [r' E]; [assumption| |exists r'; cbn; now rewrite E]. intros y I [<-|J]; [contradiction|]. apply (D y); cbn; auto.
Qed.
Lemma get_checks (V : Type) (isi : V -> N -> bool) : forall l s, dict_get str_eqb (map (fun p => (fst p, fun v => isi v (snd p))) l) s = option_map (fun t v => isi v t) (dict_get str_eqb l s).
Proof. induction l as [|[k t] l IH]; intros s; [reflexivity|]. cbn. destruct (str_eqb k s); [reflexivity|apply IH]. Qed.
