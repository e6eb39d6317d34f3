(** * Replacing modules: proofs *)
From Coq Require Import Strings.String.
From Verif Require Import Base BaseFacts StrModel StrFacts RemakeModel RemakeSpec.
Open Scope list_scope.
Notation get := (dict_get str_eqb).
Notation set := (dict_set str_eqb).

Lemma package_ind2 (P : package -> Prop) (H : forall p, (forall n q, In (n, q) (below p) -> P q) -> P p) : forall p, P p.
Proof.
  fix IH 1. intros [api subs mods]. apply H. cbn. intros n q I. apply in_app_or in I as [I|I].
  - induction subs as [|[m r] subs IHs]; [destruct I|]. destruct I as [E|I]; [|exact (IHs I)]. injection E as _ E. subst q. apply IH.
  - apply in_map_iff in I as ([? m] & E & _). injection E as _ E. subst q. apply H. intros ? ? [].
Qed.

Fixpoint loop (l : list (str * package)) (api : names_of) (sys : modules) : result (names_of * modules) :=
  match l with
  | [] => Ok (api, sys)
  | (n, q) :: l => ' (v, sys1) <- remake_subpackage q sys ;; loop l (set api n v) sys1
  end.
Lemma loop_app l : forall l' api sys, loop (l ++ l') api sys = ' (a, s) <- loop l api sys ;; loop l' a s.
Proof.
  induction l as [|[n q] l IH]; intros l' api sys; [reflexivity|]. cbn [app loop]. destruct (remake_subpackage q sys) as [[v s]|e]; cbn; [apply IH|reflexivity].
Qed.
Lemma loop_mods l : forall api sys, loop (map (fun nm => (fst nm, Package (snd nm) [] [])) l) api sys = remake_modules l api sys.
Proof.
  induction l as [|[n m] l IH]; intros api sys; [reflexivity|]. cbn. destruct (remake_module m sys) as [[v s]|e]; cbn; [apply IH|reflexivity].
Qed.
Lemma remake_loop p sys : remake_subpackage p sys = ' (a, s) <- loop (below p) (api_of p) sys ;; remake_module a s.
Proof.
  destruct p as [api subs mods]. cbn [below api_of]. rewrite loop_app.
  change (remake_subpackage (Package api subs mods) sys) with (' (api1, sys1) <- loop subs api sys ;; ' (api2, sys2) <- remake_modules mods api1 sys1 ;; remake_module api2 sys2).
  destruct (loop subs api sys) as [[a s]|e]; cbn; [|reflexivity]. now rewrite loop_mods.
Qed.
Lemma names_below p : all_names p = flat_map (fun nq => all_names (snd nq)) (below p) ++ own_name (api_of p).
Proof.
  destruct p as [api subs mods]. cbn. rewrite flat_map_app, <- app_assoc. f_equal. f_equal.
  induction mods as [|[n m] mods IH]; cbn; [reflexivity|]. now rewrite IH.
Qed.

Definition good (p : package) (v : value) (sys : modules) : Prop := forall l q, at_path p l q ->
  exists d name, walk v l = Some (Frozen d) /\ import_name q = Some name /\ get sys name = Some d /\
    forall a, ~ In a (map fst (below q)) -> get d a = match get (api_of q) a with Some x => Some x | None => get (blank name) a end.

Lemma path_name p l q : at_path p l q -> forall n, import_name q = Some n -> In n (all_names p).
Proof.
  induction 1 as [p|p n q l r I A IH]; intros m E; rewrite names_below; apply in_or_app.
  - right. unfold import_name in E. unfold own_name. destruct (get (api_of p) (lit "__name__")) as [[]|]; try discriminate. injection E as ->. now left.
  - left. apply in_flat_map. exists (n, q). split; [exact I|]. now apply IH.
Qed.
Lemma good_frame p v s s' : good p v s -> (forall n, In n (all_names p) -> get s' n = get s n) -> good p v s'.
Proof.
  intros G F l q A. destruct (G l q A) as (d & n & W & N & S & B). exists d, n. repeat split; auto. rewrite F; [exact S|]. eapply path_name; eauto.
Qed.
Lemma get_update (items : names_of) : forall (d : names_of) (k : str), NoDup (map fst items) -> get (dict_update str_eqb d items) k = match get items k with Some x => Some x | None => get d k end.
Proof.
  unfold dict_update. induction items as [|[k' v] items IH]; intros d k N; [reflexivity|]. inversion_clear N as [|? ? N1 N2]. cbn [fold_left fst snd].
  rewrite IH by assumption. cbn [dict_get]. rewrite (get_set (V := value) str_eqb str_eqb_eq). destruct (str_eqb k' k) eqn:E; [|reflexivity].
  apply str_eqb_eq in E as ->. now rewrite (proj2 (get_none (V := value) str_eqb str_eqb_eq items k) N1).
Qed.
Definition done (p : package) : Prop := forall sys v sys', tidy p -> NoDup (all_names p) -> remake_subpackage p sys = Ok (v, sys') ->
  (forall n, ~ In n (all_names p) -> get sys' n = get sys n) /\ good p v sys'.

Lemma nodup_app {A} (x y : list A) : NoDup (x ++ y) -> NoDup x /\ NoDup y /\ forall a, In a x -> ~ In a y.
Proof.
  induction x as [|b x IH]; cbn; intros N; [split; [constructor|]; split; [exact N|]; tauto|]. inversion_clear N as [|? ? N1 N2].
  destruct (IH N2) as (P & Q & R). split; [constructor; [|exact P]; intros I; apply N1; apply in_or_app; now left|]. split; [exact Q|].
  intros a [<-|I]; [|now apply R]. intros I. apply N1. apply in_or_app. now right.
Qed.
Lemma loop_done l : forall api sys api' sys', (forall n q, In (n, q) l -> done q /\ tidy q) -> NoDup (map fst l) ->
  NoDup (flat_map (fun nq => all_names (snd nq)) l) -> loop l api sys = Ok (api', sys') ->
  (forall n, ~ In n (flat_map (fun nq => all_names (snd nq)) l) -> get sys' n = get sys n) /\
  (forall a, ~ In a (map fst l) -> get api' a = get api a) /\ (NoDup (map fst api) -> NoDup (map fst api')) /\
  (forall n q, In (n, q) l -> exists v, get api' n = Some v /\ good q v sys').
Proof.
  induction l as [|[n q] l IH]; intros api sys api' sys' H D N E; cbn [loop] in E.
  - injection E as <- <-. repeat split; auto. intros ? ? [].
  - destruct (remake_subpackage q sys) as [[v s]|e] eqn:R; [|discriminate]. cbn in E. cbn [map fst flat_map snd] in D, N.
    inversion_clear D as [|? ? D1 D2]. apply nodup_app in N as (N1 & N2 & N3). destruct (H n q (or_introl eq_refl)) as [Q T].
    destruct (Q sys v s T N1 R) as [F G].
    destruct (IH (set api n v) s api' sys' (fun a b I => H a b (or_intror I)) D2 N2 E) as (F2 & K & U & G2).
    split; [|split; [|split]].
    + intros m M. cbn [flat_map snd] in M. rewrite F2, F; auto; intros I; apply M; apply in_or_app; auto.
    + intros a A. cbn in A. rewrite K by tauto. rewrite (get_set (V := value) str_eqb str_eqb_eq). destruct (str_eqb n a) eqn:X; [|reflexivity].
      apply str_eqb_eq in X. tauto.
    + intros Y. apply U. now apply (nodup_set (V := value) str_eqb str_eqb_eq).
    + intros m r [X|I]; [|now apply G2]. injection X as <- <-. exists v. split.
      * rewrite K by assumption. rewrite (get_set (V := value) str_eqb str_eqb_eq). now rewrite str_eqb_refl.
      * eapply good_frame; [exact G|]. intros m M. apply F2. now apply N3.
Qed.
Theorem all_done p : done p.
Proof.
  induction p as [p IH] using package_ind2. intros sys v sys' T N E. rewrite names_below in N. apply nodup_app in N as (N1 & N2 & N3).
  inversion T as [p' A1 A2 A3 A4 EQ]. subst p'. rewrite remake_loop in E. destruct (loop (below p) (api_of p) sys) as [[a s]|e] eqn:L; [|discriminate].
  destruct (loop_done (below p) (api_of p) sys a s) as (F & K & U & G); auto. { intros n q I. split; eauto. }
  cbn in E. unfold remake_module in E. rewrite (K _ A3) in E. pose proof (U A1) as A5.
  assert (own_name (api_of p) = own_name (api_of p)) as ON by reflexivity. unfold own_name at 1 in ON.
  destruct (get (api_of p) (lit "__name__")) as [x|] eqn:X; [|discriminate]. destruct x as [nm| | |]; try discriminate.
  unfold make_module in E. injection E as <- <-. set (d := dict_update str_eqb (blank nm) a).
  assert (In nm (own_name (api_of p))) as ME by (rewrite <- ON; now left).
  split.
  - intros n M. rewrite names_below in M. rewrite (get_set (V := names_of) str_eqb str_eqb_eq). destruct (str_eqb nm n) eqn:Q.
    + apply str_eqb_eq in Q as <-. exfalso. apply M, in_or_app. now right.
    + apply F. intros I. apply M, in_or_app. now left.
  - intros l q A. inversion A as [p'|p' n q' l' r I B]; subst.
    + exists d, nm. split; [reflexivity|]. split; [unfold import_name; now rewrite X|].
      split; [rewrite (get_set (V := names_of) str_eqb str_eqb_eq); now rewrite str_eqb_refl|].
      intros k Y. unfold d. rewrite get_update by assumption. now rewrite K.
    + destruct (G n q' I) as (u & W & GU).
      assert (good q' u (set s nm d)) as GU2.
      { eapply good_frame; [exact GU|]. intros m M. rewrite (get_set (V := names_of) str_eqb str_eqb_eq). destruct (str_eqb nm m) eqn:Q; [|reflexivity].
        apply str_eqb_eq in Q as <-. exfalso. apply (N3 nm); [|exact ME]. apply in_flat_map. exists (n, q'). auto. }
      destruct (GU2 l' q B) as (d2 & n2 & W2 & R). exists d2, n2. split; [|exact R]. cbn [walk]. unfold d. rewrite get_update by assumption.
      rewrite W. exact W2.
Qed.
Lemma loop_keeps l : forall api sys api' sys' a, loop l api sys = Ok (api', sys') -> ~ In a (map fst l) -> get api' a = get api a.
Proof.
  induction l as [|[n q] l IH]; intros api sys api' sys' a E N; cbn [loop] in E; [now injection E as <- <-|].
  destruct (remake_subpackage q sys) as [[v s]|e]; [|discriminate]. cbn in E. cbn in N. rewrite (IH _ _ _ _ a E) by tauto.
  rewrite (get_set (V := value) str_eqb str_eqb_eq). destruct (str_eqb n a) eqn:X; [|reflexivity]. apply str_eqb_eq in X. tauto.
Qed.
Lemma succeeds p : forall sys, tidy p -> (forall l q, at_path p l q -> import_name q <> None) -> exists r, remake_subpackage p sys = Ok r.
Proof.
  induction p as [p IH] using package_ind2. intros sys T N. inversion T as [p' A1 A2 A3 A4 EQ]. subst p'. rewrite remake_loop.
  assert (forall l api s, (forall n q, In (n, q) l -> In (n, q) (below p)) -> exists r, loop l api s = Ok r) as L.
  { induction l as [|[n q] l IHl]; intros api s I; cbn [loop]; [eexists; reflexivity|].
    assert (In (n, q) (below p)) as J by (apply I; now left). destruct (IH n q J s (A4 n q J)) as ([v s1] & ->).
    { intros l' r A. eapply N. econstructor; eauto. }
    cbn. apply IHl. intros a b K. apply I. now right. }
  destruct (L (below p) (api_of p) sys (fun _ _ I => I)) as ([a s] & E). rewrite E. cbn. unfold remake_module.
  rewrite (loop_keeps _ _ _ _ _ _ E A3). pose proof (N [] p (Here p)) as M. unfold import_name in M.
  destruct (get (api_of p) (lit "__name__")) as [[]|]; try congruence. eexists. reflexivity.
Qed.
