(** * Proofs about the guards a manager hands out *)
From Coq Require Import Lia.
From Verif Require Import Base GuardModel GuardSpec ManagerModel ManagerSpec GateModel GateSpec.
Import ListNotations.

Lemma derives_in x c : derives x c = true <-> In (if x then AnExclusive else ANonExclusive) c.
Proof.
  unfold derives. rewrite existsb_exists. split.
  - intros (e & I & E). destruct e, x; try discriminate; exact I.
  - intros I. exists (if x then AnExclusive else ANonExclusive). split; [exact I|]. now destruct x.
Qed.
Lemma first_kind (x : bool) c : ordinary c -> In (if x then AnExclusive else ANonExclusive) c -> first_of own_exclusive c = Some x.
Proof.
  intros [O M]. induction c as [|e c IH]; intros I; [destruct I|]. cbn.
  assert (OC : forall y q, In (AUsers y q) c -> y = None) by (intros y q J; apply (O y q); cbn; auto).
  assert (MC : ~ (In AnExclusive c /\ In ANonExclusive c)) by (intros [J K]; apply M; cbn; auto).
  destruct e as [| | | |y q]; cbn [own_exclusive].
  - destruct x; [reflexivity|]. exfalso. destruct I as [I|I]; [discriminate|]. apply M. cbn. auto.
  - apply IH; auto. destruct I as [I|I]; [destruct x; discriminate|exact I].
  - destruct x; [|reflexivity]. exfalso. destruct I as [I|I]; [discriminate|]. apply M. cbn. auto.
  - apply IH; auto. destruct I as [I|I]; [destruct x; discriminate|exact I].
  - rewrite (O y q (or_introl eq_refl)). apply IH; auto. destruct I as [I|I]; [destruct x; discriminate|exact I].
Qed.
Lemma hand_out_ok default x t p d g : hand_out default x t p d = Ok g <->
  policy_fits x p /\ delay_fits d /\ exists n, t = Target n /\
    g = {| g_class := match p with APolicy c => c | _ => if x then exclusive_policy else non_exclusive_policy end; g_target := n;
           g_delay := match d with Delay y => y | _ => default end |}.
Proof.
  unfold hand_out, ensure_valid_policy, process_probe_delay, policy_fits, delay_fits. split.
  - intros H. destruct p as [|c|c|]; cbn [bind] in H; try discriminate.
    + split; [auto|]. destruct d as [|y| |]; cbn [bind] in H; try discriminate; [|destruct (Z.ltb_spec 0 y); [|discriminate]; cbn [bind] in H]; destruct t as [n|]; try discriminate; injection H as <-; (split; [eauto|]); exists n; auto.
    + destruct (derives x c) eqn:D; [|discriminate]. cbn [bind] in H. split; [right; exists c; split; [reflexivity|]; now apply derives_in|].
      destruct d as [|y| |]; cbn [bind] in H; try discriminate; [|destruct (Z.ltb_spec 0 y); [|discriminate]; cbn [bind] in H]; destruct t as [n|]; try discriminate; injection H as <-; (split; [eauto|]); exists n; auto.
  - intros ([->|(c & -> & I)] & D & n & -> & ->).
    + destruct D as [->|(y & -> & P)]; cbn [bind]; [reflexivity|]. apply Z.ltb_lt in P. rewrite P. reflexivity.
    + apply derives_in in I. rewrite I. destruct D as [->|(y & -> & P)]; cbn [bind]; [reflexivity|]. apply Z.ltb_lt in P. rewrite P. reflexivity.
Qed.
Lemma hand_out_kind default x t p d g : hand_out default x t p d = Ok g -> (forall c, p = APolicy c -> ordinary c) -> is_exclusive g = x.
Proof.
  intros H O. apply hand_out_ok in H as (P & _ & n & _ & ->). unfold is_exclusive. cbn [g_class].
  destruct P as [->|(c & -> & I)]; [now destruct x|]. now rewrite (first_kind x c (O c eq_refl) I).
Qed.
Lemma gates_app default a b i : gates default (a ++ b) i = match gates default a i with Some g => Some g | None => gates default b i end.
Proof.
  induction a as [|[j t p d|j t p d|c] a IH]; cbn; [reflexivity| | |exact IH];
    destruct (Nat.eqb j i); try exact IH; destruct (hand_out default _ t p d); [reflexivity|exact IH|reflexivity|exact IH].
Qed.
Lemma made_guard default prog i t : made_by_guard default prog i t -> exists g, gates default prog i = Some g /\ g_target g = t /\
  exists p d, In (Guard i (Target t) p d) prog /\ hand_out default true (Target t) p d = Ok g.
Proof.
  intros (before & p & d & rest & -> & N & g & H). exists g. rewrite gates_app, N. cbn. rewrite Nat.eqb_refl, H.
  split; [reflexivity|]. split; [apply hand_out_ok in H as (_ & _ & n & E & ->); injection E as ->; reflexivity|].
  exists p, d. split; [apply in_or_app; cbn; auto|exact H].
Qed.
Lemma made_monitor default prog i t : made_by_monitor default prog i t -> exists g, gates default prog i = Some g /\ g_target g = t /\
  exists p d, In (Monitor i (Target t) p d) prog /\ hand_out default false (Target t) p d = Ok g.
Proof.
  intros (before & p & d & rest & -> & N & g & H). exists g. rewrite gates_app, N. cbn. rewrite Nat.eqb_refl, H.
  split; [reflexivity|]. split; [apply hand_out_ok in H as (_ & _ & n & E & ->); injection E as ->; reflexivity|].
  exists p, d. split; [apply in_or_app; cbn; auto|exact H].
Qed.
Lemma gates_uses default l i : gates default (map Use l) i = None.
Proof. induction l as [|c l IH]; [reflexivity|exact IH]. Qed.
Lemma gates_then_uses default prog l i : gates default (prog ++ map Use l) i = gates default prog i.
Proof. rewrite gates_app, gates_uses. now destruct (gates default prog i). Qed.
Lemma commands_app default : forall prog before rest, commands default before (prog ++ rest) = commands default before prog ++ commands default (before ++ prog) rest.
Proof.
  induction prog as [|x prog IH]; intros before rest; cbn [app commands]; [now rewrite app_nil_r|].
  assert (E : (before ++ [x]) ++ prog = before ++ x :: prog) by (rewrite <- app_assoc; reflexivity).
  destruct x as [j t p d|j t p d|c]; try (rewrite IH, E; reflexivity). destruct (gates default before (whose c)); rewrite IH, E; reflexivity.
Qed.
Lemma commands_uses default : forall l before, (forall c, In c l -> gates default before (whose c) <> None) -> commands default before (map Use l) = l.
Proof.
  induction l as [|c l IH]; intros before G; [reflexivity|]. cbn [map commands]. destruct (gates default before (whose c)) eqn:E; [|exfalso; apply (G c); cbn; auto].
  f_equal. apply IH. intros x X. change [Use c] with (map Use [c]). rewrite gates_then_uses. apply G. cbn. auto.
Qed.
Lemma commands_in default : forall prog before c, In c (commands default before prog) -> In (Use c) prog.
Proof.
  induction prog as [|x prog IH]; intros before c I; [destruct I|]. cbn [commands] in I. destruct x as [j t p d|j t p d|c']; try (right; now apply (IH _ _ I)).
  destruct (gates default before (whose c')); [destruct I as [<-|I]; [now left|]|]; right; now apply (IH _ _ I).
Qed.
