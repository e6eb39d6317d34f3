(** * C104: the guards a manager hands out *)
From Coq Require Import Lia.
From Verif Require Import Base GuardModel GuardSpec ManagerModel ManagerSpec ManagerProofs ManagerProps GateModel GateSpec GateProofs.
Import ListNotations.

(** [guard] (and [monitor]) return a guard if and only if the policy is None or an instance of a class derived from
    the exclusive (the shared) one, the delay is None or positive, and the target can be hashed. The guard has that
    policy, that target and that delay, or the default ones. *)
Theorem C104_which_arguments : forall default exclusive t p d g,
  hand_out default exclusive t p d = Ok g <->
  policy_fits exclusive p /\ delay_fits d /\ exists n, t = Target n /\ g_target g = n /\
    g_class g = match p with APolicy c => c | _ => if exclusive then exclusive_policy else non_exclusive_policy end /\
    g_delay g = match d with Delay y => y | _ => default end.
Proof.
  intros default x t p d g. rewrite hand_out_ok. split.
  - intros (P & D & n & -> & ->). split; [exact P|]. split; [exact D|]. exists n. auto.
  - intros (P & D & n & -> & <- & C & Y). split; [exact P|]. split; [exact D|]. exists (g_target g). split; [reflexivity|]. destruct g as [c n y]. cbn in *. now subst.
Qed.
Print Assumptions C104_which_arguments.

(** Everything else is refused: a policy of the other kind, a class instead of an instance, or something else, with
    TypeError; then a delay that is not positive with ValueError, or that is no number with TypeError; then the target. *)
Theorem C104_refusals : forall default exclusive t p d,
  (~ policy_fits exclusive p -> hand_out default exclusive t p d = Err TypeErr) /\
  (policy_fits exclusive p -> ~ delay_fits d -> hand_out default exclusive t p d = Err (match d with NotANumber => TypeErr | _ => ValueErr end)) /\
  (policy_fits exclusive p -> delay_fits d -> t = NotHashable -> hand_out default exclusive t p d = Err TypeErr).
Proof.
  intros default x t p d. unfold hand_out, ensure_valid_policy, policy_fits, delay_fits, process_probe_delay. split; [|split].
  - intros N. destruct p as [|c|c|]; try reflexivity; [exfalso; auto|]. destruct (derives x c) eqn:D; [|reflexivity]. exfalso. apply N. right. exists c. split; [reflexivity|]. now apply derives_in.
  - intros P N. assert (E : exists c, match p with NoPolicy => Ok (if x then exclusive_policy else non_exclusive_policy) | APolicy c => if derives x c then Ok c else Err TypeErr | _ => Err TypeErr end = Ok c).
    { destruct P as [->|(c & -> & I)]; [eauto|]. apply derives_in in I. rewrite I. eauto. }
    destruct E as (c & ->). cbn [bind]. destruct d as [|y| |]; try reflexivity; [exfalso; auto|]. destruct (Z.ltb_spec 0 y); [|reflexivity]. exfalso. apply N. eauto.
  - intros P D ->. assert (E : exists c, match p with NoPolicy => Ok (if x then exclusive_policy else non_exclusive_policy) | APolicy c => if derives x c then Ok c else Err TypeErr | _ => Err TypeErr end = Ok c).
    { destruct P as [->|(c & -> & I)]; [eauto|]. apply derives_in in I. rewrite I. eauto. }
    destruct E as (c & ->). cbn [bind]. destruct D as [->|(y & -> & Y)]; [reflexivity|]. apply Z.ltb_lt in Y. now rewrite Y.
Qed.
Print Assumptions C104_refusals.

(** With ordinary policies, [guard] only makes exclusive guards and [monitor] only shared ones. *)
Theorem C104_guards_are_exclusive_monitors_are_not : forall default exclusive t p d g,
  (forall c, p = APolicy c -> ordinary c) -> hand_out default exclusive t p d = Ok g -> is_exclusive g = exclusive.
Proof. intros default x t p d g O H. exact (hand_out_kind default x t p d g H O). Qed.
Print Assumptions C104_guards_are_exclusive_monitors_are_not.

(** Not so for policies that inherit from both kinds: both methods take them, and the guards are all exclusive or all
    shared, as the order of the bases says. *)
Theorem C104_mixed_policies_refuted : forall default t d kind, delay_fits d ->
  exists c g, (forall exclusive, hand_out default exclusive (Target t) (APolicy c) d = Ok g) /\ is_exclusive g = kind.
Proof.
  intros default t d kind D. exists (if kind then [AUsers None None; AnExclusive; ANonExclusive] else [AUsers None None; ANonExclusive; AnExclusive]).
  exists {| g_class := if kind then [AUsers None None; AnExclusive; ANonExclusive] else [AUsers None None; ANonExclusive; AnExclusive]; g_target := t; g_delay := match d with Delay y => y | _ => default end |}.
  split; [|now destruct kind]. intros x. apply hand_out_ok. split; [|split; [exact D|eauto]].
  right. eexists. split; [reflexivity|]. destruct kind, x; cbn; auto.
Qed.
Print Assumptions C104_mixed_policies_refuted.

(** Whatever a program does with a manager, while a context made by [guard] runs, no other context on that target does. *)
Theorem C104_guarded_blocks_run_alone : forall default prog i j t,
  ordinary_program prog -> self_queueing default prog -> made_by_guard default prog i t ->
  (made_by_guard default prog j t \/ made_by_monitor default prog j t) ->
  busy (fst (perform_program default prog)) i -> busy (fst (perform_program default prog)) j -> j = i.
Proof.
  intros default prog i j t O _ MI MJ Bi Bj. destruct (made_guard _ _ _ _ MI) as (g & Gi & Ti & p & d & I & H).
  assert (TJ : exists h, gates default prog j = Some h /\ g_target h = t) by (destruct MJ as [MJ|MJ]; [destruct (made_guard _ _ _ _ MJ) as (h & A & B & _)|destruct (made_monitor _ _ _ _ MJ) as (h & A & B & _)]; eauto).
  destruct TJ as (h & Gj & Tj). unfold perform_program in *.
  eapply (C39_exclusion_per_target _ _ (commands default [] prog) i j); [| |exact Bi|exact Bj].
  - cbn beta. rewrite Gi. apply (hand_out_kind _ _ _ _ _ _ H). intros c ->. apply (O i (Target t) c d). now left.
  - cbn beta. rewrite Gi, Gj. congruence.
Qed.
Print Assumptions C104_guarded_blocks_run_alone.

(** If a program only enters guards it has made, each once, and every one keeps getting its turn, all get through
    their blocks, and then the manager knows no target. *)
Theorem C104_everyone_gets_through : forall default prog gs rounds,
  self_queueing default prog -> NoDup gs -> (forall i, In i gs -> gates default prog i <> None) ->
  (forall c, In (Use c) prog -> exists i, c = Go i /\ In i gs) ->
  (forall b, In b rounds -> mround gs b) -> 30 * length gs + 2 <= length rounds ->
  let '(t, m) := perform_program default (prog ++ map Use (concat rounds)) in
  (forall i, In i gs -> In (Entered i) t /\ In (Left i) t) /\ forall u, targets m u = None.
Proof.
  intros default prog gs rounds _ N M U R L. unfold perform_program.
  assert (E : commands default [] (prog ++ map Use (concat rounds)) = commands default [] prog ++ concat rounds).
  { rewrite commands_app. f_equal. apply commands_uses. intros c I. apply in_concat in I as (b & Ib & I). destruct (proj1 (R b Ib) c I) as (i & -> & G). cbn. now apply M. }
  rewrite E. match goal with |- context [manage ?e ?o _ nobody] => destruct (C39_everyone_gets_through_and_is_forgotten e o gs (commands default [] prog) rounds N) as [A B] end; [|exact R|exact L|].
  - intros c I. apply U. now apply (commands_in default prog []).
  - unfold seen, reached in *. match goal with |- context [manage ?e ?o ?l nobody] => destruct (manage e o l nobody) as [t m] end. split; [exact A|exact B].
Qed.
Print Assumptions C104_everyone_gets_through.

(** Two monitors and a guard on one target, and a policy of the wrong kind. The monitors run together, the guard after them. *)
Definition ex_program : list call :=
  [Monitor 0 (Target 7) NoPolicy NoDelay; Monitor 1 (Target 7) (APolicy non_exclusive_policy) (Delay 3);
   Guard 2 (Target 7) (APolicy (AUsers None None :: exclusive_policy)) NoDelay; Guard 3 (Target 7) (APolicy non_exclusive_policy) NoDelay].
Definition ex_uses (n : nat) : list call := map Use (concat (repeat [Go 0; Go 1; Go 2] n)).
Example C104_case :
  ordinary_program (ex_program ++ ex_uses 9) /\ self_queueing 1 (ex_program ++ ex_uses 9) /\
  made_by_guard 1 (ex_program ++ ex_uses 9) 2 7 /\ made_by_monitor 1 (ex_program ++ ex_uses 9) 0 7 /\
  gates 1 ex_program 3 = None /\
  fst (perform_program 1 (ex_program ++ ex_uses 8 ++ map Use (repeat (Go 1) 2))) = [Joined 0; Joined 1; Joined 2; Entered 0; Entered 1] /\
  busy (fst (perform_program 1 (ex_program ++ ex_uses 13))) 2 /\
  hand_out 1 true (Target 7) (APolicy non_exclusive_policy) NoDelay = Err TypeErr /\
  hand_out 1 true (Target 7) (AClass exclusive_policy) NoDelay = Err TypeErr /\
  hand_out 1 false (Target 7) NoPolicy (Delay 0) = Err ValueErr.
Proof.
  split; [|split; [|split; [|split]]].
  - intros i t c d H. assert (H' : In c [non_exclusive_policy; AUsers None None :: exclusive_policy]).
    { unfold ex_program, ex_uses in H. rewrite !in_app_iff, !in_map_iff in H. cbn [In] in H. cbn [In].
      destruct H as [[H|(x & H & _)]|[H|(x & H & _)]]; try discriminate; repeat (destruct H as [H|H]); try discriminate H; try contradiction; injection H; intros; subst; auto. }
    destruct H' as [<-|[<-|[]]]; split; cbn; intuition congruence.
  - intros i g H. unfold ex_uses in H. rewrite gates_then_uses in H. do 4 (destruct i as [|i]; [cbn in H; first [discriminate | injection H as <-; reflexivity]|]). discriminate.
  - exists [Monitor 0 (Target 7) NoPolicy NoDelay; Monitor 1 (Target 7) (APolicy non_exclusive_policy) (Delay 3)]. repeat eexists.
  - exists []. repeat eexists.
  - split; [reflexivity|]. split; [vm_compute; reflexivity|]. split; [|repeat split].
    assert (E : fst (perform_program 1 (ex_program ++ ex_uses 13)) = [Joined 0; Joined 1; Joined 2; Entered 0; Left 0; Entered 1; Left 1; Entered 2]) by (vm_compute; reflexivity).
    unfold busy. rewrite E. cbn [In]. split; [auto 12|]. intros X. repeat (destruct X as [X|X]; [discriminate|]). exact X.
Qed.
