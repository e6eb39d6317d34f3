(** * Salt files: the theorems of C56 and C57 *)
From Verif Require Import Base SaltModel SaltSpec SaltProofs.
Local Open Scope N_scope.

Definition a_salt : bytes := repeat x01 32.
Definition another_salt : bytes := repeat x02 40.
Definition usual : N := 420.       (* 0o644 *)
Definition same_process (_ : nat) : nat := 0%nat.

Lemma begin_make t r : (blen t <? 32) = false -> begin (Make [] t) r =
  {| current := Make [] t;
     now := [(false, Enter true); (false, Truncate); (false, Write t); (false, Chmod CLOSED); (true, Leave)];
     later := r; got := None; failure := None |}.
Proof. intros Z. unfold begin. cbn [code]. change MIN_SALT with 32. now rewrite Z. Qed.
Lemma begin_update t r : (blen t <? 32) = false -> begin (Update t) r =
  {| current := Update t;
     now := [(false, Enter true); (false, Chmod OPENED); (false, Truncate); (false, Write t);
             (true, Chmod CLOSED); (true, Leave)];
     later := r; got := None; failure := None |}.
Proof. intros Z. unfold begin. cbn [code]. change MIN_SALT with 32. now rewrite Z. Qed.

Ltac find := repeat split; repeat (first [left; reflexivity | right]).

(** ** C56: any sequence of calls, one at a time

    The results are those of a variable that is missing or holds a salt, and after
    every call the file holds at least 32 bytes and is closed. *)
Theorem C56_one_at_a_time : forall privileged created need process l d s,
  Forall file_call l -> settled need d s ->
  exists d', calls_alone privileged created need process l d = (fst (answers privileged l s), d') /\
    settled need d' (snd (answers privileged l s)).
Proof. intros. now apply calls_alone_answers. Qed.
Print Assumptions C56_one_at_a_time.

Example C56_one_at_a_time_applies :
  let l := [Read; Make [] a_salt; Read; Make another_salt []; Update another_salt; Read; Update [x01]; Delete; Delete] in
  Forall file_call l /\ settled 1 {| dirs := 1; file := None |} None /\
  calls_alone false usual 1 same_process l {| dirs := 1; file := None |} =
  ([Err FileNotFoundErr; Ok None; Ok (Some a_salt); Err PermissionErr; Ok None; Ok (Some another_salt); Err ValueErr;
    Ok None; Err FileNotFoundErr],
   {| dirs := 1; file := None |}).
Proof.
  cbv zeta. split; [|split].
  - do 9 (apply Forall_cons; [exact I|]). constructor.
  - now split.
  - vm_compute. reflexivity.
Qed.

(** ** C56: any number of threads of one process, any schedule

    The calls have the results they would have one after the other in the order in
    which they end, except that a reader may be refused if the user is not the
    superuser and two threads were in their blocks at the same time.  Whenever no
    thread is in a block the file holds at least 32 bytes and is closed. *)
Theorem C56_any_schedule : forall privileged created need process calls d s l,
  (forall i j, process i = process j) ->
  (forall i, Forall file_call (calls i)) -> settled need d s ->
  let es := fst (run privileged created need process l (launch calls d)) in
  let w := snd (run privileged created need process l (launch calls d)) in
  exists s',
    history privileged
      (privileged = false /\
       exists l1 l2, l = l1 ++ l2 /\
         (2 <= length (inside (snd (run privileged created need process l1 (launch calls d)))))%nat) s es s' /\
    (inside w = [] -> settled need (disk w) s').
Proof.
  intros pr cr need process calls d s l OP A S es w.
  destruct (run_inv pr cr need process OP file_call (fun c H => H) (fun _ H => H) l False _ s
    (launch_inv pr cr need file_call calls d s S A)) as (s' & H & I & _).
  exists s'. split.
  - eapply history_weaken; [|exact H]. intros [H1 [[]|H2]]. now split.
  - intros Q. destruct (i_file _ _ _ _ _ _ _ I) as [(i & d' & E & _)|SH]; [fold w in E; congruence|].
    eapply shared_settled; [apply I|exact Q|exact SH].
Qed.
Print Assumptions C56_any_schedule.

(** Two threads that update and read. *)
Example C56_any_schedule_applies :
  let calls i := match i with 0%nat => [Update another_salt] | 1%nat => [Read] | _ => [] end in
  let d := {| dirs := 1; file := Some (a_salt, 0) |} in
  let r := run false usual 1 same_process (concat (repeat [1; 0]%nat 20)) (launch calls d) in
  (forall i, Forall file_call (calls i)) /\ settled 1 d (Some a_salt) /\
  fst r = [Done 1 Read (Ok (Some a_salt)); Done 0 (Update another_salt) (Ok None)] /\ inside (snd r) = [] /\
  disk (snd r) = {| dirs := 1; file := Some (another_salt, 0) |}.
Proof.
  cbv zeta. split; [|split; [|split; [|split]]].
  - intros [|[|i]]; try apply Forall_nil; (apply Forall_cons; [exact I|apply Forall_nil]).
  - split; [reflexivity|]. split; [reflexivity|]. vm_compute. discriminate.
  - vm_compute. reflexivity.
  - vm_compute. reflexivity.
  - vm_compute. reflexivity.
Qed.

(** Readers do fail: two threads that only read a salt file, if the first closes the
    file between the second one's opening of the permissions and its reading. *)
Theorem C56_readers_never_fail_refuted : forall created process x,
  32 <= blen x ->
  exists l, In (Done 1 Read (Err PermissionErr))
    (fst (run false created 0 process l (launch (fun _ => [Read]) {| dirs := 0; file := Some (x, 0) |}))).
Proof.
  intros created process x Z. exists ([0; 1; 0; 1; 0; 1; 0; 0; 1; 1; 1])%nat.
  cbn -[blen N.ltb]. change MIN_SALT with 32. rewrite !orb_true_r. cbn -[blen N.ltb]. change MIN_SALT with 32.
  rewrite (proj2 (N.ltb_ge _ _) Z). cbn. tauto.
Qed.
Print Assumptions C56_readers_never_fail_refuted.

(** The contents survive a crash at any point of any schedule of readers. *)
Theorem C56_crash_while_reading : forall privileged created need process calls d x l,
  (forall i j, process i = process j) ->
  (forall i, Forall (fun c => c = Read) (calls i)) -> settled need d (Some x) ->
  exists mode, file (disk (snd (run privileged created need process l (launch calls d)))) = Some (x, mode).
Proof.
  intros pr cr need process calls d x l OP A S.
  destruct (run_inv pr cr need process OP (fun c => c = Read)
    ltac:(intros c ->; exact I) ltac:(discriminate) l False _ (Some x)
    (launch_inv pr cr need _ calls d (Some x) S A)) as (s' & H & V & E).
  assert (X : s' = Some x).
  { remember (Some x) as s0 eqn:S0. rewrite S0. clear - H E S0. induction H; [exact S0| | |].
    - specialize (E i (EnsureFile token) (Ok None) (or_introl eq_refl)). discriminate.
    - assert (c = Read) as -> by (eapply E; now left). subst s. cbn in H0. injection H0 as <- <-.
      apply IHhistory; [reflexivity|intros; eapply E; right; eassumption].
    - apply IHhistory; [exact S0|intros; eapply E; right; eassumption]. }
  subst s'. destruct (i_file _ _ _ _ _ _ _ V) as [(i & d' & _ & _ & NR & PR & _)|[_ (m & F & _)]]; [contradiction|].
  now exists m.
Qed.
Print Assumptions C56_crash_while_reading.

Example C56_crash_while_reading_applies :
  settled 0 {| dirs := 0; file := Some (a_salt, 0) |} (Some a_salt) /\
  disk (snd (run false usual 0 same_process [0; 0; 0]%nat (launch (fun _ => [Read]) {| dirs := 0; file := Some (a_salt, 0) |})))
  = {| dirs := 0; file := Some (a_salt, 384) |}.
Proof. split; [|reflexivity]. split; [reflexivity|]. split; [reflexivity|]. vm_compute. discriminate. Qed.

(** Not so while it is made: a crash after the file was opened leaves an empty file,
    which counts as made.  No later opening ever obtains a salt. *)
Theorem C56_crash_while_making_refuted : forall privileged created need process process' token l,
  32 <= blen token ->
  (forall c, In c l -> c = Read \/ exists t, c = EnsureFile t) ->
  let d := disk (snd (run privileged created need process [0; 0; 0]%nat
                        (launch (fun _ => [Make [] token]) {| dirs := need; file := None |}))) in
  forall r, In r (fst (calls_alone privileged created need process' l d)) -> r = Ok None \/ r = Err ValueErr.
Proof.
  intros pr cr need process process' token l Z A d.
  assert (D : exists m, d = {| dirs := need; file := Some ([], m) |}).
  { exists cr. subst d. cbn -[begin]. rewrite begin_make by now apply N.ltb_ge.
    cbn -[Nat.ltb]. now rewrite Nat.ltb_irrefl. }
  clearbody d. revert d D. induction l as [|c l IH]; intros d (m & ->) r R; [destruct R|].
  cbn [calls_alone] in R.
  assert (E : exists r0 m0, alone pr cr need process' c {| dirs := need; file := Some ([], m) |} =
     (r0, {| dirs := need; file := Some ([], m0) |}) /\ (r0 = Ok None \/ r0 = Err ValueErr)).
  { destruct (A c (or_introl eq_refl)) as [->|[t ->]].
    - exists (Err ValueErr), 0. split; [|now right]. unfold alone, launch, idle.
      cbn -[may_read]. rewrite opened_readable. reflexivity.
    - exists (Ok None), m. split; [|now left]. reflexivity. }
  destruct E as (r0 & m0 & E & C). rewrite E in R.
  destruct (calls_alone pr cr need process' l {| dirs := need; file := Some ([], m0) |}) as [rs d'] eqn:Q. destruct R as [<-|R]; [exact C|].
  eapply IH; [intros; apply A; now right| |rewrite Q; exact R]. now exists m0.
Qed.
Print Assumptions C56_crash_while_making_refuted.

(** And an update that is cut short can leave a salt that is neither the old nor the
    new one. *)
Theorem C56_crash_while_updating_refuted : forall privileged created need process x y n,
  32 <= N.of_nat n -> (n < length y)%nat -> x <> firstn n y ->
  let w := snd (run privileged created need process [0; 0; 0; 0]%nat
                 (launch (fun _ => [Update y]) {| dirs := need; file := Some (x, 0) |})) in
  exists z, fst (alone privileged created need process Read (disk (torn_write privileged created need 0 n w))) = Ok (Some z) /\
    z <> x /\ z <> y.
Proof.
  intros pr cr need process x y n Z L NE w. exists (firstn n y).
  assert (LN : length (firstn n y) = n) by (apply firstn_length_le; lia).
  split; [|split; [congruence|intros E; apply (f_equal (@length byte)) in E; lia]].
  assert (W : disk (torn_write pr cr need 0 n w) = {| dirs := need; file := Some (firstn n y, 384) |}).
  { subst w. cbn -[begin torn_write].
    assert (YZ : (blen y <? 32) = false) by (apply N.ltb_ge; unfold blen; lia). rewrite begin_update by exact YZ.
    cbn -[blen N.ltb may_write torn_write Nat.ltb]. rewrite Nat.ltb_irrefl, opened_writable.
    cbn -[firstn skipn]. rewrite skipn_nil', app_nil_r. reflexivity. }
  rewrite W. unfold alone, launch, idle. cbn -[may_read blen N.ltb firstn]. rewrite opened_readable. change MIN_SALT with 32.
  assert (YZ : (blen (firstn n y) <? 32) = false) by (apply N.ltb_ge; unfold blen; lia). rewrite YZ. reflexivity.
Qed.
Print Assumptions C56_crash_while_updating_refuted.

Example C56_crash_while_updating_applies : 32 <= N.of_nat 36 /\ (36 < length another_salt)%nat /\ a_salt <> firstn 36 another_salt.
Proof. split; [vm_compute; discriminate|]. split; [vm_compute; lia|]. vm_compute. discriminate. Qed.

(** Deleting a salt file asynchronously while another task of the same loop reads it
    stops the loop for good: nobody ever gets anywhere. *)
Theorem C56_async_delete_waits_refuted : forall privileged created need process d,
  (forall i j, process i = process j) ->
  let calls i := match i with 0%nat => [Read] | _ => [Delete] end in
  let w := snd (loop privileged created need process [0; 1]%nat [0; 0; 1]%nat (launch calls d)) in
  forall l, loop privileged created need process [0; 1]%nat l w = ([], w).
Proof.
  intros pr cr need process d OP calls w.
  assert (S : forall i, loop_step pr cr need process [0; 1]%nat i w = ([], w)).
  { intros i. subst w calls. cbn. rewrite (OP 0%nat 1%nat), Nat.eqb_refl. reflexivity. }
  induction l as [|i l IH]; [reflexivity|]. cbn [loop]. rewrite S, IH. reflexivity.
Qed.
Print Assumptions C56_async_delete_waits_refuted.

(** ** C57

    Threads of one process, the user not being the superuser: whatever was there and
    whoever comes first, all that obtain a salt obtain the same one. *)
Theorem C57_one_salt_partial : forall created need process calls d s l,
  (forall i j, process i = process j) ->
  (forall i c, In c (calls i) -> c = Read \/ exists t, c = EnsureFile t) -> settled need d s ->
  exists x, forall i y,
    In (Done i Read (Ok y)) (fst (run false created need process l (launch calls d))) -> y = Some x.
Proof.
  intros cr need process calls d s l OP A S.
  destruct (run_inv false cr need process OP opening
    ltac:(intros c O; destruct c; cbn in *; tauto) (fun _ H => I) l False _ s
    (launch_inv false cr need opening calls d s S
      ltac:(intros i; apply Forall_forall; intros c C; destruct (A i c C) as [->|[t ->]]; exact I))) as (s' & H & V & E).
  exact (history_one_salt _ _ _ _ H E).
Qed.
Print Assumptions C57_one_salt_partial.

Definition two_openers (depth : nat) (t1 t2 : bytes) (i : nat) : list call :=
  match i with 0%nat => open_salt depth t1 | 1%nat => open_salt depth t2 | _ => [] end.

Example C57_one_salt_applies :
  let d := {| dirs := 0; file := None |} in
  (forall i c, In c (two_openers 0 a_salt another_salt i) -> c = Read \/ exists t, c = EnsureFile t) /\ settled 0 d None /\
  In (Done 1 Read (Ok (Some another_salt)))
    (fst (run false usual 0 same_process (repeat 1 20 ++ repeat 0 20)%nat (launch (two_openers 0 a_salt another_salt) d))) /\
  In (Done 0 Read (Ok (Some another_salt)))
    (fst (run false usual 0 same_process (repeat 1 20 ++ repeat 0 20)%nat (launch (two_openers 0 a_salt another_salt) d))).
Proof.
  cbv zeta. split; [|split; [|split]].
  - intros [|[|i]] c; cbn; intros C; repeat (destruct C as [<-|C]; [eauto|]); destruct C.
  - now split.
  - vm_compute. find.
  - vm_compute. find.
Qed.

(** Tokens are 32 bytes long (_paths.py 159, 176). *)
Ltac thirty_two t H := do 32 (destruct t as [|? t]; [discriminate H|]); destruct t; [|discriminate H].

(** The superuser, first use: the second thread, which saw no file, overwrites the
    salt that the first has already obtained. *)
Theorem C57_superuser_refuted : forall created process t1 t2,
  length t1 = 32%nat -> length t2 = 32%nat ->
  exists l,
    In (Done 0 Read (Ok (Some t1))) (fst (run true created 0 process l (launch (two_openers 0 t1 t2) {| dirs := 0; file := None |}))) /\
    In (Done 1 Read (Ok (Some t2))) (fst (run true created 0 process l (launch (two_openers 0 t1 t2) {| dirs := 0; file := None |}))).
Proof.
  intros created process t1 t2 Z1 Z2. exists ([0; 1] ++ repeat 0 12 ++ repeat 1 12)%nat.
  thirty_two t1 Z1. thirty_two t2 Z2. vm_compute. find.
Qed.
Print Assumptions C57_superuser_refuted.

(** Other users: that thread fails. *)
Theorem C57_everyone_obtains_it_refuted : forall created process t1 t2,
  length t1 = 32%nat -> length t2 = 32%nat ->
  exists l, In (Done 1 (Make [] t2) (Err PermissionErr))
    (fst (run false created 0 process l (launch (two_openers 0 t1 t2) {| dirs := 0; file := None |}))).
Proof.
  intros created process t1 t2 Z1 Z2. exists ([0; 1] ++ repeat 0 12 ++ repeat 1 12)%nat.
  thirty_two t1 Z1. thirty_two t2 Z2. vm_compute. find.
Qed.
Print Assumptions C57_everyone_obtains_it_refuted.

(** Two processes, no superuser: each obtains its own salt. *)
Theorem C57_processes_refuted : forall t1 t2,
  length t1 = 32%nat -> length t2 = 32%nat ->
  let process i := i in
  exists l,
    In (Done 0 Read (Ok (Some t1))) (fst (run false usual 0 process l (launch (two_openers 0 t1 t2) {| dirs := 0; file := None |}))) /\
    In (Done 1 Read (Ok (Some t2))) (fst (run false usual 0 process l (launch (two_openers 0 t1 t2) {| dirs := 0; file := None |}))).
Proof.
  intros t1 t2 Z1 Z2 process. exists ([0; 1; 0; 0; 0; 1; 1; 1] ++ repeat 0 9 ++ repeat 1 9)%nat.
  thirty_two t1 Z1. thirty_two t2 Z2. vm_compute. find.
Qed.
Print Assumptions C57_processes_refuted.

Example C57_processes_applies : length a_salt = 32%nat /\ length (repeat x02 32) = 32%nat /\ a_salt <> repeat x02 32.
Proof. split; [reflexivity|]. split; [reflexivity|]. vm_compute. discriminate. Qed.

(** The directories of the file, first use: the second thread to make one fails. *)
Theorem C57_directories_refuted : forall privileged created process t1 t2,
  exists l, In (Done 1 (MakeDir 0) (Err OtherErr))
    (fst (run privileged created 1 process l (launch (two_openers 1 t1 t2) {| dirs := 0; file := None |}))).
Proof. intros. exists [0; 1; 0; 0; 1; 1]%nat. cbn. tauto. Qed.
Print Assumptions C57_directories_refuted.
