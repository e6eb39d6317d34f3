(** * C85: tasks that use one asynchronous database *)
From Coq Require Import Lia.
From Verif Require Import Base BaseFacts TasksModel TasksSpec TasksProofs.

(** Tasks on different tags do not notice each other: however their steps are mixed, when
    they have ended each has the reply, and has left under its tag, what it would have
    without the others; nothing else has changed. *)
Theorem C85_different_tags (V : Type) (seal : V -> bytes) (unseal : bytes -> option V)
    (os : list (nat * op V)) (w : nat -> slot V) (l : list nat) :
  NoDup (map fst os) ->
  let y := run seal unseal l (started os w) in
  (forall i p, nth_error (tasks y) i = Some p -> exists r, snd p = Done r) ->
  (forall i tag o, nth_error os i = Some (tag, o) ->
     nth_error (tasks y) i = Some (tag, fst (alone seal unseal o (w tag))) /\
     slots y tag = snd (alone seal unseal o (w tag))) /\
  (forall tag, ~ In tag (map fst os) -> slots y tag = w tag).
Proof.
  intros N y D. destruct (separate seal unseal os w l N) as [_ [A B]]. split; [| exact B].
  intros i tag o H. destruct (A i tag o H) as [A1 A2]. fold y in A1, A2.
  destruct (D i _ A1) as [r Hr]. cbn [snd] in Hr.
  rewrite A1, A2, (done_alone _ _ _ _ _ _ Hr). split; reflexivity.
Qed.
Print Assumptions C85_different_tags.

(** An operation nobody interrupts ends. *)
Theorem C85_operations_end (V : Type) (seal : V -> bytes) (unseal : bytes -> option V) (o : op V) (s : slot V) :
  exists r, fst (alone seal unseal o s) = Done r.
Proof. apply alone_done. Qed.
Print Assumptions C85_operations_end.

(** When it raises LookupError: there is nothing to query or to save, or, for a pop, no trace of the
    tag at all; and never if it is asked to be silent. *)
Theorem C85_lookup_errors (V : Type) (seal : V -> bytes) (unseal : bytes -> option V) (o : op V) (s : slot V) :
  fst (alone seal unseal o s) = Done Missing <->
  match o with
  | Query silent _ => silent = false /\ cached s = None /\ file s = None
  | Save _ => cached s = None
  | Pop silent => silent = false /\ cached s = None /\ listed s = false /\ file s = None
  | Set_ _ _ | Rollback _ => False
  end.
Proof.
  unfold alone. destruct s as [ca li fi bo]. split.
  - destruct o as [v []|[] []|[]|[]|[]]; destruct ca; destruct li; destruct fi as [[n [|b f]]|]; cbn;
      try discriminate; auto; try rewrite Nat.eqb_refl; cbn; try discriminate;
      destruct (unseal _); cbn; discriminate.
  - destruct o as [v k|q k|k|q|k]; cbn; try easy.
    + intros (-> & -> & ->). reflexivity.
    + intros ->. destruct k; reflexivity.
    + intros (-> & -> & -> & ->). reflexivity.
Qed.
Print Assumptions C85_lookup_errors.

(** Tasks that set a tag, query it without caching, and save it without dropping the cache:
    the cache has the value that was set last, and a query that begins after a value
    was set gives that value, however the steps are mixed. *)
Theorem C85_sets_are_kept_partial (V : Type) (seal : V -> bytes) (unseal : bytes -> option V)
    (os : list (op V)) (s : slot V) (l : list nat) :
  Forall steady os ->
  let y l := run seal unseal l (started (map (pair 0%nat) os) (fun _ => s)) in
  cached (slots (y l) 0%nat) = last (map Some (values_set os l [])) (cached s) /\
  forall l1 l2 j silent keep v, l = l1 ++ j :: l2 -> ~ In j l1 -> nth_error os j = Some (Query silent keep) ->
    last (map Some (values_set os l1 [])) (cached s) = Some v ->
    nth_error (tasks (y l)) j = Some (0%nat, Done (Found v)).
Proof.
  intros F y. destruct (steady_run seal unseal os s l F) as [C _]. split; [exact C |].
  intros l1 l2 j silent keep v -> Hj Ho Hv.
  destruct (steady_run seal unseal os s l1 F) as [C1 [T1 N1]].
  pose proof (one_step seal unseal os s l1 j) as St. cbv zeta in St.
  destruct (task_of j (on_one seal unseal os s l1)) as [t |] eqn:E; [| exfalso; apply N1 in E; congruence].
  destruct (T1 j t E) as [_ B]. rewrite (proj2 (B _) (conj Hj Ho)) in St. destruct St as [S1 _].
  rewrite Hv in C1. cbn [step] in S1. unfold look_step in S1. rewrite C1 in S1. cbn [finish fst value_reply] in S1.
  pose proof (done_stays seal unseal os s (l1 ++ [j]) l2 j _ S1) as R. rewrite <- app_assoc in R. cbn [app] in R.
  unfold task_of in R. unfold y. fold (on_one seal unseal os s (l1 ++ j :: l2)).
  destruct (nth_error (tasks (on_one seal unseal os s (l1 ++ j :: l2))) j) as [[g u] |] eqn:En; [| discriminate].
  cbn in R. injection R as ->. f_equal. f_equal.
  change g with (fst (g, Done (Found v))). apply (one_tags seal unseal os s (l1 ++ j :: l2)). apply nth_error_In in En. exact En.
Qed.
Print Assumptions C85_sets_are_kept_partial.

(** If all the ciphertexts that can be written have one length, no task is given a value
    nobody stored, or finds a file that is not authentic. *)
Theorem C85_values_come_from_somewhere_partial (V : Type) (seal : V -> bytes) (unseal : bytes -> option V)
    (os : list (op V)) (s : slot V) (l : list nat) (n : nat) :
  let stored v := cached s = Some v \/ (exists k, file s = Some (k, seal v)) \/ (exists keep, In (Set_ v keep) os) in
  (forall v, unseal (seal v) = Some v) ->
  (forall v, stored v -> length (seal v) = n) ->
  (forall k c, file s = Some (k, c) -> exists v, c = seal v) ->
  let y := run seal unseal l (started (map (pair 0%nat) os) (fun _ => s)) in
  (forall v, In (0%nat, Done (Found v)) (tasks y) -> stored v) /\
  (forall tag, ~ In (tag, Done Refused) (tasks y)) /\
  (forall v, cached (slots y 0%nat) = Some v -> stored v) /\
  (forall k c, file (slots y 0%nat) = Some (k, c) -> c = [] \/ exists v, stored v /\ c = seal v).
Proof.
  intros stored O L Fs y.
  destruct (tidy_run seal unseal stored n O L os s l) as [A B].
  - intros v k H. right. right. exists k. exact H.
  - split; [destruct (cached s) as [v |] eqn:E; [now left | exact I] |].
    destruct (file s) as [[k c] |] eqn:E; [| exact I]. right. destruct (Fs k c eq_refl) as [v ->].
    exists v. split; [| reflexivity]. right. left. exists k. reflexivity.
  - assert (T : forall tag t, In (tag, t) (tasks y) -> tidy seal stored t).
    { intros tag t H. apply In_nth_error in H. destruct H as [i H]. apply (B i t). unfold task_of.
      change (on_one seal unseal os s l) with y. rewrite H. reflexivity. }
    change (on_one seal unseal os s l) with y in A. destruct A as [A1 A2].
    split; [intros v H; exact (T _ _ H) |]. split; [intros tag H; exact (T _ _ H) |].
    split; [intros v H; rewrite H in A1; exact A1 |].
    intros k c H. rewrite H in A2. destruct A2 as [-> | [v [X ->]]]; [now left |]. right. exists v. now split.
Qed.
Print Assumptions C85_values_come_from_somewhere_partial.

(** Operations on one tag whose replies, or what they leave, are those of no order of them. *)
Definition on_disk {V : Type} (c : bytes) : slot V := {| cached := None; listed := true; file := Some (0%nat, c); born := 1 |}.
Definition in_cache {V : Type} (v : V) : slot V := {| cached := Some v; listed := true; file := None; born := 0 |}.

Ltac known := cbn; repeat match goal with
  | E : ?u ?c = Some _ |- context [?u ?c] => rewrite E; cbn
  | E : ?u ?c = _ :: _ |- context [?u ?c] => rewrite E; cbn
  | _ => rewrite skipn_nil
  | _ => rewrite app_nil_r
  end; cbn.
Ltac known_in E := cbn in E; repeat match goal with
  | O : ?u ?c = Some _ |- _ => match type of E with context [u c] => rewrite O in E; cbn in E end
  | O : ?u ?c = _ :: _ |- _ => match type of E with context [u c] => rewrite O in E; cbn in E end
  | _ => rewrite skipn_nil in E
  | _ => rewrite app_nil_r in E
  end; unfold seen, with_cached, with_listed, with_file, on_disk, in_cache in E; cbn in E.
Ltac no_order := 
  let o := fresh in let X := fresh in let H := fresh in let R := fresh in let E := fresh in
  intros o H; cbn in H;
  repeat (destruct H as [<- | H]; [intros [R E]; known_in R; known_in E;
    first [ congruence
          | (pose proof (R _ _ (or_introl eq_refl)) as X; cbn in X; congruence)
          | (pose proof (R _ _ (or_intror (or_introl eq_refl))) as X; cbn in X; congruence)
          | (pose proof (R _ _ (or_intror (or_intror (or_introl eq_refl)))) as X; cbn in X; congruence)
          | (pose proof (R _ _ (or_intror (or_intror (or_intror (or_introl eq_refl))))) as X; cbn in X; congruence)
          ] |]); try contradiction.

(** A query that caches what it reads puts an old value over one that was set meanwhile. *)
Theorem C85_caching_queries_refuted (V : Type) (seal : V -> bytes) (unseal : bytes -> option V) (v0 v1 : V) :
  (forall v, unseal (seal v) = Some v) -> seal v0 <> [] -> v0 <> v1 ->
  let os := [Query false true; Set_ v1 true] in
  exists l, ended seal unseal os l (on_disk (seal v0)) [Found v0; Fine] (Some v0, true, Some (seal v0)) /\
            in_no_order seal unseal os (on_disk (seal v0)) [Found v0; Fine] (Some v0, true, Some (seal v0)).
Proof.
  intros O B D os. pose proof (O v0) as O0. destruct (seal v0) as [| b r] eqn:E0; [congruence |].
  exists [0; 0; 1; 0]%nat. split; [unfold ended, os; known; split; reflexivity | unfold os]; no_order.
Qed.
Print Assumptions C85_caching_queries_refuted.

(** Popping a tag destroys a value that was set meanwhile, which nobody is given. *)
Theorem C85_pops_refuted (V : Type) (seal : V -> bytes) (unseal : bytes -> option V) (v0 v1 : V) :
  (forall v, unseal (seal v) = Some v) -> seal v0 <> [] -> v0 <> v1 ->
  let os := [Pop false; Set_ v1 true] in
  exists l, ended seal unseal os l (on_disk (seal v0)) [Found v0; Fine] (None, false, None) /\
            in_no_order seal unseal os (on_disk (seal v0)) [Found v0; Fine] (None, false, None).
Proof.
  intros O B D os. pose proof (O v0) as O0. destruct (seal v0) as [| b r] eqn:E0; [congruence |].
  exists [0; 0; 1; 0; 0; 0]%nat. split; [unfold ended, os; known; split; reflexivity | unfold os]; no_order.
Qed.
Print Assumptions C85_pops_refuted.

(** Two tasks that pop a tag can both be given its one value. *)
Theorem C85_two_pops_refuted (V : Type) (seal : V -> bytes) (unseal : bytes -> option V) (v0 : V) (silent : bool) :
  (forall v, unseal (seal v) = Some v) -> seal v0 <> [] ->
  let os := [Pop silent; Pop silent] in
  exists l, ended seal unseal os l (on_disk (seal v0)) [Found v0; Found v0] (None, false, None) /\
            in_no_order seal unseal os (on_disk (seal v0)) [Found v0; Found v0] (None, false, None).
Proof.
  intros O B os. pose proof (O v0) as O0. destruct (seal v0) as [| b r] eqn:E0; [congruence |].
  exists [0; 0; 1; 1; 0; 1; 0; 1; 1; 0]%nat. split.
  - unfold ended, os. known. destruct silent; split; reflexivity.
  - unfold os. destruct silent; no_order.
Qed.
Print Assumptions C85_two_pops_refuted.

(** Setting a tag without caching drops from the cache a value that was set meanwhile,
    even if that value was set after the other one had been seen. *)
Theorem C85_dropping_refuted (V : Type) (seal : V -> bytes) (unseal : bytes -> option V) (v1 v2 : V) :
  (forall v, unseal (seal v) = Some v) -> seal v1 <> [] -> v1 <> v2 ->
  let os := [Set_ v1 false; Query false false; Set_ v2 true] in
  let none := {| cached := None; listed := false; file := None; born := 0 |} in
  exists l, ended seal unseal os l none [Fine; Found v1; Fine] (None, true, Some (seal v1)) /\
            in_no_order_of seal unseal l os none [Fine; Found v1; Fine] (None, true, Some (seal v1)).
Proof.
  intros O B D os none. pose proof (O v1) as O1. destruct (seal v1) as [| b r] eqn:E1; [congruence |].
  exists [0; 1; 0; 2; 0; 0; 0]%nat. split.
  - unfold ended, os, none. cbn. rewrite E1. known. split; reflexivity.
  - unfold os, none. intros o H. cbn in H.
    repeat (destruct H as [<- | H]; [intros Q [R E]; known_in R; known_in E |]); try contradiction.
    all: try congruence.
    all: try (pose proof (R _ _ (or_introl eq_refl)) as X; cbn in X; congruence).
    all: assert (W : ended_before [0; 1; 0; 2; 0; 0; 0]%nat 1 2) by
      (split; [cbn; tauto |]; split; [cbn; tauto |]; intros [| [| [| [| [| [| [| x]]]]]]] [| [| [| [| [| [| [| y]]]]]]]; cbn; intros; try discriminate; try lia; destruct x; discriminate).
    all: destruct (Q _ _ W) as [_ [_ Z]].
    all: first [specialize (Z 2 0 eq_refl eq_refl)%nat | specialize (Z 1 0 eq_refl eq_refl)%nat]; lia.
Qed.
Print Assumptions C85_dropping_refuted.

(** Two tasks that save a tag can leave a file that begins with one ciphertext and ends
    with the other.  If it is not authentic, as is to be expected, neither value is left. *)
Theorem C85_saves_refuted (V : Type) (seal : V -> bytes) (unseal : bytes -> option V) (v1 v2 : V) :
  (forall v, unseal (seal v) = Some v) -> (0 < length (seal v2) < length (seal v1))%nat ->
  let mixed := seal v2 ++ skipn (length (seal v2)) (seal v1) in
  unseal mixed = None ->
  let os := [Save false; Set_ v2 true; Save true; Query false false] in
  exists l, ended seal unseal os l (in_cache v1) [Fine; Fine; Fine; Refused] (None, true, Some mixed) /\
            in_no_order seal unseal os (in_cache v1) [Fine; Fine; Fine; Refused] (None, true, Some mixed).
Proof.
  intros O L mixed U os.
  exists [0; 1; 2; 0; 2; 0; 2; 0; 2; 3; 3; 3]%nat. split.
  - unfold ended, os. known. fold mixed. destruct mixed as [| b r] eqn:Em.
    + exfalso. apply (f_equal (@length byte)) in Em. unfold mixed in Em. rewrite app_length, skipn_length in Em. cbn in Em. lia.
    + cbn. rewrite U. split; reflexivity.
  - assert (M1 : mixed <> seal v1) by congruence. assert (M2 : mixed <> seal v2) by congruence.
    clearbody mixed. pose proof (O v1) as O1. pose proof (O v2) as O2.
    destruct (seal v1) as [| b1 r1] eqn:E1; [cbn in L; lia |].
    destruct (seal v2) as [| b2 r2] eqn:E2; [cbn in L; lia |].
    unfold os. no_order.
Qed.
Print Assumptions C85_saves_refuted.

(** A task that queries a tag while another saves it can be given nothing, although the tag
    has had a value all the time. *)
Theorem C85_queries_refuted (V : Type) (seal : V -> bytes) (unseal : bytes -> option V) (v0 v1 : V) :
  (forall v, unseal (seal v) = Some v) -> seal v0 <> [] -> seal v1 <> [] -> 
  let os := [Query false false; Set_ v1 true; Save false] in
  exists l, ended seal unseal os l (on_disk (seal v0)) [Nothing; Fine; Fine] (Some v1, true, Some (seal v1)) /\
            in_no_order seal unseal os (on_disk (seal v0)) [Nothing; Fine; Fine] (Some v1, true, Some (seal v1)).
Proof.
  intros O B0 B1 os. pose proof (O v0) as O0. pose proof (O v1) as O1. 
  destruct (seal v0) as [| b r] eqn:E0; [congruence |]. destruct (seal v1) as [| b1 r1] eqn:E1; [congruence |].
  exists [0; 1; 2; 2; 0; 2; 2]%nat. split; [unfold ended, os; cbn; rewrite E1; known; split; reflexivity | unfold os]; no_order.
Qed.
Print Assumptions C85_queries_refuted.

(** A concrete case: values are bytes, sealed as two or three bytes that begin with the value. *)
Definition two_bytes (b : byte) : bytes := [b; x00].
Definition some_bytes (b : byte) : bytes := if Byte.eqb b x01 then [x01; x01] else [b; b; b].
Definition same_bytes (c : bytes) : option byte := match c with [a; b] => if Byte.eqb a b then Some a else None | [a; b; c] => if Byte.eqb a b && Byte.eqb b c then Some a else None | _ => None end.
Definition first_byte (c : bytes) : option byte := match c with b :: _ => Some b | [] => None end.
Example C85_case :
  (* three tasks on three tags, mixed, all ended *)
  (let y := run two_bytes first_byte [0; 1; 2; 2; 1; 0; 1; 2; 0; 1; 2; 0; 1; 0]%nat
      (started [(7, Set_ x05 false); (8, Pop false); (9, Query false true)]%nat (fun _ => on_disk (two_bytes x04))) in
   NoDup [7; 8; 9]%nat /\
   map snd (tasks y) = [Done Fine; Done (Found x04); Done (Found x04)] /\
   map (fun g => seen (slots y g)) [7; 8; 9; 10]%nat =
     [(None, true, Some (two_bytes x05)); (None, false, None); (Some x04, true, Some (two_bytes x04)); (None, true, Some (two_bytes x04))]) /\
  (* steady operations on one tag *)
  (let os := [Set_ x05 true; Save false; Query false false; Set_ x06 true; Query false false] in
   let y := run two_bytes first_byte [2; 0; 1; 3; 1; 2; 4; 1; 2; 1]%nat (started (map (pair 0%nat) os) (fun _ => on_disk (two_bytes x04))) in
   Forall steady os /\ values_set os [2; 0; 1; 3; 1; 2; 4; 1; 2; 1]%nat [] = [x05; x06] /\
   map snd (tasks y) = [Done Fine; Done Fine; Done Nothing; Done Fine; Done (Found x06)] /\
   seen (slots y 0%nat) = (Some x06, true, Some (two_bytes x05))) /\
  (* lengths *)
  (forall v, first_byte (two_bytes v) = Some v) /\ (forall v, length (two_bytes v) = 2%nat) /\ (forall v, two_bytes v <> []) /\
  (* ciphertexts that can be mixed *)
  (forall v, same_bytes (some_bytes v) = Some v) /\ (0 < length (some_bytes x01) < length (some_bytes x02))%nat /\
  same_bytes (some_bytes x01 ++ skipn (length (some_bytes x01)) (some_bytes x02)) = None.
Proof.
  split; [| split]; [| | split; [| split; [| split; [| split; [| split]]]]].
  - split; [repeat (constructor; [cbn; intuition discriminate |]); constructor |]. split; reflexivity.
  - split; [repeat (constructor; [reflexivity |]); constructor |]. repeat split; reflexivity.
  - reflexivity.
  - reflexivity.
  - discriminate.
  - intros v. destruct v; reflexivity.
  - cbn. lia.
  - reflexivity.
Qed.
