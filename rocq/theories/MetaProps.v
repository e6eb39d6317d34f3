(** * C89: tasks that make, save and delete sub-databases of one asynchronous database *)
From Coq Require Import Lia.
From Verif Require Import Base BaseFacts TasksModel MetaModel MetaSpec MetaProofs.

(** Whatever tasks do with the sub-databases of a parent, and however their steps are mixed,
    the parent lists no name twice, it lists the names for which it has an object and no
    other, and the objects are of those names.  What a call to open a sub-database returns is
    an object of the name it was called with. *)
Theorem C89_parent_is_consistent (S : Type) (draw : nat -> S) (l : list (nat * S)) (r : nat -> option S) (os : list mop) (sched : list nat) :
  NoDup (map fst l) ->
  let y := mrun draw sched (parent l r os) in
  consistent y /\
  forall i g o, nth_error os i = Some (Meta g) -> answer y i = Some (Got o) -> exists x, nth_error (objects y) o = Some x /\ name x = g.
Proof.
  intros N y. destruct (runN draw os sched (parent l r os)) as [Sd Fo].
  { split; [now apply sound_parent |]. apply follows_start; [reflexivity |]. intros o. split; [reflexivity | exact I]. }
  fold y in Sd, Fo. split; [now apply sound_consistent |]. intros i g o Eo An. unfold answer in An.
  destruct (nth_error (tasks y) i) as [[] |] eqn:Et; try discriminate. injection An as ->.
  destruct Fo as [_ Fo]. destruct (Fo i _ _ Eo Et) as [_ [h [[=<-] Nm]]]. exact Nm.
Qed.
Print Assumptions C89_parent_is_consistent.

(** Every task ends: six steps of its own are enough, whatever the others do. *)
Theorem C89_every_task_ends (S : Type) (draw : nat -> S) (l : list (nat * S)) (r : nat -> option S) (os : list mop) (sched : list nat) (i : nat) :
  (i < length os)%nat -> (6 <= count_occ Nat.eq_dec sched i)%nat ->
  exists a, answer (mrun draw sched (parent l r os)) i = Some a.
Proof.
  intros Li C. destruct (nth_error os i) as [o |] eqn:Eo; [| apply nth_error_None in Eo; lia].
  destruct (run_rank draw sched (parent l r os) i (MStart o)) as [t [Et R]]; [cbn; now apply map_nth_error |].
  cbn [rank] in R. destruct (rank_done draw t) as [a ->]; [lia |]. exists a. unfold answer. now rewrite Et.
Qed.
Print Assumptions C89_every_task_ends.

(** A sub-database that is open when the tasks begin and that none of them deletes stays the
    one object its parent knows, alive and with its salt.  Every call to open it returns that
    object, every call to save it ends well, and once all tasks have ended and one of them
    has saved it a process that opens it finds its salt. *)
Theorem C89_open_sub_database_stays_partial (S : Type) (draw : nat -> S) (l : list (nat * S)) (r : nat -> option S) (os : list mop) (g : nat) (s : S) :
  NoDup (map fst l) -> In (g, s) l -> r g = None \/ r g = Some s -> ~ In (Delete g) os ->
  exists o, forall sched,
  let y := mrun draw sched (parent l r os) in
  has y g o /\ nth_error (objects y) o = Some {| name := g; salt := s; health_ := Live |} /\
  (forall i a, nth_error os i = Some (Meta g) -> answer y i = Some a -> a = Got o) /\
  (forall i a, nth_error os i = Some (MetaModel.Save g) -> answer y i = Some a -> a = Fine) /\
  (In (MetaModel.Save g) os -> ended y -> on_disk_salt y g = Some s).
Proof.
  intros N Il Hr ND. destruct (parent_attr draw l r os g s N Il) as [o [Ea Eo]]. exists o. intros sched y.
  destruct (runA draw g o s os sched (parent l r os)) as [Sd [[Ha Ho] [Fl Fo]]].
  { split; [now apply sound_parent |]. split; [split; assumption |]. split.
    - unfold fileA. cbn. destruct Hr as [-> | ->]; [exact I | reflexivity].
    - split; [cbn; apply map_length |]. intros k op t E1 E2. cbn in E2. rewrite (map_nth_error MStart k os E1) in E2. injection E2 as <-.
      split; [reflexivity |]. split; [| exact I]. intros ->. apply ND. eapply nth_error_In, E1. }
  fold y in Sd, Ha, Ho, Fl, Fo. destruct Fo as [Ln Fo].
  split; [split; [apply Sd; congruence | exact Ha] |]. split; [exact Ho |]. split; [| split].
  - intros i a E1 An. unfold answer in An. destruct (nth_error (tasks y) i) as [[] |] eqn:Et; try discriminate. injection An as ->.
    destruct (Fo i _ _ E1 Et) as [_ [_ [H _]]]. now apply H.
  - intros i a E1 An. unfold answer in An. destruct (nth_error (tasks y) i) as [[] |] eqn:Et; try discriminate. injection An as ->.
    destruct (Fo i _ _ E1 Et) as [_ [_ [_ H]]]. now apply H.
  - intros Is En. apply In_nth_error in Is. destruct Is as [k Ek].
    destruct (nth_error (tasks y) k) as [t |] eqn:Et.
    2: { apply nth_error_None in Et. assert (k < length os)%nat by (apply nth_error_Some; congruence). lia. }
    destruct (En k t Et) as [a ->]. destruct (Fo k _ _ Ek Et) as [_ [_ [_ H]]]. destruct (H eq_refl) as [_ NR].
    unfold fileA in Fl. unfold on_disk_salt. destruct (roots y g) as [[n [| c |]] |]; [| exact Fl | destruct Fl | now destruct NR].
    destruct Fl as [k' [o' [c' E']]]. destruct (En _ _ E') as [a' C]. discriminate.
Qed.
Print Assumptions C89_open_sub_database_stays_partial.

(** Tasks that open a sub-database from its file, while none saves or deletes it, all get an
    object with the salt of the file, whether the parent knew the sub-database or not. *)
Theorem C89_opened_from_its_file_partial (S : Type) (draw : nat -> S) (l : list (nat * S)) (r : nat -> option S) (os : list mop) (g : nat) (s : S) (sched : list nat) :
  NoDup (map fst l) -> r g = Some s -> (forall s', In (g, s') l -> s' = s) -> ~ In (Delete g) os -> ~ In (MetaModel.Save g) os ->
  let y := mrun draw sched (parent l r os) in
  on_disk_salt y g = Some s /\
  forall i a, nth_error os i = Some (Meta g) -> answer y i = Some a ->
  exists o x, a = Got o /\ nth_error (objects y) o = Some x /\ name x = g /\ salt x = s.
Proof.
  intros N Hr Hl ND NS y. destruct (runB draw g 0%nat s os sched (parent l r os)) as [Sd [[Rg Og] [Ln Fo]]].
  { split; [now apply sound_parent |]. split.
    - split; [cbn; now rewrite Hr |]. intros k x E Nx. cbn in E. destruct (nth_error l k) as [[h s'] |] eqn:El.
      + rewrite (map_nth_error _ _ _ El) in E. injection E as <-. cbn in *. subst h. apply Hl. eapply nth_error_In, El.
      + apply nth_error_None in El. assert (C : nth_error (map (fun p : nat * S => {| name := fst p; salt := snd p; health_ := Live |}) l) k = None) by (apply nth_error_None; now rewrite map_length). congruence.
    - split; [cbn; apply map_length |]. intros k op t E1 E2. cbn in E2. rewrite (map_nth_error MStart k os E1) in E2. injection E2 as <-.
      split; [split; [reflexivity | exact I] |]. split; [intros ->; apply ND; eapply nth_error_In, E1 |]. split; [intros ->; apply NS; eapply nth_error_In, E1 | exact I]. }
  fold y in Sd, Rg, Og, Ln, Fo. split; [unfold on_disk_salt; now rewrite Rg |].
  intros i a E1 An. unfold answer in An. destruct (nth_error (tasks y) i) as [[] |] eqn:Et; try discriminate. injection An as ->.
  destruct (Fo i _ _ E1 Et) as [[_ K] [_ [_ H]]]. destruct (H eq_refl) as [o ->]. destruct K as [h [[=<-] [x [Ex Nx]]]].
  exists o, x. split; [reflexivity |]. split; [exact Ex |]. split; [exact Nx | exact (Og o x Ex Nx)].
Qed.
Print Assumptions C89_opened_from_its_file_partial.

(** Deleting an open sub-database that no other task uses ends well, and then there is no file
    of it and the parent does not know it, whatever is done to other sub-databases. *)
Theorem C89_deleted_alone_partial (S : Type) (draw : nat -> S) (l : list (nat * S)) (r : nat -> option S) (os : list mop) (g : nat) (i : nat) (sched : list nat) (a : mreply) :
  NoDup (map fst l) -> In g (map fst l) -> nth_error os i = Some (Delete g) ->
  (forall k o, nth_error os k = Some o -> k <> i -> about o <> g) ->
  let y := mrun draw sched (parent l r os) in
  answer y i = Some a -> a = Fine /\ roots y g = None /\ lacks y g.
Proof.
  intros N Il Ei Ho y An. apply in_map_iff in Il. destruct Il as [[h s] [Eh Il]]. cbn in Eh. subst h.
  destruct (parent_attr draw l r os g s N Il) as [o [Ea Eo]].
  destruct (runD draw g o os i sched Ei Ho (parent l r os)) as [t [Et Hs]].
  { split; [now apply sound_parent |]. apply follows_start; [reflexivity |]. intros o'. split; [reflexivity | exact I]. }
  { exists (MStart (Delete g)). split; [cbn; now apply map_nth_error |]. cbn. split; [reflexivity |]. split; [exact Ea |].
    split; [apply in_map_iff; exists (g, s); split; [reflexivity | exact Il] |]. eexists. split; [exact Eo | split; reflexivity]. }
  fold y in Et, Hs. unfold answer in An. rewrite Et in An. destruct t; try discriminate. injection An as ->. cbn in Hs. tauto.
Qed.
Print Assumptions C89_deleted_alone_partial.

(** Two tasks that make the same new sub-database at the same time get two objects with
    different salts; the parent knows the second only, so that what is put into the first is
    not saved with the parent. *)
Theorem C89_one_object_for_a_name_refuted (S : Type) (draw : nat -> S) (g : nat) :
  draw 0%nat <> draw 1%nat ->
  exists sched, let y := mrun draw sched (parent [] (fun _ => None) [Meta g; Meta g]) in
  answer y 0 = Some (Got 0) /\ answer y 1 = Some (Got 1) /\ attrs y g = Some 1%nat /\
  exists a b, nth_error (objects y) 0 = Some a /\ nth_error (objects y) 1 = Some b /\
    name a = g /\ name b = g /\ health_ a = Live /\ health_ b = Live /\ salt a <> salt b.
Proof.
  intros D. exists [0; 1; 0; 1; 0; 1]%nat. cbn -[put mem]. unfold put. cbn. rewrite !Nat.eqb_refl. repeat (split; [reflexivity |]).
  eexists _, _. repeat (split; [reflexivity |]). exact D.
Qed.
Print Assumptions C89_one_object_for_a_name_refuted.

(** A sub-database is deleted while a task saves it: the deletion ends well, yet the file is
    there again, and the next call gets a sub-database with the salt of the deleted one. *)
Theorem C89_deleted_for_good_refuted (S : Type) (draw : nat -> S) (s : S) :
  exists g sched, let y := mrun draw sched (parent [(g, s)] (fun _ => Some s) [Delete g; MetaModel.Save g; Meta g]) in
  answer y 0 = Some Fine /\ on_disk_salt y g = Some s /\ answer y 2 = Some (Got 1) /\
  exists x, nth_error (objects y) 1 = Some x /\ name x = g /\ salt x = s.
Proof.
  exists 7%nat, [1; 1; 0; 0; 0; 1; 0; 1; 0; 0; 2; 2; 2; 2]%nat. vm_compute. repeat (split; [reflexivity |]). eexists. repeat split.
Qed.
Print Assumptions C89_deleted_for_good_refuted.

(** A call to open a sub-database that another task is deleting can return the object that is
    being deleted, of which nothing is left when the deletion has ended. *)
Theorem C89_opened_is_usable_refuted (S : Type) (draw : nat -> S) (s : S) :
  exists g sched, let y := mrun draw sched (parent [(g, s)] (fun _ => Some s) [Delete g; Meta g]) in
  answer y 0 = Some Fine /\ answer y 1 = Some (Got 0) /\ lacks y g /\
  exists x, nth_error (objects y) 0 = Some x /\ name x = g /\ health_ x = Stripped.
Proof.
  exists 7%nat, [0; 0; 0; 1; 0; 0; 0]%nat. vm_compute. split; [reflexivity |]. split; [reflexivity |]. split; [split; [intros [] | reflexivity] |].
  eexists. repeat split.
Qed.
Print Assumptions C89_opened_is_usable_refuted.

(** The hypotheses are met: a parent with two sub-databases, one of them on disk; tasks open
    both, save the first twice, delete the second and make a third. *)
Definition two_open : list (nat * nat) := [(7, 70); (8, 80)]%nat.
Definition seven_tasks : list mop := [Meta 7; MetaModel.Save 7; MetaModel.Save 7; Delete 8; Meta 9; Meta 9; Meta 7]%nat.
Definition mixed : list nat := concat (repeat [0; 1; 2; 3; 4; 5; 6]%nat 6).
Example C89_two_open :
  NoDup (map fst two_open) /\ In (7, 70)%nat two_open /\ ~ In (Delete 7) seven_tasks /\
  let y := mrun (fun n => (100 + n)%nat) mixed (parent two_open (fun g => if Nat.eqb g 9 then Some 90%nat else None) seven_tasks) in
  map (answer y) (seq 0 7) = map Some [Got 0; Fine; Fine; Fine; Got 2; Got 3; Got 0]%nat /\
  metatags y = [7; 9]%nat /\ attrs y 9%nat = Some 3%nat /\ map salt (objects y) = [70; 80; 90; 90]%nat /\
  on_disk_salt y 7%nat = Some 70%nat /\ roots y 8%nat = None.
Proof.
  split; [repeat constructor; cbn; intuition discriminate |]. split; [now left |]. split; [cbn; intuition discriminate |].
  vm_compute. repeat split.
Qed.
