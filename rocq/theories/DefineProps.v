(** * Defining classes with typed slots: the theorems *)
From Coq Require Import Strings.String.
From Verif Require Import Base BaseFacts StrModel StrFacts ContainersModel ContainersSpec ContainersProofs ContainersProps
  DefineModel DefineSpec DefineProofs.
Local Open Scope N_scope.

(** ** C105: class statements *)

Lemma program_good ck l : Forall (fun p => proper (fst p)) l -> Forall (good ck) (program ck l).
Proof. intros P. apply all_good; [exact P|]. destruct (good_roots ck). auto. Qed.
Lemma within_good ck l mro : Forall (fun p => proper (fst p)) l -> (forall d, In d mro -> In d (program ck l)) -> Forall (good ck) mro.
Proof. intros P M. apply Forall_forall. intros d I. pose proof (program_good ck l P) as G. rewrite Forall_forall in G. auto. Qed.

(** Whatever classes a program defines, in whatever order and from whatever others:
    in each class that comes from TypedSlots the slots other than [__dict__] are
    just the names with a type, and all these types can be checked. *)
Theorem C105_every_slot_is_typed : forall checkable l, Forall (fun p => proper (fst p)) l ->
  forall d, In d (program checkable l) -> is_typed d -> fully_typed checkable d.
Proof.
  intros ck l P d I T. apply good_fully; [|exact T]. pose proof (program_good ck l P) as G. rewrite Forall_forall in G. auto.
Qed.
Print Assumptions C105_every_slot_is_typed.

(** Which class statements succeed below TypedSlots: no slot, its own or inherited,
    has a reserved name; each type it declares can be checked and is for one of its
    slots, not for [__dict__]; each slot has a type of its own or comes from a class
    with types. *)
Theorem C105_definition_succeeds_iff : forall checkable l b mro, Forall (fun p => proper (fst p)) l -> proper b ->
  (forall d, In d mro -> In d (program checkable l)) -> Exists is_typed mro ->
  (exists d, define checkable b mro = Ok d) <->
  (forall s, has_slot b mro s -> ~ reserved_name b mro s) /\
  (forall s t, declares b s t -> checkable t = true /\ s <> lit "__dict__" /\ has_slot b mro s) /\
  (forall s, has_slot b mro s -> s <> lit "__dict__" ->
    own_type b s <> None \/ exists d, In d mro /\ is_typed d /\ In s (d_slots d)).
Proof.
  intros ck l b mro P Pb M T. pose proof (within_good ck l mro P M) as G. transitivity (fits ck b mro).
  - split; [intros (d & H); now apply (define_ok ck b mro d G Pb) in H as [H _]|]. intros H. eexists. apply (define_ok ck b mro _ G Pb). split; [exact H|reflexivity].
  - rewrite (fits_iff ck b mro G Pb). fold DICT. split; [intros [A B]; split; [exact A|exact (B T)]|intros [A B]; split; auto].
Qed.
Print Assumptions C105_definition_succeeds_iff.

(** Where no class has types, only reserved names are refused, and the new class has no types either. *)
Theorem C105_plain_classes : forall checkable l b mro, Forall (fun p => proper (fst p)) l -> proper b ->
  (forall d, In d mro -> In d (program checkable l)) -> ~ Exists is_typed mro ->
  ((exists d, define checkable b mro = Ok d) <-> forall s, has_slot b mro s -> ~ reserved_name b mro s) /\
  forall d, define checkable b mro = Ok d -> ~ is_typed d.
Proof.
  intros ck l b mro P Pb M T. pose proof (within_good ck l mro P M) as G. split.
  - transitivity (fits ck b mro).
    + split; [intros (d & H); now apply (define_ok ck b mro d G Pb) in H as [H _]|]. intros H. eexists. apply (define_ok ck b mro _ G Pb). split; [exact H|reflexivity].
    + rewrite (fits_iff ck b mro G Pb). split; [intros [A B]; exact A|intros A; split; [exact A|intros X; contradiction]].
  - intros d H. apply (define_ok ck b mro d G Pb) in H as [_ ->]. unfold is_typed. cbn. destruct (typed_among mro) eqn:E; [apply typed_iff in E; contradiction|auto].
Qed.
Print Assumptions C105_plain_classes.

(** What the new class has: its own slots, in order, before those of the others, each once; all the reserved names;
    and types exactly if one of the others has types. *)
Theorem C105_what_is_defined : forall checkable l b mro d, Forall (fun p => proper (fst p)) l -> proper b ->
  (forall d, In d mro -> In d (program checkable l)) -> define checkable b mro = Ok d ->
  NoDup (d_slots d) /\ (NoDup (b_slots b) -> exists rest, d_slots d = b_slots b ++ rest) /\
  (forall s, In s (d_slots d) <-> has_slot b mro s) /\ (forall s, In s (d_restricted d) <-> reserved_name b mro s) /\
  (is_typed d <-> Exists is_typed mro).
Proof.
  intros ck l b mro d P Pb M H. pose proof (within_good ck l mro P M) as G. apply (define_ok ck b mro d G Pb) in H as [_ ->]. cbn.
  split; [apply nodup_unique|]. split; [intros N; apply unique_prefix; [exact N|intros x _ []]|]. split; [intros s; apply in_all_slots|]. split; [intros s; apply in_restricted|].
  rewrite <- typed_iff. unfold is_typed. cbn. destruct (typed_among mro); split; congruence.
Qed.
Print Assumptions C105_what_is_defined.

(** Which type a slot has: the one that the new class declares, or else the one of the first class in the order of
    resolution that has a type for it. *)
Theorem C105_which_type : forall checkable l b mro d, Forall (fun p => proper (fst p)) l -> proper b ->
  (forall d, In d mro -> In d (program checkable l)) -> Exists is_typed mro -> define checkable b mro = Ok d ->
  forall s, type_of d s = match own_type b s with Some t => Some t | None => first_type mro s end.
Proof.
  intros ck l b mro d P Pb M T H s. pose proof (within_good ck l mro P M) as G. destruct (define_good ck b mro d G Pb H) as [_ E]. rewrite E.
  apply typed_iff in T as ->. reflexivity.
Qed.
Print Assumptions C105_which_type.

(** With single inheritance it is the nearest declaration. *)
Theorem C105_single_inheritance : forall checkable bs d mro, Forall proper bs -> line checkable bs = Some (d :: mro) -> bs <> [] ->
  forall s, type_of d s = nearest bs s.
Proof.
  intros ck bs d mro P L N s. destruct bs as [|b bs]; [congruence|]. cbn [line] in L. inversion P as [|x y Pb Pl]; subst.
  destruct (line ck bs) as [m|] eqn:E; [|discriminate]. destruct (line_good ck bs m Pl E) as (G & T & F).
  destruct (define ck b m) as [d'|e] eqn:D; [|discriminate]. injection L as -> _. destruct (define_good ck b m d G Pb D) as [_ TD].
  rewrite TD, T, F. reflexivity.
Qed.
Print Assumptions C105_single_inheritance.

(** With these types, whatever operations are tried on an instance of a class of the program that
    has no instance dict, frozen or not: what a slot holds is of the slot's type. *)
Theorem C105_instances : forall V v_contains v_call isinstance frozen reserved checkable l d, Forall (fun p => proper (fst p)) l ->
  In d (program checkable l) -> is_typed d -> ~ In (lit "__dict__") (d_slots d) ->
  forall s, In s (d_slots d) -> exists t, type_of d s = Some t /\
    forall ops v, let c := klass_of V isinstance frozen reserved d in
      holds c (run V v_contains v_call c ops (new_inst V)) (Str s) v -> isinstance v t = true.
Proof.
  intros V vc vcall isi fr res ck l d P I T ND s S. destruct (C105_every_slot_is_typed ck l P d I T) as [A _].
  destruct (proj1 (A s)) as [t E]; [split; [exact S|intros ->; contradiction]|]. exists t. split; [exact E|]. intros ops v c H.
  apply (C68_slots_hold_their_type V vc vcall c) with (ops := ops) (s := s) (check := fun v => isi v t) (v := v); [| |exact S| |exact H].
  - cbn. unfold is_typed in T. destruct (d_types d); congruence.
  - exact ND.
  - cbn. rewrite get_checks. unfold type_of in E. destruct (d_types d) as [ts|]; [|discriminate]. now rewrite E.
Qed.
Print Assumptions C105_instances.

(** The classes of the examples. Type 1 stands for [object], type 2 for [int], type 9 for one that cannot be checked. *)
Definition ck9 (t : N) : bool := negb (t =? 9).
Definition with_x (t : option N) (more : list str) : body :=
  {| b_slots := (match t with Some _ => [lit "x"] | None => [] end) ++ more; b_types := option_map (fun t => [(lit "x", t)]) t; b_restricted := [] |}.
(** [class Base(TypedSlots)] with x an object; [class A(Base)] makes x an int; [class B(Base)] says nothing;
    [class C(B, A)]. *)
Definition diamond : list (body * list nat) :=
  [(with_x (Some 1) [], [1; 0]%nat); (with_x (Some 2) [], [2; 1; 0]%nat); (with_x None [], [2; 1; 0]%nat); (with_x None [], [4; 3; 2; 1; 0]%nat)].

(** With several bases it need not be: B copied the type of Base when it was defined, and in the order C, B, A, Base
    it comes before A, the first class whose body declares one. So C accepts for x what A refuses. *)
Theorem C105_nearest_declaration_refuted : exists checkable l c, Forall (fun p => proper (fst p)) l /\ nth_error (program checkable l) 5 = Some c /\
  map (fun p => snd p) l = [[1; 0]; [2; 1; 0]; [2; 1; 0]; [4; 3; 2; 1; 0]]%nat /\
  nearest [with_x None []; with_x None []; with_x (Some 2) []; with_x (Some 1) []] (lit "x") = Some 2 /\
  map fst l = [with_x (Some 1) []; with_x (Some 2) []; with_x None []; with_x None []] /\
  type_of c (lit "x") = Some 1.
Proof.
  exists ck9, diamond. eexists. split; [|split; [vm_compute; reflexivity|repeat split; reflexivity]].
  repeat constructor; intros l E; vm_compute in E; try discriminate; injection E as <-; repeat constructor; intros [].
Qed.
Print Assumptions C105_nearest_declaration_refuted.

(** A subclass may give an inherited slot a wider type, so what is an instance of the base need not keep to the
    base's types. *)
Theorem C105_subclasses_keep_types_refuted : exists checkable base sub d e, define checkable base [typed_root; slots_root] = Ok d /\
  define checkable sub [d; typed_root; slots_root] = Ok e /\ proper base /\ proper sub /\
  type_of d (lit "x") = Some 2 /\ type_of e (lit "x") = Some 1.
Proof.
  exists ck9, (with_x (Some 2) []), (with_x (Some 1) []). eexists. eexists. split; [vm_compute; reflexivity|]. split; [vm_compute; reflexivity|].
  split; [|split; [|split; reflexivity]]; intros l E; injection E as <-; repeat constructor; intros [].
Qed.
Print Assumptions C105_subclasses_keep_types_refuted.

Ltac prop := intros ? E; vm_compute in E; try discriminate; injection E as <-; repeat constructor; cbn; intuition discriminate.
(** All four classes are defined and typed; a line of three classes; the refusals. *)
Example C105_case :
  Forall (fun p => proper (fst p)) diamond /\ length (program ck9 diamond) = 6%nat /\
  (exists mro, line ck9 [with_x None []; with_x (Some 2) []; with_x (Some 1) [lit "__dict__"]] = Some mro /\ length mro = 5%nat /\
     type_of (hd slots_root mro) (lit "x") = Some 2) /\
  define ck9 (with_x (Some 9) []) [typed_root; slots_root] = Err TypeErr /\
  define ck9 (with_x (Some 1) [lit "y"]) [typed_root; slots_root] = Err AttributeErr /\
  define ck9 (with_x (Some 1) [lit "keys"]) [typed_root; slots_root] = Err ValueErr /\
  define ck9 {| b_slots := []; b_types := Some [(lit "x", 1)]; b_restricted := [] |} [typed_root; slots_root] = Err AttributeErr /\
  define ck9 {| b_slots := [lit "__dict__"]; b_types := Some [(lit "__dict__", 1)]; b_restricted := [] |} [typed_root; slots_root] = Err TypeErr /\
  (exists d, define ck9 (with_x None [lit "z"]) [slots_root] = Ok d /\ d_slots d = [lit "z"] /\ d_types d = None).
Proof.
  split; [repeat constructor; prop|]. split; [reflexivity|]. split; [eexists; split; [vm_compute; reflexivity|split; reflexivity]|].
  repeat split. eexists. split; [vm_compute; reflexivity|split; reflexivity].
Qed.
