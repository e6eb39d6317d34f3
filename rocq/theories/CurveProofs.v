(** * Curve keys and exchanges: proofs *)
From Coq Require Import Lia ZifyBool ZifyNat ZifyN.
From Verif Require Import Base BaseFacts CanonModel CanonSpec CanonProofs KdfModel KdfSpec KdfProofs CurveModel CurveSpec.
Local Open Scope N_scope.

Section K.
Variable C : curve.
Notation key := (key C).
Implicit Types k : key.

(** ** Key objects *)
Definition key_ok k : Prop :=
  k = new_key C \/ (exists s, k = pair_of s) \/ (exists p, k = only_public C p).

Lemma do_kop_locked k o : has_public_key k = true -> do_kop C k o = (k, Err PermissionErr).
Proof. intros H. destruct o; cbn; unfold generate, import_secret_key, import_public_key; rewrite ?H; reflexivity. Qed.

Lemma do_kop_new o : fst (do_kop C (new_key C) o) = new_key C /\ (exists e, snd (do_kop C (new_key C) o) = Err e) \/
  snd (do_kop C (new_key C) o) = Ok tt /\
    ((exists s, fst (do_kop C (new_key C) o) = pair_of s /\
        (o = Generate s \/ exists a, o = ImportSecret a /\ process_secret C a = Ok s)) \/
     (exists p a, fst (do_kop C (new_key C) o) = only_public C p /\ o = ImportPublic a /\ process_public C a = Ok p)).
Proof.
  destruct o; cbn.
  - unfold import_secret_key. cbn. destruct (process_secret C a) eqn:E; cbn; [right|left; eauto].
    split; [reflexivity|]. left. exists a0. split; [reflexivity|]. right. eauto.
  - unfold import_public_key. cbn. destruct (process_public C a) eqn:E; cbn; [right|left; eauto].
    split; [reflexivity|]. right. exists a0, a. auto.
  - right. split; [reflexivity|]. left. exists s. auto.
  - left. eauto.
  - left. eauto.
Qed.

Lemma key_ok_kop k o : key_ok k -> key_ok (fst (do_kop C k o)).
Proof.
  intros [->|[(s & ->)|(p & ->)]].
  - destruct (do_kop_new o) as [[-> _]|[_ [(s & -> & _)|(p & a & -> & _)]]]; [now left|right; left; now exists s|right; right; now exists p].
  - rewrite do_kop_locked by reflexivity. right. left. now exists s.
  - rewrite do_kop_locked by reflexivity. right. right. now exists p.
Qed.

Lemma do_kops_ok os k : key_ok k -> key_ok (do_kops C k os).
Proof. revert k. induction os as [|o os IH]; intros k H; [exact H|]. cbn. apply IH, key_ok_kop, H. Qed.

Lemma do_kops_locked os k : has_public_key k = true -> do_kops C k os = k.
Proof. revert k. induction os as [|o os IH]; intros k H; [reflexivity|]. cbn. rewrite do_kop_locked by exact H. cbn. apply IH, H. Qed.

(** What is set stays. *)
Definition keeps {A} (a b : option A) : Prop := forall x, a = Some x -> b = Some x.
Lemma kop_keeps k o : key_ok k -> keeps (k_secret k) (k_secret (fst (do_kop C k o))) /\ keeps (k_public k) (k_public (fst (do_kop C k o))).
Proof.
  intros [->|[(s & ->)|(p & ->)]]; [split; intros x; discriminate| |]; rewrite do_kop_locked by reflexivity; split; intros x E; exact E.
Qed.

(** ** Exchange objects *)
Variables (H : hasher) (KDF_DOMAIN salt DH2 DH3 : bytes).
Notation kdf := (kdf H KDF_DOMAIN salt).
Notation start := (start C).
Notation resume := (resume C H KDF_DOMAIN salt DH2 DH3).
Notation call_sync := (call_sync C H KDF_DOMAIN salt DH2 DH3).
Notation do_event := (do_event C H KDF_DOMAIN salt DH2 DH3).
Notation do_events := (do_events C H KDF_DOMAIN salt DH2 DH3).
Notation xch := (xch C).
Notation world := (world C).

(** *** A synchronous call is the coroutine run without interruption. *)
Fixpoint drive (n : nat) (r : role) (id : key) (p : xch * result (outcome C)) : xch * result (outcome C) :=
  match n, p with
  | S n, (x, Ok (Suspended t)) => drive n r id (resume r id t x)
  | _, _ => p
  end.

Ltac step1 :=
  match goal with
  | |- context [match ?d with Ok _ => _ | Err _ => _ end] => is_var d; destruct d
  | |- context [match ?d with Ok _ => _ | Err _ => _ end] =>
      lazymatch d with context [match _ with _ => _ end] => fail | _ => let E := fresh "E" in destruct d eqn:E end
  | |- context [match ?d with Some _ => _ | None => _ end] =>
      lazymatch d with context [match _ with _ => _ end] => fail | _ => let E := fresh "E" in destruct d eqn:E end
  end.

Ltac crunch :=
  repeat (progress (cbn -[exchange CurveModel.kdf]; unfold CurveModel.call_sync, CurveModel.resume, CurveModel.start, c2_send, c2_receive, s2_receive, c3_send, c3_receive, s3_receive, server_send, finish,
    no_method, fresh_key, bindM, lift, ret, get, set_peer_id, set_peer_eph, set_my_eph, exchange_with)).

Lemma drive_sync r id c x :
  drive 4 r id (start r id c x) =
  let (x', v) := call_sync r id c x in (x', match v with Ok v => Ok (Done v) | Err e => Err e end).
Proof.
  destruct x as [me pi pe lg].
  destruct r, c; crunch; try reflexivity; repeat (step1; crunch; try reflexivity); try congruence; rewrite <- ?app_assoc in *; congruence.
Qed.

Lemma remove_last {A} (l : list A) (a : A) : remove_nth (length l) (l ++ [a]) = l.
Proof.
  unfold remove_nth. rewrite firstn_app, firstn_all, Nat.sub_diag. cbn [firstn]. rewrite app_nil_r.
  rewrite skipn_all2 by (rewrite app_length; cbn; lia). now rewrite app_nil_r.
Qed.

Lemma drive_resumes r (w : world) n p :
  do_events r (settle C w (w_tasks w) p) (repeat (Resume (length (w_tasks w))) n) = settle C w (w_tasks w) (drive n r (w_id w) p).
Proof.
  revert p. induction n as [|n IH]; intros p; [reflexivity|]. unfold do_events in *. cbn [repeat fold_left].
  destruct p as [x [[v|t]|e]]; cbn [drive].
  - replace (do_event r (settle C w (w_tasks w) (x, Ok (Done v))) (Resume (length (w_tasks w)))) with (settle C w (w_tasks w) (x, Ok (Done v))).
    + rewrite IH. destruct n; reflexivity.
    + cbn. now rewrite (proj2 (nth_error_None _ _)) by lia.
  - rewrite <- IH. f_equal. cbn. rewrite nth_error_app2, Nat.sub_diag by lia. cbn [nth_error]. now rewrite remove_last.
  - replace (do_event r (settle C w (w_tasks w) (x, Err e)) (Resume (length (w_tasks w)))) with (settle C w (w_tasks w) (x, Err e)).
    + rewrite IH. destruct n; reflexivity.
    + cbn. now rewrite (proj2 (nth_error_None _ _)) by lia.
Qed.

Lemma sync_is_async r w c :
  do_event r w (Sync c) = do_events r w (Start c :: repeat (Resume (length (w_tasks w))) 4).
Proof.
  change (do_events r w (Start c :: repeat (Resume (length (w_tasks w))) 4))
    with (do_events r (settle C w (w_tasks w) (start r (w_id w) c (w_obj w))) (repeat (Resume (length (w_tasks w))) 4)).
  rewrite drive_resumes, drive_sync. cbn [CurveModel.do_event].
  destruct (call_sync r (w_id w) c (w_obj w)) as [x [v|e]]; reflexivity.
Qed.

(** *** Invariant of all histories *)
Definition le (x x' : xch) : Prop :=
  keeps (my_eph x) (my_eph x') /\ keeps (peer_id x) (peer_id x') /\ keeps (peer_eph x) (peer_eph x').
Definition le_id (k k' : key) : Prop := keeps (k_secret k) (k_secret k') /\ keeps (k_public k) (k_public k').

Definition exchanges (r : role) (pid : option (public C)) (peph : public C) : list (who * public C) :=
  match r, pid with
  | Client2, Some p => [(Ephemeral, p); (Ephemeral, peph)]
  | Server2, _ => [(Identity, peph); (Ephemeral, peph)]
  | Client3, Some p => [(Ephemeral, p); (Identity, peph); (Ephemeral, peph)]
  | Server3, Some p => [(Identity, peph); (Ephemeral, p); (Ephemeral, peph)]
  | _, None => []
  end.
Definition pick (id eph : key) (w : who) : key := match w with Identity => id | Ephemeral => eph end.
Fixpoint shares (id eph : key) (l : list (who * public C)) : result bytes :=
  match l with
  | [] => Ok []
  | (w, p) :: l => b <- exchange C (pick id eph w) (PKey p) ;; bs <- shares id eph l ;; Ok (b ++ bs)
  end.
Definition pid_ok (r : role) (pid : option (public C)) : Prop :=
  match r with Server2 => pid = None | _ => pid <> None end.
Definition kdf_of (r : role) (id eph : key) (pid : option (public C)) (peph : public C) (sh : bytes) : result payload :=
  e <- public_bytes C eph ;;
  match r, pid with
  | Client2, Some p => kdf DH2 [e; raw_public C p; raw_public C peph] sh
  | Server2, _ => i <- public_bytes C id ;; kdf DH2 [raw_public C peph; i; e] sh
  | Client3, Some p => i <- public_bytes C id ;; kdf DH3 [i; e; raw_public C p; raw_public C peph] sh
  | Server3, Some p => i <- public_bytes C id ;; kdf DH3 [raw_public C p; raw_public C peph; i; e] sh
  | _, None => Err AttributeErr
  end.

Definition task_ok (r : role) (cs : list (xcall C)) (id : key) (x : xch) (t : task C) : Prop :=
  match t with
  | SendGen s => client r /\ exists a, In (Send s a) cs
  | RecvGen s a1 a2 => ~ client r /\ In (Receive s a1 a2) cs
  | Exchanging todo shared eph pid peph =>
    my_eph x = Some eph /\ peer_id x = pid /\ peer_eph x = Some peph /\ pid_ok r pid /\ todo <> [] /\
    exists dn, dn ++ todo = exchanges r pid peph /\ shares id eph dn = Ok shared
  end.
Definition value_ok (r : role) (id : key) (x : xch) (v : value) : Prop :=
  match v with
  | Kdf p => exists eph pid peph sh, my_eph x = Some eph /\ peer_id x = pid /\ peer_eph x = Some peph /\ pid_ok r pid /\
      shares id eph (exchanges r pid peph) = Ok sh /\ kdf_of r id eph pid peph sh = Ok p
  | Messages l => exists eph e, my_eph x = Some eph /\ public_bytes C eph = Ok e /\
      (if match r with Client3 => true | _ => false end then exists i, public_bytes C id = Ok i /\ l = [i; e] else l = [e])
  end.

Definition obj_ok (r : role) (cs : list (xcall C)) (id : key) (x : xch) : Prop :=
  (forall k, my_eph x = Some k -> exists s c, In c cs /\ draws C c s /\ k = pair_of s) /\
  (forall p, peer_eph x = Some p -> exists s a1 a2, In (Receive s a1 a2) cs /\ process_public C a2 = Ok p) /\
  (forall p, peer_id x = Some p -> (client r /\ exists s a, In (Send s a) cs /\ process_public C a = Ok p) \/
     (r = Server3 /\ exists s a1 a2, In (Receive s a1 a2) cs /\ process_public C a1 = Ok p)) /\
  (forall s p, In (s, p) (x_log x) -> (my_eph x = Some (pair_of s) \/ k_secret id = Some s) /\
     (peer_id x = Some p \/ peer_eph x = Some p)).

Lemma keeps_refl {A} (a : option A) : keeps a a.
Proof. intros x E. exact E. Qed.
Lemma keeps_none {A} (a : option A) : keeps None a.
Proof. intros x E. discriminate. Qed.
Hint Resolve keeps_refl keeps_none : core.

Lemma exchange_mono k k' a b : le_id k k' -> exchange C k a = Ok b -> exchange C k' a = Ok b.
Proof.
  intros [L _] E. unfold exchange in *. apply bind_ok in E as (p & -> & E). cbn. destruct (k_secret k) as [s|] eqn:K; [|discriminate].
  now rewrite (L _ eq_refl).
Qed.
Lemma public_bytes_mono k k' b : le_id k k' -> public_bytes C k = Ok b -> public_bytes C k' = Ok b.
Proof.
  intros [_ L] E. unfold public_bytes in *. destruct (k_public k) as [s|] eqn:K; [|discriminate]. now rewrite (L _ eq_refl).
Qed.
Lemma le_id_refl k : le_id k k. Proof. split; auto. Qed.
Hint Resolve le_id_refl : core.
Lemma shares_mono id id' eph l b : le_id id id' -> shares id eph l = Ok b -> shares id' eph l = Ok b.
Proof.
  intros L. revert b. induction l as [|[w p] l IH]; intros b; cbn [shares]; [auto|].
  intros E. apply bind_ok in E as (c & E1 & E). apply bind_ok in E as (d & E2 & E).
  rewrite (exchange_mono (pick id eph w) (pick id' eph w) _ c); [|now destruct w|exact E1]. cbn. rewrite (IH _ E2). exact E.
Qed.
Lemma shares_snoc id eph l w p b c : shares id eph l = Ok b -> exchange C (pick id eph w) (PKey p) = Ok c -> shares id eph (l ++ [(w, p)]) = Ok (b ++ c).
Proof.
  revert b. induction l as [|[v q] l IH]; intros b; cbn [shares app].
  - intros E X. injection E as <-. rewrite X. cbn. now rewrite app_nil_r.
  - intros E X. apply bind_ok in E as (d & -> & E). apply bind_ok in E as (d' & E2 & E). injection E as <-. cbn. rewrite (IH _ E2 X). cbn. now rewrite app_assoc.
Qed.
Lemma kdf_of_mono r id id' eph pid peph sh p : le_id id id' -> kdf_of r id eph pid peph sh = Ok p -> kdf_of r id' eph pid peph sh = Ok p.
Proof.
  intros L. unfold kdf_of. destruct (public_bytes C eph); [|discriminate]. cbn.
  destruct r, pid; auto; intros E; apply bind_ok in E as (i & Ei & E); rewrite (public_bytes_mono _ _ _ L Ei); exact E.
Qed.

Lemma task_mono r cs cs' id id' x x' t : incl cs cs' -> le_id id id' -> le x x' -> (r = Server2 -> peer_id x' = None) ->
  task_ok r cs id x t -> task_ok r cs' id' x' t.
Proof.
  intros I L (Le & Li & Lp) S T. destruct t as [s|s a1 a2|todo sh eph pid peph]; cbn in *.
  - destruct T as [T (a & Ia)]. split; [exact T|]. exists a. apply I, Ia.
  - destruct T as [T Ia]. split; [exact T|]. apply I, Ia.
  - destruct T as (E1 & E2 & E3 & P & Nt & dn & Ed & Sh). split; [exact (Le _ E1)|]. split.
    { destruct r; cbn in P; [|rewrite P; now apply S| |]; destruct pid; try contradiction; exact (Li _ E2). }
    split; [exact (Lp _ E3)|]. split; [exact P|]. split; [exact Nt|]. exists dn. split; [exact Ed|]. eapply shares_mono; eassumption.
Qed.
Lemma value_mono r id id' x x' v : le_id id id' -> le x x' -> (r = Server2 -> peer_id x' = None) -> value_ok r id x v -> value_ok r id' x' v.
Proof.
  intros L (Le & Li & Lp) S T. destruct v as [l|p]; cbn in *.
  - destruct T as (eph & e & E1 & E2 & E3). exists eph, e. split; [exact (Le _ E1)|]. split; [exact E2|].
    destruct r; auto. destruct E3 as (i & Ei & ->). exists i. split; [|reflexivity]. eapply public_bytes_mono; eassumption.
  - destruct T as (eph & pid & peph & sh & E1 & E2 & E3 & P & Sh & K). exists eph, pid, peph, sh. split; [exact (Le _ E1)|]. split.
    { destruct r; cbn in P; [|rewrite P; now apply S| |]; destruct pid; try contradiction; exact (Li _ E2). }
    split; [exact (Lp _ E3)|]. split; [exact P|]. split; [eapply shares_mono; eassumption|]. eapply kdf_of_mono; eassumption.
Qed.

Definition some_peer (x : xch) : nat := match peer_eph x with Some _ => 1 | None => 0 end.
Definition task_weight (t : task C) : nat := match t with Exchanging _ _ _ _ _ => 1 | _ => 0 end.
Definition value_weight (v : value) : nat := match v with Kdf _ => 1 | _ => 0 end.
Definition out_weight (o : result (outcome C)) : nat :=
  match o with Ok (Suspended t) => task_weight t | Ok (Done v) => value_weight v | Err _ => 0 end.
Definition out_ok r cs id x (o : result (outcome C)) : Prop :=
  match o with Ok (Suspended t) => task_ok r cs id x t | Ok (Done v) => value_ok r id x v | Err _ => True end.

Lemma server2_no_peer_id r cs id x : obj_ok r cs id x -> r = Server2 -> peer_id x = None.
Proof.
  intros (_ & _ & I & _) ->. destruct (peer_id x); [|reflexivity]. destruct (I _ eq_refl) as [[[E|E] _]|[E _]]; discriminate.
Qed.

Notation mkx := (Build_xch C).
Lemma obj_set_peer_id r cs id me pe lg p : obj_ok r cs id (mkx me None pe lg) ->
  ((client r /\ exists s a, In (Send s a) cs /\ process_public C a = Ok p) \/
   (r = Server3 /\ exists s a1 a2, In (Receive s a1 a2) cs /\ process_public C a1 = Ok p)) ->
  obj_ok r cs id (mkx me (Some p) pe lg).
Proof.
  intros (O1 & O2 & O3 & O4) J. unfold obj_ok. cbn in *. split; [exact O1|]. split; [exact O2|]. split.
  - intros q E. injection E as <-. exact J.
  - intros s q I. destruct (O4 _ _ I) as [L [D|D]]; [discriminate|auto].
Qed.
Lemma obj_set_peer_eph r cs id me pi lg p : obj_ok r cs id (mkx me pi None lg) ->
  (exists s a1 a2, In (Receive s a1 a2) cs /\ process_public C a2 = Ok p) ->
  obj_ok r cs id (mkx me pi (Some p) lg).
Proof.
  intros (O1 & O2 & O3 & O4) J. unfold obj_ok. cbn in *. split; [exact O1|]. split; [|split; [exact O3|]].
  - intros q E. injection E as <-. exact J.
  - intros s q I. destruct (O4 _ _ I) as [L [D|D]]; [auto|discriminate].
Qed.
Lemma obj_set_my_eph r cs id pi pe lg s : obj_ok r cs id (mkx None pi pe lg) ->
  (exists c, In c cs /\ draws C c s) -> obj_ok r cs id (mkx (Some (pair_of s)) pi pe lg).
Proof.
  intros (O1 & O2 & O3 & O4) (c & Ic & D). unfold obj_ok. cbn in *. split; [|split; [exact O2|split; [exact O3|]]].
  - intros k E. injection E as <-. exists s, c. auto.
  - intros s' q I. destruct (O4 _ _ I) as [[L|L] R]; [discriminate|auto].
Qed.
Lemma obj_log r cs id me pi pe lg s p : obj_ok r cs id (mkx me pi pe lg) ->
  (me = Some (pair_of s) \/ k_secret id = Some s) -> (pi = Some p \/ pe = Some p) ->
  obj_ok r cs id (mkx me pi pe (lg ++ [(s, p)])).
Proof.
  intros (O1 & O2 & O3 & O4) J1 J2. unfold obj_ok. cbn in *. split; [exact O1|]. split; [exact O2|]. split; [exact O3|].
  intros s' q I. apply in_app_iff in I as [I|[E|[]]]; [exact (O4 _ _ I)|]. injection E as <- <-. auto.
Qed.
Lemma le_refl x : le x x.
Proof. repeat split; auto. Qed.
Lemma client2 : client Client2. Proof. now left. Qed.
Lemma client3 : client Client3. Proof. now right. Qed.
Lemma not_client2 : ~ client Server2. Proof. intros [E|E]; discriminate. Qed.
Lemma not_client3 : ~ client Server3. Proof. intros [E|E]; discriminate. Qed.
Hint Resolve le_refl client2 client3 not_client2 not_client3 : core.

Lemma start_ok r cs id x c x' o : In c cs -> obj_ok r cs id x -> start r id c x = (x', o) ->
  le x x' /\ obj_ok r cs id x' /\ out_ok r cs id x' o /\ (out_weight o + some_peer x <= some_peer x')%nat.
Proof.
  intros Ic O E. destruct x as [me pi pe lg].
  revert E. destruct r, c; crunch; repeat (step1; crunch; subst); intros EQ; injection EQ as <- <-;
    try (split; [apply le_refl|]; split; [exact O|]; cbn; auto; fail).
  - split; [repeat split; cbn; auto|]. split; [apply obj_set_peer_id; [exact O|left; eauto]|]. cbn. split; [eauto|auto].
  - split; [repeat split; cbn; auto|]. split; [apply obj_set_peer_eph; [exact O|eauto]|]. cbn. split; [|auto].
    do 3 (split; [reflexivity|]). split; [discriminate|]. split; [discriminate|]. now exists [].
  - split; [auto|]. split; [exact O|]. cbn. split; [|auto]. exists k, a. auto.
  - split; [repeat split; cbn; auto|]. split; [apply obj_set_peer_id; [exact O|left; eauto]|]. cbn. split; [eauto|auto].
  - split; [repeat split; cbn; auto|]. split; [apply obj_set_peer_eph; [exact O|eauto]|]. cbn. split; [|auto].
    do 3 (split; [reflexivity|]). split; [discriminate|]. split; [discriminate|]. now exists [].
  - split; [auto|]. split; [exact O|]. cbn. split; [|auto]. exists k, a. auto.
Qed.

Definition fin_ok (k : result payload) (o : result (outcome C)) : Prop :=
  match o with Ok (Done (Kdf p)) => k = Ok p | Err _ => True | _ => False end.
Lemma finish_ok r id eph pid peph sh x x' o : peer_id x = pid -> peer_eph x = Some peph ->
  finish C H KDF_DOMAIN salt DH2 DH3 r id eph pid peph sh x = (x', o) ->
  x' = x /\ fin_ok (kdf_of r id eph pid peph sh) o.
Proof.
  intros E1 E2. destruct x as [me pi pe lg]. cbn in E1, E2. subst.
  destruct r, pid; crunch; repeat (step1; crunch); intros EQ; apply pair_equal_spec in EQ as [<- <-]; (split; [reflexivity|]); try exact I;
    unfold fin_ok, kdf_of, bind; repeat match goal with E : ?a = Ok _ |- context [?a] => rewrite E end; reflexivity.
Qed.

Lemma exchanges_in r pid peph w p : In (w, p) (exchanges r pid peph) -> Some p = pid \/ p = peph.
Proof.
  destruct r, pid; cbn; intros I; repeat (destruct I as [I|I]; [injection I as <- <-; auto|]); contradiction.
Qed.

Lemma resume_ok r cs id x t x' o : task_ok r cs id x t -> obj_ok r cs id x -> resume r id t x = (x', o) ->
  le x x' /\ obj_ok r cs id x' /\ out_ok r cs id x' o /\ (out_weight o + some_peer x <= task_weight t + some_peer x')%nat.
Proof.
  intros T O E. destruct t as [s|s a1 a2|todo sh eph pid peph].
  - destruct T as [Cl (a & Ia)]. destruct x as [[k|] pi pe lg].
    + revert E. destruct r; crunch; intros E; injection E as <- <-; cbn; auto.
    + assert (O' : obj_ok r cs id (mkx (Some (pair_of s)) pi pe lg)).
      { apply obj_set_my_eph; [exact O|]. exists (Send s a). split; [exact Ia|]. left. eauto. }
      assert (L : le (mkx None pi pe lg) (mkx (Some (pair_of s)) pi pe lg)) by (repeat split; cbn; auto).
      revert E. destruct r; crunch; try step1; crunch; intros EQ; injection EQ as <- <-;
        (split; [exact L|]); (split; [exact O'|]); cbn; (split; [|auto]); auto;
        exists (pair_of s), (raw_public C (public_of C s)); (split; [reflexivity|]); (split; [reflexivity|]); eauto.
  - destruct T as [Cl Ia]. destruct x as [[k|] pi pe lg].
    + revert E. destruct r; crunch; intros E; injection E as <- <-; cbn; auto.
    + assert (O' : obj_ok r cs id (mkx (Some (pair_of s)) pi pe lg)).
      { apply obj_set_my_eph; [exact O|]. exists (Receive s a1 a2). split; [exact Ia|]. right. eauto. }
      assert (L : le (mkx None pi pe lg) (mkx (Some (pair_of s)) pi pe lg)) by (repeat split; cbn; auto).
      destruct r; [destruct Cl; auto| |destruct Cl; auto|].
      * pose proof (server2_no_peer_id _ _ _ _ O eq_refl) as P. cbn in P. subst pi.
        revert E. crunch; repeat (step1; crunch; subst); intros EQ; injection EQ as <- <-;
          try (split; [exact L|]; split; [exact O'|]; cbn; auto; fail).
        split; [repeat split; cbn; auto|]. split; [apply obj_set_peer_eph; [exact O'|eauto]|]. cbn. split; [|auto].
        do 4 (split; [reflexivity|]). split; [discriminate|]. now exists [].
      * revert E. crunch; repeat (step1; crunch; subst); intros EQ; injection EQ as <- <-;
          try (split; [exact L|]; split; [exact O'|]; cbn; auto; fail);
          try (split; [repeat split; cbn; auto|]; split; [apply obj_set_peer_id; [exact O'|right; eauto 6]|]; cbn; auto; fail).
        split; [repeat split; cbn; auto|]. split; [apply obj_set_peer_eph; [apply obj_set_peer_id; [exact O'|right; eauto 6]|eauto]|]. cbn. split; [|auto].
        do 3 (split; [reflexivity|]). split; [discriminate|]. split; [discriminate|]. now exists [].
  - destruct T as (E1 & E2 & E3 & P & Nt & dn & Ed & Sh). destruct todo as [|[w p] todo]; [contradiction|]. clear Nt.
    cbn [CurveModel.resume] in E. unfold bindM, exchange_with in E. fold (pick id eph w) in E.
    set (x1 := mkx (my_eph x) (peer_id x) (peer_eph x) (match k_secret (pick id eph w) with Some s => x_log x ++ [(s, p)] | None => x_log x end)) in E.
    assert (L : le x x1) by (unfold x1; repeat split; cbn; auto).
    assert (O1 : obj_ok r cs id x1).
    { unfold x1. destruct (k_secret (pick id eph w)) as [s|] eqn:K; [|destruct x; exact O].
      apply obj_log; [destruct x; exact O| |].
      - destruct w; cbn in K; [now right|left]. rewrite E1. destruct O as (O & _). destruct (O _ E1) as (s' & c & _ & _ & ->).
        cbn in K. now injection K as <-.
      - assert (In (w, p) (exchanges r pid peph)) as I by (rewrite <- Ed; apply in_or_app; right; now left).
        destruct (exchanges_in _ _ _ _ _ I) as [<-| ->]; [now left|now right]. }
    assert (W : some_peer x1 = some_peer x) by reflexivity.
    destruct (exchange C (pick id eph w) (PKey p)) as [b|e] eqn:X.
    2:{ injection E as <- <-. cbn. rewrite W. auto. }
    pose proof (shares_snoc _ _ _ _ _ _ _ Sh X) as Sh'.
    destruct todo as [|wp todo].
    + apply finish_ok in E as [-> E]; [|exact E2|exact E3]. split; [exact L|]. split; [exact O1|]. split.
      * destruct o as [[[l|q]|t]|e]; try contradiction; [|exact I]. cbn. exists eph, pid, peph, (sh ++ b). rewrite Ed in Sh'. auto 7.
      * rewrite W. destruct o as [[[l|q]|t]|e]; try contradiction; cbn; lia.
    + unfold ret in E. injection E as <- <-. split; [exact L|]. split; [exact O1|]. split; [|cbn; rewrite W; lia].
      cbn. split; [exact E1|]. split; [exact E2|]. split; [exact E3|]. split; [exact P|]. split; [discriminate|].
      exists (dn ++ [(w, p)]). split; [now rewrite <- app_assoc|exact Sh'].
Qed.

(** *** Worlds *)
Definition total {A} (f : A -> nat) (l : list A) : nat := list_sum (map f l).
Lemma total_app {A} (f : A -> nat) l1 l2 : total f (l1 ++ l2) = (total f l1 + total f l2)%nat.
Proof. unfold total. now rewrite map_app, list_sum_app. Qed.
Lemma total_one {A} (f : A -> nat) a : total f [a] = f a.
Proof. unfold total. cbn. lia. Qed.
Lemma total_remove {A} (f : A -> nat) l i a : nth_error l i = Some a -> (total f (remove_nth i l) + f a = total f l)%nat.
Proof.
  intros E. apply nth_error_split in E as (l1 & l2 & -> & <-). unfold remove_nth.
  rewrite firstn_app, firstn_all, Nat.sub_diag. cbn [firstn]. rewrite app_nil_r.
  replace (S (length l1)) with (length (l1 ++ [a])) by (rewrite app_length; cbn; lia).
  replace (l1 ++ a :: l2) with ((l1 ++ [a]) ++ l2) by now rewrite <- app_assoc.
  rewrite skipn_app, skipn_all, Nat.sub_diag. cbn [app skipn]. rewrite !total_app. unfold total. cbn. lia.
Qed.
Lemma remove_incl {A} (l : list A) i : incl (remove_nth i l) l.
Proof.
  intros a I. unfold remove_nth in I. apply in_app_iff in I as [I|I].
  - rewrite <- (firstn_skipn i l). apply in_or_app. now left.
  - rewrite <- (firstn_skipn (S i) l). apply in_or_app. now right.
Qed.
Definition res_weight (r : result value) : nat := match r with Ok v => value_weight v | Err _ => 0 end.

Record inv (r : role) (cs : list (xcall C)) (w : world) : Prop := {
  i_id : key_ok (w_id w);
  i_obj : obj_ok r cs (w_id w) (w_obj w);
  i_tasks : forall t, In t (w_tasks w) -> task_ok r cs (w_id w) (w_obj w) t;
  i_results : forall v, In (Ok v) (w_results w) -> value_ok r (w_id w) (w_obj w) v;
  i_count : (total task_weight (w_tasks w) + total res_weight (w_results w) <= some_peer (w_obj w))%nat;
}.

Lemma obj_mono r cs cs' id id' x : incl cs cs' -> le_id id id' -> obj_ok r cs id x -> obj_ok r cs' id' x.
Proof.
  intros I [L _] (O1 & O2 & O3 & O4). repeat split.
  - intros k E. destruct (O1 _ E) as (s & c & Ic & D). exists s, c. split; [apply I, Ic|exact D].
  - intros p E. destruct (O2 _ E) as (s & a1 & a2 & Ic & D). exists s, a1, a2. split; [apply I, Ic|exact D].
  - intros p E. destruct (O3 _ E) as [(Cl & s & a & Ic & D)|(Cl & s & a1 & a2 & Ic & D)]; [left|right].
    + split; [exact Cl|]. exists s, a. split; [apply I, Ic|exact D].
    + split; [exact Cl|]. exists s, a1, a2. split; [apply I, Ic|exact D].
  - destruct (O4 _ _ H0) as [[A|A] _]; [now left|right; exact (L _ A)].
  - destruct (O4 _ _ H0) as [_ A]. exact A.
Qed.

Lemma inv_mono r cs cs' w : incl cs cs' -> inv r cs w -> inv r cs' w.
Proof.
  intros I [J1 J2 J3 J4 J5]. constructor; auto.
  - eapply obj_mono; eauto.
  - intros t It. eapply task_mono; try apply J3; eauto. intros ->. eapply server2_no_peer_id; eauto.
Qed.

Lemma inv_settle r cs w tasks x' o n : inv r cs w -> incl tasks (w_tasks w) ->
  le (w_obj w) x' -> obj_ok r cs (w_id w) x' -> out_ok r cs (w_id w) x' o ->
  (total task_weight tasks + n = total task_weight (w_tasks w))%nat ->
  (out_weight o + some_peer (w_obj w) <= n + some_peer x')%nat ->
  inv r cs (settle C w tasks (x', o)).
Proof.
  intros [J1 J2 J3 J4 J5] I L O Oo T W.
  assert (S2 : r = Server2 -> peer_id x' = None) by (intros ->; eapply server2_no_peer_id; eauto).
  assert (K3 : forall t, In t tasks -> task_ok r cs (w_id w) x' t).
  { intros t It. eapply task_mono; try apply J3; auto using incl_refl. }
  assert (K4 : forall v, In (Ok v) (w_results w) -> value_ok r (w_id w) x' v).
  { intros v Iv. eapply value_mono; try apply J4; auto. }
  destruct o as [[v|t]|e]; constructor; cbn [settle w_id w_obj w_tasks w_results]; auto.
  - intros v' Iv. apply in_app_iff in Iv as [Iv|[E|[]]]; [auto|]. injection E as <-. exact Oo.
  - rewrite total_app, total_one. cbn in *. lia.
  - intros t' It. apply in_app_iff in It as [It|[<-|[]]]; [auto|exact Oo].
  - rewrite total_app, total_one. cbn in *. lia.
  - intros v' Iv. apply in_app_iff in Iv as [Iv|[E|[]]]; [auto|discriminate].
  - rewrite total_app, total_one. cbn in *. lia.
Qed.

Lemma inv_event r cs w e : (forall c, e <> Sync c) -> (forall c, e = Start c -> In c cs) -> inv r cs w -> inv r cs (do_event r w e).
Proof.
  intros NS IS J. destruct e as [c|c|i|o]; [now destruct (NS c)| | |].
  - cbn. destruct (start r (w_id w) c (w_obj w)) as [x' o] eqn:E. pose proof J as [J1 J2 J3 J4 J5].
    destruct (start_ok _ _ _ _ _ _ _ (IS _ eq_refl) J2 E) as (L & O & Oo & W).
    eapply inv_settle with (n := 0%nat); eauto using incl_refl.
  - cbn. destruct (nth_error (w_tasks w) i) as [t|] eqn:N; [|exact J].
    destruct (resume r (w_id w) t (w_obj w)) as [x' o] eqn:E. pose proof J as [J1 J2 J3 J4 J5].
    destruct (resume_ok _ _ _ _ _ _ _ (J3 _ (nth_error_In _ _ N)) J2 E) as (L & O & Oo & W).
    eapply inv_settle with (n := task_weight t); eauto using remove_incl, total_remove.
  - cbn. destruct J as [J1 J2 J3 J4 J5]. pose proof (kop_keeps _ o J1) as L. fold (le_id (w_id w) (fst (do_kop C (w_id w) o))) in L.
    assert (S2 : r = Server2 -> peer_id (w_obj w) = None) by (intros ->; eapply server2_no_peer_id; eauto).
    constructor; cbn; auto.
    + now apply key_ok_kop.
    + eapply obj_mono; eauto using incl_refl.
    + intros t It. eapply task_mono; try apply J3; auto using incl_refl.
    + intros v Iv. eapply value_mono; try apply J4; auto.
Qed.

Lemma inv_events r cs w es : (forall c, ~ In (Sync c) es) -> (forall c, In (Start c) es -> In c cs) -> inv r cs w -> inv r cs (do_events r w es).
Proof.
  revert w. induction es as [|e es IH]; intros w NS IS J; [exact J|]. cbn. apply IH.
  - intros c I. apply (NS c). now right.
  - intros c I. apply IS. now right.
  - apply inv_event; [intros c ->; apply (NS c); now left|intros c ->; apply IS; now left|exact J].
Qed.

Lemma inv_history r es w cs : inv r cs w -> inv r (cs ++ calls_of C es) (do_events r w es).
Proof.
  revert w cs. induction es as [|e es IH]; intros w cs J.
  - cbn. rewrite app_nil_r. exact J.
  - cbn [calls_of flat_map]. fold (calls_of C es). rewrite app_assoc.
    change (do_events r w (e :: es)) with (do_events r (do_event r w e) es). apply IH.
    assert (J' : inv r (cs ++ match e with Sync c | Start c => [c] | _ => [] end) w) by (eapply inv_mono; [|exact J]; apply incl_appl, incl_refl).
    destruct e as [c|c|i|o].
    + rewrite sync_is_async. apply inv_events; [| |exact J'].
      * intros c' [I|I]; [discriminate|]. apply repeat_spec in I. discriminate.
      * intros c' [I|I]; [injection I as <-; apply in_or_app; right; now left|]. apply repeat_spec in I. discriminate.
    + apply inv_event; [discriminate| |exact J']. intros c' E. injection E as <-. apply in_or_app. right. now left.
    + apply inv_event; [discriminate|discriminate|exact J'].
    + apply inv_event; [discriminate|discriminate|exact J'].
Qed.

Lemma inv_new r : inv r [] (new_world C (new_key C)).
Proof.
  constructor; cbn; try contradiction; auto.
  - now left.
  - repeat split; cbn; try discriminate; contradiction.
Qed.
Theorem history_inv r es : inv r (calls_of C es) (do_events r (new_world C (new_key C)) es).
Proof. apply (inv_history r es _ []), inv_new. Qed.

(** *** What the results say *)
Definition view_kdf (s : session) (p : payload) (key : bytes) : Prop :=
  kdf (session_domain DH2 DH3 s) (public_inputs s) key = Ok p.

Lemma public_bytes_raw k b : public_bytes C k = Ok b -> raw_of C k = Some b.
Proof. unfold public_bytes, raw_of. destruct (k_public k); [|discriminate]. cbn. congruence. Qed.

Lemma exchange_length k p b : lawful C -> exchange C k (PKey p) = Ok b -> blen b = 32.
Proof. intros (_ & _ & L) E. unfold exchange in E. cbn in E. destruct (k_secret k); [|discriminate]. exact (L _ _ _ E). Qed.
Lemma shares_length id eph l b : lawful C -> shares id eph l = Ok b -> blen b = 32 * blen l.
Proof.
  intros L. revert b. induction l as [|[w p] l IH]; intros b; cbn [shares].
  - intros E. injection E as <-. reflexivity.
  - intros E. apply bind_ok in E as (c & E1 & E). apply bind_ok in E as (d & E2 & E). injection E as <-.
    rewrite blen_app, blen_cons, (exchange_length _ _ _ L E1), (IH _ E2). lia.
Qed.

Lemma kdf_session r w p : value_ok r (w_id w) (w_obj w) (Kdf p) -> exists s eph pid peph sh,
  session_of C r w = Some s /\ my_eph (w_obj w) = Some eph /\ peer_id (w_obj w) = pid /\ peer_eph (w_obj w) = Some peph /\ pid_ok r pid /\
  shares (w_id w) eph (exchanges r pid peph) = Ok sh /\ view_kdf s p sh.
Proof.
  intros (eph & pid & peph & sh & E1 & E2 & E3 & P & S & K). unfold session_of. rewrite E1, E2, E3.
  unfold kdf_of in K. apply bind_ok in K as (e & Ee & K). rewrite (public_bytes_raw _ _ Ee).
  destruct r; destruct pid as [q|]; try discriminate P; try (now destruct P);
    try (apply bind_ok in K as (i & Ei & K); rewrite (public_bytes_raw _ _ Ei)); cbn [option_map];
    eexists _, eph, _, peph, sh; (split; [reflexivity|]); do 3 (split; [reflexivity|]); (split; [exact P|]); (split; [exact S|]); exact K.
Qed.

Lemma session_shape r w s : session_of C r w = Some s ->
  match r with
  | Client2 | Server2 => s_protocol s = 2 /\ s_client_id s = None
  | Client3 | Server3 => s_protocol s = 3 /\ exists i, s_client_id s = Some i
  end.
Proof.
  unfold session_of. destruct (my_eph (w_obj w)) as [k|]; [|discriminate].
  destruct r; repeat match goal with |- context [match ?d with Some _ => _ | None => _ end] => destruct d; try discriminate end;
    intros E; injection E as <-; cbn; eauto.
Qed.

Lemma same_kdf_same_session r1 r2 w1 w2 p : lawful C -> xof H -> h_block_size H = 168 -> blen DH2 = 8 -> blen DH3 = 8 -> DH2 <> DH3 ->
  value_ok r1 (w_id w1) (w_obj w1) (Kdf p) -> value_ok r2 (w_id w2) (w_obj w2) (Kdf p) ->
  exists s1 s2, session_of C r1 w1 = Some s1 /\ session_of C r2 w2 = Some s2 /\
    (s1 = s2 \/ exists z1 z2 y1 y2,
      first_input H KDF_DOMAIN (session_domain DH2 DH3 s1) (public_inputs s1) z1 y1 /\
      first_input H KDF_DOMAIN (session_domain DH2 DH3 s2) (public_inputs s2) z2 y2 /\ KdfSpec.collision H (h_block_size H) y1 y2).
Proof.
  intros L X B D2 D3 ND V1 V2.
  destruct (kdf_session _ _ _ V1) as (s1 & eph1 & pid1 & peph1 & sh1 & S1 & _ & _ & _ & _ & Sh1 & K1).
  destruct (kdf_session _ _ _ V2) as (s2 & eph2 & pid2 & peph2 & sh2 & S2 & _ & _ & _ & _ & Sh2 & K2).
  exists s1, s2. split; [exact S1|]. split; [exact S2|].
  assert (LX : forall r (pid : option (public C)) peph, (length (exchanges r pid peph) <= 3)%nat) by (intros r pid peph; destruct r, pid; cbn; lia).
  pose proof (shares_length _ _ _ _ L Sh1) as L1. pose proof (shares_length _ _ _ _ L Sh2) as L2.
  pose proof (LX r1 pid1 peph1) as M1. pose proof (LX r2 pid2 peph2) as M2.
  assert (LD : forall s, blen (session_domain DH2 DH3 s) = 8) by (intros s; unfold session_domain; destruct (s_protocol s =? 2); auto).
  assert (SB : separable H sh1 (session_domain DH2 DH3 s1) (public_inputs s1) sh2 (session_domain DH2 DH3 s2) (public_inputs s2)).
  { left. apply same_blocks_cases. right. rewrite !LD, L1, L2. unfold blen. lia. }
  assert (B' : h_block_size H < 2 ^ 56) by (rewrite B; reflexivity).
  destruct (payload_inj H KDF_DOMAIN salt X _ _ _ _ _ _ _ _ _ B' SB (made_new _ _ _ _ _ _ _ K1) (made_new _ _ _ _ _ _ _ K2)) as (_ & [(Ed & Ei & _)|(y1 & y2 & F1 & F2 & Co)]).
  - left. apply session_shape in S1. apply session_shape in S2. destruct s1 as [q1 c1 e1 i1 f1], s2 as [q2 c2 e2 i2 f2].
    unfold session_domain, public_inputs in *. cbn in *.
    destruct r1, r2; destruct S1 as [-> S1], S2 as [-> S2]; cbn in Ed; try congruence;
      try (destruct S1 as (j1 & ->), S2 as (j2 & ->)); try (subst c1 c2); injection Ei; intros; subst; reflexivity.
  - right. exists sh1, sh2, y1, y2. auto.
Qed.

Lemma raw_inj p q : lawful C -> raw_public C p = raw_public C q -> p = q.
Proof. intros (R & _) E. apply (f_equal (from_public C)) in E. rewrite !R in E. congruence. Qed.
Lemma raw_map_inj (a : option (public C)) q b : lawful C -> option_map (raw_public C) a = Some b -> raw_public C q = b -> a = Some q.
Proof. intros L E F. destruct a as [p|]; [|discriminate]. cbn in E. f_equal. apply raw_inj; [exact L|congruence]. Qed.

(** An identity key that took part in an exchange has its secret key. *)
Lemma has_secret k p b : key_ok k -> exchange C k (PKey p) = Ok b -> exists s, k = pair_of s /\ dh C s p = Ok b.
Proof.
  intros K E. unfold exchange in E. cbn in E. destruct K as [->|[(s & ->)|(q & ->)]]; cbn in E; try discriminate. eauto.
Qed.

Lemma opposite_agree r1 r2 w1 w2 p1 p2 cs1 cs2 : lawful C -> opposite r1 r2 -> inv r1 cs1 w1 -> inv r2 cs2 w2 ->
  value_ok r1 (w_id w1) (w_obj w1) (Kdf p1) -> value_ok r2 (w_id w2) (w_obj w2) (Kdf p2) ->
  session_of C r1 w1 = session_of C r2 w2 -> p1 = p2.
Proof.
  intros L Op J1 J2 V1 V2 ES. pose proof L as (_ & Comm & _).
  destruct (kdf_session _ _ _ V1) as (s1 & eph1 & pid1 & peph1 & sh1 & S1 & A1 & A2 & A3 & A4 & Sh1 & K1).
  destruct (kdf_session _ _ _ V2) as (s2 & eph2 & pid2 & peph2 & sh2 & S2 & B1 & B2 & B3 & B4 & Sh2 & K2).
  assert (s1 = s2) as <- by congruence.
  destruct (i_obj _ _ _ J1) as (O1 & _). destruct (O1 _ A1) as (a & _ & _ & _ & ->). clear O1.
  destruct (i_obj _ _ _ J2) as (O2 & _). destruct (O2 _ B1) as (b & _ & _ & _ & ->). clear O2.
  assert (sh1 = sh2) as E.
  2:{ subst. unfold view_kdf in *. congruence. }
  destruct Op as [[-> ->]|[-> ->]].
  - destruct pid1 as [q1|]; [|now destruct A4]. cbn in B4. subst pid2.
    cbn [exchanges shares pick] in Sh1, Sh2.
    apply bind_ok in Sh1 as (c1 & E1 & Sh1). apply bind_ok in Sh1 as (c2 & F1 & Sh1). apply bind_ok in F1 as (c3 & F1 & G1). injection G1 as <-. injection Sh1 as <-.
    apply bind_ok in Sh2 as (d1 & E2 & Sh2). apply bind_ok in Sh2 as (d2 & F2 & Sh2). apply bind_ok in F2 as (d3 & F2 & G2). injection G2 as <-. injection Sh2 as <-.
    destruct (has_secret _ _ _ (i_id _ _ _ J2) E2) as (t & Et & E2'). 
    unfold session_of in S1, S2. rewrite A1, A2, A3 in S1. rewrite B1, B3, Et in S2. cbn in S1, S2.
    injection S1 as <-. injection S2 as H1 H2 H3. apply raw_inj in H1; [|exact L]. apply raw_inj in H2; [|exact L]. apply raw_inj in H3; [|exact L]. subst.
    cbn in E1, F1, F2. rewrite Comm in E1. rewrite Comm in F1. congruence.
  - destruct pid1 as [q1|]; [|now destruct A4]. destruct pid2 as [q2|]; [|now destruct B4].
    cbn [exchanges shares pick] in Sh1, Sh2.
    apply bind_ok in Sh1 as (c1 & E1 & Sh1). apply bind_ok in Sh1 as (c2 & F1 & Sh1). apply bind_ok in F1 as (c3 & F1 & G1). apply bind_ok in G1 as (c4 & G1 & I1). apply bind_ok in G1 as (c5 & G1 & K1'). injection K1' as <-. injection I1 as <-. injection Sh1 as <-.
    apply bind_ok in Sh2 as (d1 & E2 & Sh2). apply bind_ok in Sh2 as (d2 & F2 & Sh2). apply bind_ok in F2 as (d3 & F2 & G2). apply bind_ok in G2 as (d4 & G2 & I2). apply bind_ok in G2 as (d5 & G2 & K2'). injection K2' as <-. injection I2 as <-. injection Sh2 as <-.
    destruct (has_secret _ _ _ (i_id _ _ _ J2) E2) as (t & Et & E2').
    destruct (has_secret _ _ _ (i_id _ _ _ J1) F1) as (u & Eu & F1').
    unfold session_of in S1, S2. rewrite A1, A2, A3, Eu in S1. rewrite B1, B2, B3, Et in S2. cbn in S1, S2.
    injection S1 as <-. injection S2 as H1 H2 H3 H4. apply raw_inj in H1; [|exact L]. apply raw_inj in H2; [|exact L]. apply raw_inj in H3; [|exact L]. apply raw_inj in H4; [|exact L]. subst.
    cbn in E1, G1, F2, G2. rewrite Comm in E1. rewrite Comm in F1'. rewrite Comm in G1. congruence.
Qed.

Lemma kdfs_total w : length (kdfs C w) = total res_weight (w_results w).
Proof.
  unfold kdfs, total. induction (w_results w) as [|r l IH]; [reflexivity|]. cbn. rewrite app_length, IH. now destruct r as [[]|].
Qed.

Lemma messages_said r w l : value_ok r (w_id w) (w_obj w) (Messages l) -> messages C r w = Some l.
Proof.
  intros (eph & e & E1 & E2 & E3). unfold messages. rewrite E1, (public_bytes_raw _ _ E2).
  destruct r; try (now rewrite E3). destruct E3 as (i & Ei & ->). now rewrite (public_bytes_raw _ _ Ei).
Qed.

(** *** Later *)
Lemma do_events_app r w es1 es2 : do_events r w (es1 ++ es2) = do_events r (do_events r w es1) es2.
Proof. unfold CurveModel.do_events. apply fold_left_app. Qed.

Lemma event_le r cs w e : inv r cs w -> le (w_obj w) (w_obj (do_event r w e)) /\ le_id (w_id w) (w_id (do_event r w e)).
Proof.
  revert e. assert (G : forall cs w e, (forall c, e <> Sync c) -> inv r cs w -> le (w_obj w) (w_obj (do_event r w e)) /\ le_id (w_id w) (w_id (do_event r w e))).
  { clear cs w. intros cs w e NS J. destruct e as [c|c|i|o]; [now destruct (NS c)| | |].
    - apply (inv_mono r cs (c :: cs)) in J; [|now right]. cbn. destruct (start r (w_id w) c (w_obj w)) as [x' o] eqn:E.
      destruct (start_ok r (c :: cs) _ _ _ _ _ (or_introl eq_refl) (i_obj _ _ _ J) E) as (L & _). destruct o as [[v|t]|e]; cbn; auto.
    - cbn. destruct (nth_error (w_tasks w) i) as [t|] eqn:N; [|auto].
      destruct (resume r (w_id w) t (w_obj w)) as [x' o] eqn:E.
      destruct (resume_ok _ _ _ _ _ _ _ (i_tasks _ _ _ J _ (nth_error_In _ _ N)) (i_obj _ _ _ J) E) as (L & _). destruct o as [[v|t']|e]; cbn; auto.
    - cbn. split; [auto|]. apply kop_keeps, J. }
  assert (G' : forall es cs w, (forall c, ~ In (Sync c) es) -> (forall c, In (Start c) es -> In c cs) -> inv r cs w ->
      le (w_obj w) (w_obj (do_events r w es)) /\ le_id (w_id w) (w_id (do_events r w es))).
  { clear cs w. induction es as [|e es IH]; intros cs w NS IS J; [cbn; auto|].
    assert (NE : forall c, e <> Sync c) by (intros c ->; apply (NS c); now left).
    destruct (G cs w e NE J) as ((A1 & A2 & A3) & (A4 & A5)).
    destruct (IH cs (do_event r w e)) as ((B1 & B2 & B3) & (B4 & B5)).
    - intros c I. apply (NS c). now right.
    - intros c I. apply IS. now right.
    - apply inv_event; [exact NE|intros c ->; apply IS; now left|exact J].
    - change (do_events r w (e :: es)) with (do_events r (do_event r w e) es).
      repeat split; intros v Ev; auto. }
  intros e J. destruct e as [c|c|i|o].
  - rewrite sync_is_async. apply (G' _ (c :: cs)).
    + intros c' [I|I]; [discriminate|]. apply repeat_spec in I. discriminate.
    + intros c' [I|I]; [injection I as <-; now left|]. apply repeat_spec in I. discriminate.
    + apply (inv_mono r cs); [now right|exact J].
  - eapply G; [discriminate|exact J].
  - eapply G; [discriminate|exact J].
  - eapply G; [discriminate|exact J].
Qed.

Lemma events_le r cs w es : inv r cs w -> le (w_obj w) (w_obj (do_events r w es)) /\ le_id (w_id w) (w_id (do_events r w es)).
Proof.
  revert cs w. induction es as [|e es IH]; intros cs w J; [cbn; auto|].
  destruct (event_le r cs w e J) as ((A1 & A2 & A3) & (A4 & A5)).
  destruct (IH (cs ++ calls_of C [e]) (do_event r w e)) as ((B1 & B2 & B3) & (B4 & B5)).
  { exact (inv_history r [e] w cs J). }
  change (do_events r w (e :: es)) with (do_events r (do_event r w e) es).
  repeat split; intros v Ev; auto.
Qed.

Lemma session_mono r w1 w2 s : le (w_obj w1) (w_obj w2) -> le_id (w_id w1) (w_id w2) -> session_of C r w1 = Some s -> session_of C r w2 = Some s.
Proof.
  intros (A1 & A2 & A3) (A4 & A5). unfold session_of, raw_of.
  destruct (my_eph (w_obj w1)) as [eph|]; [|discriminate]. rewrite (A1 _ eq_refl).
  destruct (k_public eph) as [e0|]; [|destruct r; cbn; repeat match goal with |- context [match ?d with Some _ => _ | None => _ end] => destruct d end; discriminate].
  destruct (peer_id (w_obj w1)) as [p0|]; [rewrite (A2 _ eq_refl)|]; (destruct (peer_eph (w_obj w1)) as [q|]; [rewrite (A3 _ eq_refl)|]);
    (destruct (k_public (w_id w1)) as [i|]; [rewrite (A5 _ eq_refl)|]); destruct r; cbn; auto; try discriminate;
    repeat match goal with |- context [match ?d with Some _ => _ | None => _ end] => destruct d end; discriminate.
Qed.

Lemma session_stays r es1 es2 s :
  let w1 := do_events r (new_world C (new_key C)) es1 in
  let w2 := do_events r (new_world C (new_key C)) (es1 ++ es2) in
  session_of C r w1 = Some s -> session_of C r w2 = Some s.
Proof.
  intros w1 w2. unfold w2. rewrite do_events_app. destruct (events_le r _ w1 es2 (history_inv r es1)) as [L1 L2]. now apply session_mono.
Qed.

Lemma server_spent r id x s1 a1 a2 id' s2 b1 b2 : r = Server2 \/ r = Server3 ->
  let x' := fst (call_sync r id (Receive s1 a1 a2) x) in
  call_sync r id' (Receive s2 b1 b2) x' = (x', Err PermissionErr).
Proof.
  intros R x'. assert (exists k, my_eph x' = Some k) as (k & E).
  { unfold x'. clear - R. destruct x as [me pi pe lg]. destruct R as [-> | ->]; crunch; repeat (step1; crunch); eauto. }
  destruct x' as [me pi pe lg]. cbn in E. subst me. destruct R as [-> | ->]; crunch; reflexivity.
Qed.

Lemma client_survives r id x s a1 a2 e : client r -> process_public C a2 = Err e ->
  exists e', call_sync r id (Receive s a1 a2) x = (x, Err e').
Proof.
  intros R E. destruct x as [me pi pe lg]. destruct R as [-> | ->]; crunch; rewrite E; repeat (step1; crunch); eauto.
Qed.
End K.

(** A new object can always be created from keys and inputs that fit. *)
Lemma new_kdf_total H KD salt d data k : xof H -> 0 < h_block_size H < 2 ^ 56 -> k ++ d <> [] -> blen (k ++ d) < 2 ^ 64 ->
  Forall (fun i => blen i < 2 ^ 64) (KD :: d :: data) -> blen data < 2 ^ 60 -> exists p, new_kdf H KD salt d data k = Ok p.
Proof.
  intros (X & _ & _) B Nk Lk F L. unfold new_kdf, hash_bytes, hash_bytes_absorbed, zero_pad.
  destruct (encode_key_total (k ++ d) (h_block_size H) x00 Nk ltac:(lia) Lk) as (pre & ->). cbn [bind].
  assert (size_or (Some (h_block_size H)) (h_digest_size H) = h_block_size H) as -> by (unfold size_or; now replace (h_block_size H =? 0) with false by lia).
  rewrite to_bytes_be_fit by (change (256 ^ INT_BYTES) with (2 ^ 64); lia). cbn [bind].
  match goal with |- context [canonical_pack ?l ?b ?q ?w] => assert (exists pk, canonical_pack l b q w = Ok pk) as (pk & ->); [apply canonical_pack_total|] end.
  { unfold CanonSpec.fits. change (256 ^ INT_BYTES) with (2 ^ 64). split; [unfold INT_BYTES; lia|]. split; [lia|].
    split; [rewrite !blen_cons; unfold blen, bytes in *; lia|].
    constructor; [rewrite blen_be_enc; vm_compute; reflexivity|exact F]. }
  cbn [bind]. unfold truthy_size, call_digest. replace (h_block_size H =? 0) with false by lia. rewrite X. cbn. eauto.
Qed.
