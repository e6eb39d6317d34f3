(** * Trees of databases over their lives: proofs *)
From Coq Require Import Lia Permutation.
From Verif Require Import Base BaseFacts DbModel DbSpec DbProofs TreeModel TreeSpec TreeProofs ForestSpec.
Local Open Scope nat_scope.

Section F.
Variable json : Type.
Variable dumps : json -> result bytes.
Variable loads : bytes -> result json.
Variable key : Type.
Variable root_filename : key -> bytes.
Variable filename_of : key -> bytes -> bytes -> bytes.
Variable encrypt : nat -> key -> bytes -> bytes -> bytes -> bytes.
Variable decrypt : key -> bytes -> bytes -> bytes -> result bytes.
Variable encrypt_manifest : nat -> key -> bytes -> bytes.
Variable decrypt_manifest : key -> bytes -> result bytes.
Variable new_salt : nat -> bytes.
Variable manifest_text : manifest -> bytes.
Variable manifest_of_text : bytes -> result manifest.
Variable set_order : list bytes -> list bytes.
Variable child_key : key -> bytes -> bytes -> key.
Variable reserved : bytes -> bool.

Notation db := (db json key).
Notation op := (op json).
Notation node := (node json key).
Notation Node := (Node json key).
Notation self := (self json key).
Notation kids := (kids json key).
Notation find := (find json key).
Notation metatags := (metatags json key).
Notation perform := (perform json dumps loads key root_filename filename_of encrypt decrypt encrypt_manifest manifest_text set_order).
Notation query_tag := (query_tag json loads key filename_of decrypt).
Notation query_all := (query_all json loads key filename_of decrypt).
Notation load_tags := (load_tags json loads key filename_of decrypt set_order).
Notation open_db := (open_db json loads key root_filename filename_of decrypt decrypt_manifest new_salt manifest_of_text set_order).
Notation open_node := (open_node json loads key root_filename filename_of decrypt decrypt_manifest new_salt manifest_of_text set_order child_key reserved).
Notation save_node := (save_node json dumps key root_filename encrypt encrypt_manifest manifest_text set_order).
Notation delete_node := (delete_node json key root_filename set_order).
Notation perform_node := (perform_node json dumps loads key root_filename filename_of encrypt decrypt encrypt_manifest decrypt_manifest new_salt manifest_text manifest_of_text set_order child_key reserved).
Notation perform_at := (perform_at json dumps loads key root_filename filename_of encrypt decrypt encrypt_manifest decrypt_manifest new_salt manifest_text manifest_of_text set_order child_key reserved).
Notation touched := (touched json key root_filename filename_of).
Notation saved_files := (saved_files json key root_filename).
Notation listed_files := (listed_files json key root_filename).
Notation concerned_files := (concerned_files json key root_filename filename_of).
Notation same_contents := (same_contents json key).
Notation complete := (complete json key).
Notation tree_session := (tree_session json dumps loads key root_filename filename_of encrypt decrypt encrypt_manifest decrypt_manifest new_salt manifest_text manifest_of_text set_order child_key reserved).
Notation keyed := (keyed json key child_key reserved).
Notation levels := (levels json key).
Notation settled := (settled json key root_filename filename_of).
Notation expected := (expected json key dumps loads filename_of decrypt).
Notation tree_laws := (tree_laws json key dumps encrypt decrypt encrypt_manifest decrypt_manifest manifest_text manifest_of_text).
Hypothesis orders : forall l, NoDup l -> Permutation (set_order l) l.


(** ** What saving leaves on disk *)
Definition on_files (x : node) (f : files) : Prop := forall p y, find p x = Some y ->
  (exists i, f (root_filename (k _ _ (self y))) = Some (encrypt_manifest i (k _ _ (self y)) (manifest_text (m _ _ (self y))))) /\
  forall n v, get n (cache _ _ (self y)) = Some v -> exists i tx, to_text json dumps v = Ok tx /\ f n = Some (encrypt i (k _ _ (self y)) (salt _ _ (self y)) n tx).
Definition below : list (bytes * node) -> list bytes :=
  fix f l := match l with [] => [] | (_, c) :: l => saved_files c ++ f l end.
Lemma saved_unfold d ks : saved_files (Node d ks) = root_filename (k _ _ d) :: map fst (cache _ _ d) ++ below ks.
Proof. reflexivity. Qed.
Lemma in_below n ks : In n (below ks) <-> exists t c, In (t, c) ks /\ In n (saved_files c).
Proof.
  induction ks as [|[u c] ks IH]; [split; [intros []|intros (t & c & [] & _)]|]. cbn. rewrite in_app_iff, IH. split.
  - intros [I|(t & c' & I & J)]; eauto 6.
  - intros (t & c' & [E|I] & J); [left; congruence|eauto 6].
Qed.
Lemma nodup_app {A} (l r : list A) : NoDup (l ++ r) -> NoDup l /\ NoDup r /\ forall x, In x l -> ~ In x r.
Proof.
  induction l as [|x l IH]; intros N; cbn in *; [repeat split; [constructor|exact N|intros ? []]|]. inversion N; subst. destruct (IH H2) as (A1 & A2 & A3).
  repeat split; [constructor; [|exact A1]; intros I; apply H1, in_app_iff; auto|exact A2|]. intros y [<-|I]; [|auto]. intros J. apply H1, in_app_iff. auto.
Qed.
Lemma nodup_kid ks t c : NoDup (below ks) -> In (t, c) ks -> NoDup (saved_files c).
Proof.
  induction ks as [|[u c'] ks IH]; intros N I; [destruct I|]. cbn in N. destruct (nodup_app _ _ N) as (N1 & N2 & _). destruct I as [E|I]; [injection E as _ ->; exact N1|exact (IH N2 I)].
Qed.
Lemma kids_apart ks t c t' c' n : NoDup (below ks) -> NoDup (map fst ks) -> In (t, c) ks -> In (t', c') ks -> In n (saved_files c) -> In n (saved_files c') -> t = t'.
Proof.
  induction ks as [|[u c0] ks IH]; intros N M I I' J J'; [destruct I|]. cbn in N, M. inversion M; subst. destruct (nodup_app _ _ N) as (N1 & N2 & N3). destruct I as [E|I], I' as [E'|I'].
  - congruence.
  - injection E as -> ->. exfalso. apply (N3 n J). apply in_below. eauto.
  - injection E' as -> ->. exfalso. apply (N3 n J'). apply in_below. eauto.
  - eauto.
Qed.
Lemma find_files p : forall x y, find p x = Some y -> incl (saved_files y) (saved_files x).
Proof.
  induction p as [|t p IH]; intros x y F; cbn in F; [injection F as ->; apply incl_refl|]. destruct x as [d ks]. cbn in F. destruct (get t ks) as [c|] eqn:G; [|discriminate].
  intros n I. rewrite saved_unfold. right. apply in_app_iff. right. apply in_below. exists t, c. split; [now apply TreeProofs.get_in|now apply (IH c y F)].
Qed.
Lemma own_files y : In (root_filename (k _ _ (self y))) (saved_files y) /\ forall n, In n (map fst (cache _ _ (self y))) -> In n (saved_files y).
Proof. destruct y as [d ks]. rewrite saved_unfold. cbn [TreeModel.self]. split; [left; reflexivity|]. intros n I. right. apply in_app_iff. auto. Qed.
Lemma get_key {A} n (l : list (bytes * A)) v : get n l = Some v -> In n (map fst l).
Proof. intros G. apply TreeProofs.get_in in G. apply in_map_iff. exists (n, v). auto. Qed.
Lemma on_files_ext x f g : (forall n, In n (saved_files x) -> g n = f n) -> on_files x f -> on_files x g.
Proof.
  intros E O p y F. destruct (O p y F) as [A B]. destruct (own_files y) as [R C]. pose proof (find_files p x y F) as I. split.
  - rewrite E by (apply I, R). exact A.
  - intros n v G. rewrite E by (apply I, C, (get_key _ _ _ G)). now apply B.
Qed.
Lemma save_files_ok d : forall l w w1, NoDup l -> save_files json dumps key encrypt d l w = (Ok tt, w1) ->
  forall n, In n l -> exists v i tx, get n (cache _ _ d) = Some v /\ to_text json dumps v = Ok tx /\ disk w1 n = Some (encrypt i (k _ _ d) (salt _ _ d) n tx).
Proof.
  induction l as [|x l IH]; intros w w1 N S n I; [destruct I|]. cbn in S. inversion N; subst. unfold save_file in S. destruct (get x (cache _ _ d)) as [v|] eqn:G; [|discriminate].
  destruct (to_text json dumps v) as [tx|] eqn:T; [|discriminate]. destruct I as [->|I]; [|eapply IH; eauto]. exists v, (clock w), tx. split; [exact G|]. split; [exact T|].
  match type of S with save_files _ _ _ _ _ _ ?w0 = _ => pose proof (save_files_touch json dumps key encrypt manifest_text l d w0 n H1) as K end. rewrite S in K. cbn [snd] in K. rewrite K. cbn. now rewrite bytes_eqb_refl.
Qed.

Definition save_loop (sv : list (bytes * (world -> result unit * world))) : list bytes -> world -> result unit * world :=
  fix save l w :=
  match l with
  | [] => (Ok tt, w)
  | t :: l =>
    match get t sv with
    | None => (Err AttributeErr, w)
    | Some s => let '(r, w1) := s w in match r with Err e => (Err e, w1) | Ok _ => save l w1 end
    end
  end.
Definition savers : list (bytes * node) -> list (bytes * (world -> result unit * world)) :=
  fix f l := match l with [] => [] | (t, c) :: l => (t, save_node c) :: f l end.
Lemma save_unfold d ks w : save_node (Node d ks) w =
  let '(r, w2) := save_loop (savers ks) (set_order (metatags d)) (close_manifest json key root_filename encrypt_manifest manifest_text d w) in
  match r with Err e => (Err e, w2) | Ok _ => save_tags json dumps key encrypt d w2 end.
Proof. reflexivity. Qed.
Lemma get_savers t ks : get t (savers ks) = match get t ks with Some c => Some (save_node c) | None => None end.
Proof. induction ks as [|[u c] ks IH]; [reflexivity|]. cbn. destruct (bytes_eqb t u); [reflexivity|exact IH]. Qed.
Lemma loop_ok ks : NoDup (below ks) -> NoDup (map fst ks) ->
  (forall t c, In (t, c) ks -> forall w w1, save_node c w = (Ok tt, w1) -> on_files c (disk w1)) ->
  forall l w w1, NoDup l -> save_loop (savers ks) l w = (Ok tt, w1) ->
  (forall t c, In t l -> get t ks = Some c -> on_files c (disk w1)) /\
  (forall n, (forall t c, In t l -> get t ks = Some c -> ~ In n (saved_files c)) -> disk w1 n = disk w n).
Proof.
  intros NB NK IH. induction l as [|t l IHl]; intros w w1 N S; cbn in S; [injection S as <-; split; [intros ? ? []|reflexivity]|]. inversion N; subst.
  rewrite get_savers in S. destruct (get t ks) as [c|] eqn:G; [|discriminate]. destruct (save_node c w) as [[u|e] w0] eqn:SC; [|discriminate]. destruct u.
  destruct (IHl w0 w1 H2 S) as [A B]. split.
  - intros t' c' [->|I] G'; [|eauto]. rewrite G in G'. injection G' as <-. apply (on_files_ext c (disk w0)); [|apply (IH t' c (TreeProofs.get_in _ _ _ G) w w0 SC)].
    intros n J. apply B. intros u c' I G' J'. apply H1. assert (t' = u) as -> by (eapply (kids_apart ks t' c u c' n); eauto using TreeProofs.get_in). exact I.
  - intros n J. rewrite B by (intros u c' I G'; apply (J u c'); [now right|exact G']). pose proof (save_touch json dumps key root_filename encrypt encrypt_manifest manifest_text set_order c w n) as T.
    rewrite SC in T. apply T. apply (J t c); [now left|exact G].
Qed.
Lemma save_ok x : complete x -> NoDup (saved_files x) -> forall w w1, save_node x w = (Ok tt, w1) -> on_files x (disk w1).
Proof.
  induction x as [d ks IH] using (node_induction json key). intros C N w w1 S. destruct (complete_inv json key _ _ C) as (C1 & C2 & C3 & C4).
  rewrite saved_unfold in N. inversion N as [|r l NR NA]; subst. destruct (nodup_app _ _ NA) as (NC & NB & NX). rewrite save_unfold in S.
  destruct (save_loop _ _ _) as [[u|e] w2] eqn:L; [|discriminate]. destruct u.
  assert (IH' : forall t c, In (t, c) ks -> forall w w1, save_node c w = (Ok tt, w1) -> on_files c (disk w1)).
  { intros t c I. apply (IH t c I (C4 t c I)). exact (nodup_kid ks t c NB I). }
  assert (NO : NoDup (set_order (metatags d))) by (eapply Permutation_NoDup; [apply Permutation_sym, orders, C3|exact C3]).
  destruct (loop_ok ks NB C1 IH' _ _ _ NO L) as [A B]. unfold save_tags in S.
  assert (KEEP : forall n, ~ In n (map fst (cache _ _ d)) -> disk w1 n = disk w2 n).
  { intros n J. pose proof (save_files_touch json dumps key encrypt manifest_text (map fst (cache _ _ d)) d w2 n J) as K. rewrite S in K. exact K. }
  intros p y F. destruct p as [|t p]; cbn in F.
  - injection F as <-. cbn [TreeModel.self]. split.
    + exists (clock w). rewrite KEEP by (intros I; apply NR, in_app_iff; auto). rewrite B.
      * cbn. now rewrite bytes_eqb_refl.
      * intros t c I G J. apply NR, in_app_iff. right. apply in_below. eauto using TreeProofs.get_in.
    + intros n v G. destruct (save_files_ok d _ _ _ NC S n (get_key _ _ _ G)) as (v' & i & tx & G' & T & D). rewrite G in G'. injection G' as <-. eauto.
  - destruct (get t ks) as [c|] eqn:G; [|discriminate].
    assert (It : In t (set_order (metatags d))) by (eapply Permutation_in; [apply Permutation_sym, orders, C3|]; apply C2, (get_key _ _ _ G)).
    assert (O : on_files c (disk w1)).
    { apply (on_files_ext c (disk w2)); [|exact (A t c It G)]. intros n J. apply KEEP. intros I. apply (NX n I). apply in_below. eauto using TreeProofs.get_in. }
    exact (O p y F).
Qed.

(** ** Opening *)
Definition bare (d : db) : db := set_cache json key d [].
Definition alike (w : world) (d d' : db) : Prop := k _ _ d' = k _ _ d /\ m _ _ d' = m _ _ d /\
  forall t s kp, fst (query_tag d' t s kp w) = fst (query_tag (bare d) t s kp w).
Definition mirrors (w : world) (x y : node) : Prop := forall p, match find p x, find p y with
  | Some a, Some b => alike w (self a) (self b)
  | None, None => True
  | _, _ => False
  end.
Lemma mirrors_node w d ks d' ks' : alike w d d' -> (forall t, match get t ks, get t ks' with Some c, Some c' => mirrors w c c' | None, None => True | _, _ => False end) ->
  mirrors w (Node d ks) (Node d' ks').
Proof.
  intros A K [|t p]; [exact A|]. cbn. specialize (K t). destruct (get t ks), (get t ks'); [apply K|contradiction|contradiction|exact I].
Qed.
Lemma query_keeps d t s kp w : k _ _ (snd (query_tag d t s kp w)) = k _ _ d /\ m _ _ (snd (query_tag d t s kp w)) = m _ _ d /\
  forall t' s' kp', fst (query_tag (snd (query_tag d t s kp w)) t' s' kp' w) = fst (query_tag d t' s' kp' w).
Proof.
  unfold DbModel.query_tag. destruct (get (filename _ _ filename_of d t) (cache _ _ d)) as [v|] eqn:G; [auto|]. destruct (disk w (filename _ _ filename_of d t)) as [[|b ct]|] eqn:D; [auto| |auto].
  destruct (decrypt (k _ _ d) (salt _ _ d) (filename _ _ filename_of d t) (b :: ct)) as [tx|] eqn:DE; [|auto]. destruct (of_text json loads tx) as [v|] eqn:T; [|auto]. destruct kp; [|auto].
  cbn [snd]. split; [reflexivity|]. split; [reflexivity|]. intros t' s' kp'.
  change (filename json key filename_of (set_cache json key d (put (filename json key filename_of d t) v (cache json key d))) t') with (filename json key filename_of d t').
  cbn [set_cache cache]. rewrite get_put. destruct (bytes_eqb (filename _ _ filename_of d t') (filename _ _ filename_of d t)) eqn:E.
  - apply bytes_eqb_eq in E. rewrite E, G, D. change (k _ _ (set_cache json key d _)) with (k _ _ d). now rewrite DE, T.
  - destruct (get (filename _ _ filename_of d t') (cache _ _ d)); [reflexivity|]. destruct (disk w (filename _ _ filename_of d t')) as [[|b' ct']|]; [reflexivity| |reflexivity].
    change (k json key (set_cache json key d _)) with (k json key d). change (salt json key (set_cache json key d _)) with (salt json key d).
    destruct (decrypt (k _ _ d) (salt _ _ d) (filename _ _ filename_of d t') (b' :: ct')) as [tx'|]; [|reflexivity]. destruct (of_text _ _ tx'); reflexivity.
Qed.
Lemma query_all_fine l : forall d s w, (forall t, In t l -> exists v, fst (query_tag d t s false w) = Ok v) -> exists d', query_all d l s w = (Ok tt, d') /\ k _ _ d' = k _ _ d /\ m _ _ d' = m _ _ d /\
  forall t s kp, fst (query_tag d' t s kp w) = fst (query_tag d t s kp w).
Proof.
  assert (KP : forall d t s kp w, fst (query_tag d t s kp w) = fst (query_tag d t s false w)).
  { intros d t s kp w. unfold DbModel.query_tag. destruct (get _ _); [reflexivity|]. destruct (disk _ _) as [[|b ct]|]; [reflexivity| |reflexivity]. destruct (decrypt _ _ _ _); [|reflexivity]. destruct (of_text _ _ _); reflexivity. }
  induction l as [|t l IH]; intros d s w H; cbn [DbModel.query_all]; [exists d; auto|]. destruct (query_keeps d t s true w) as (A & B & C). destruct (H t (or_introl eq_refl)) as [v V]. rewrite <- (KP d t s true w) in V.
  destruct (query_tag d t s true w) as [r d1]. cbn [fst snd] in *. subst r. destruct (IH d1 s w) as (d' & Q & A' & B' & C'); [intros u I; rewrite C; apply H; now right|].
  exists d'. split; [exact Q|]. split; [congruence|]. split; [congruence|]. intros u s' kp. now rewrite C', C.
Qed.
Definition load_loop (fuel : nat) (d : db) (silent preload : bool) : list bytes -> list (bytes * node) -> world -> result node * world :=
  fix load l ks w :=
    match l with
    | [] => (Ok (Node d ks), w)
    | t :: l =>
      if reserved t then (Err AttributeErr, w)
      else
        let '(r, w1) := open_node fuel (child_key (k _ _ d) (salt _ _ d) t) silent preload w in
        match r with
        | Err e => (Err e, w1)
        | Ok c => load l (ks ++ [(t, c)]) w1
        end
    end.
Lemma open_unfold fuel kk silent preload w : open_node (S fuel) kk silent preload w =
  let '(r, w1) := open_db kk silent preload w in
  match r with Err e => (Err e, w1) | Ok d => load_loop fuel d silent preload (set_order (metatags d)) [] w1 end.
Proof. reflexivity. Qed.
Lemma load_ok fuel d silent preload w ks : forall l acc, NoDup l ->
  (forall t, In t l -> reserved t = false /\ exists c y, get t ks = Some c /\ open_node fuel (child_key (k _ _ d) (salt _ _ d) t) silent preload w = (Ok y, w) /\ mirrors w c y) ->
  exists ks', load_loop fuel d silent preload l acc w = (Ok (Node d (acc ++ ks')), w) /\ map fst ks' = l /\
    forall t, In t l -> exists c y, get t ks = Some c /\ get t ks' = Some y /\ mirrors w c y.
Proof.
  induction l as [|t l IH]; intros acc N H; cbn [load_loop].
  - exists []. rewrite app_nil_r. split; [reflexivity|]. split; [reflexivity|]. intros ? [].
  - inversion N; subst. destruct (H t (or_introl eq_refl)) as (R & c & y & G & O & MI). rewrite R, O.
    destruct (IH (acc ++ [(t, y)]) H3) as (ks' & L & MF & K); [intros u I; apply H; now right|]. exists ((t, y) :: ks'). split; [rewrite L, <- app_assoc; reflexivity|]. split; [cbn; now rewrite MF|].
    intros u I. cbn [get]. destruct (bytes_eqb u t) eqn:E; [apply bytes_eqb_eq in E as ->; eauto|]. destruct I as [->|I]; [rewrite bytes_eqb_refl in E; discriminate|]. now apply K.
Qed.
Lemma get_absent {A} t (l : list (bytes * A)) : ~ In t (map fst l) -> get t l = None.
Proof. intros N. destruct (get t l) as [a|] eqn:G; [|reflexivity]. exfalso. apply N, (get_key _ _ _ G). Qed.
Lemma open_ok silent preload w : forall x fuel, complete x -> keyed x -> levels fuel x -> tree_laws x -> on_files x (disk w) ->
  (preload = true -> forall p y t, find p x = Some y -> In t (set_order (tags _ _ (self y))) -> exists v, fst (query_tag (bare (self y)) t silent false w) = Ok v) ->
  exists y, open_node fuel (k _ _ (self x)) silent preload w = (Ok y, w) /\ mirrors w x y.
Proof.
  intros x. induction x as [d ks IH] using (node_induction json key). intros fuel C K LV LW O PR. destruct (complete_inv json key _ _ C) as (C1 & C2 & C3 & C4).
  inversion K as [d1 ks1 KK]; subst. inversion LV as [n d1 ks1 LK]; subst. rewrite open_unfold. cbn [TreeModel.self].
  destruct (O [] (Node d ks) eq_refl) as [[i R] _]. destruct LW as [JL LW]. destruct (LW [] (Node d ks) eq_refl) as (_ & L2 & L3). cbn [TreeModel.self] in *.
  assert (OD : exists d', open_db (k _ _ d) silent preload w = (Ok d', w) /\ alike w d d').
  { unfold DbModel.open_db, load_manifest. rewrite R, L2. cbn [bind]. rewrite L3. cbn [bind]. change {| k := k _ _ d; m := m _ _ d; cache := [] |} with (bare d).
    destruct preload; [|exists (bare d); split; [reflexivity|]; repeat split].
    unfold DbModel.load_tags. destruct (query_all_fine (set_order (tags _ _ (bare d))) (bare d) silent w) as (d' & Q & A & B & Cc).
    - intros t I. apply (PR eq_refl [] (Node d ks) t eq_refl). exact I.
    - rewrite Q. exists d'. split; [reflexivity|]. repeat split; [exact A|exact B|exact Cc]. }
  destruct OD as (d' & E & AL). rewrite E. destruct AL as (AK & AM & AQ).
  assert (MT : metatags d' = metatags d) by (unfold TreeModel.metatags; now rewrite AM).
  assert (SA : salt _ _ d' = salt _ _ d) by (unfold salt; now rewrite AM).
  assert (NO : NoDup (set_order (metatags d))) by (eapply Permutation_NoDup; [apply Permutation_sym, orders, C3|exact C3]).
  assert (IN : forall t, In t (set_order (metatags d)) <-> In t (map fst ks)) by (intros t; rewrite <- C2; split; apply Permutation_in; [|apply Permutation_sym]; apply orders, C3).
  rewrite MT. destruct (load_ok n d' silent preload w ks (set_order (metatags d)) [] NO) as (ks' & L & MF & KS).
  - intros t I. apply IN in I. apply in_get in I. destruct (get t ks) as [c|] eqn:G; [|congruence]. pose proof (TreeProofs.get_in _ _ _ G) as J. destruct (KK t c J) as (RT & KC & KY). split; [exact RT|].
    destruct (IH t c J n (C4 t c J) KY (LK t c J)) as (y & OY & MY).
    + split; [exact JL|]. intros p y F. apply (LW (t :: p)). cbn. now rewrite G.
    + intros p y F. apply (O (t :: p)). cbn. now rewrite G.
    + intros P p y u F. apply (PR P (t :: p)). cbn. now rewrite G.
    + exists c, y. split; [reflexivity|]. split; [|exact MY]. now rewrite AK, SA, <- KC.
  - rewrite L. cbn [app]. eexists. split; [reflexivity|]. apply mirrors_node; [repeat split; assumption|]. intros t. destruct (get t ks) as [c|] eqn:G.
    + assert (I : In t (set_order (metatags d))) by (apply IN, (get_key _ _ _ G)). destruct (KS t I) as (c0 & y & G1 & G' & MI). rewrite G'. rewrite G in G1. injection G1 as ->. exact MI.
    + rewrite (get_absent t ks'); [exact I|]. rewrite MF. intros J. apply IN in J. apply in_get in J. congruence.
Qed.

(** ** Saving and opening *)
Lemma query_after x w w1 w2 p y t s kp : complete x -> NoDup (saved_files x) -> tree_laws x -> save_node x w = (Ok tt, w1) -> disk w2 = disk w1 -> find p x = Some y -> settled x (self y) t ->
  fst (query_tag (bare (self y)) t s kp w2) = expected (self y) t s w.
Proof.
  intros C N LW S DW F SE. destruct (save_ok x C N w w1 S p y F) as [_ B]. destruct LW as [JL LW]. destruct (LW p y F) as (L1 & _ & _). unfold ForestSpec.expected.
  set (d := self y) in *. set (n := filename _ _ filename_of d t).
  destruct (get n (cache _ _ d)) as [v|] eqn:G.
  - destruct (B n v G) as (i & tx & T & D). destruct (L1 i n tx (get_key _ _ _ G)) as [DE NE]. unfold DbModel.query_tag. change (filename _ _ filename_of (bare d) t) with n. cbn [bare set_cache cache get].
    rewrite DW, D. destruct (encrypt i (k _ _ d) (salt _ _ d) n tx) as [|b ct] eqn:E; [congruence|]. change (k _ _ (bare d)) with (k _ _ d). change (salt _ _ (bare d)) with (salt _ _ d). cbn [bare set_cache k] in *.
    match goal with |- context [decrypt ?a ?b ?c ?e] => replace (decrypt a b c e) with (Ok tx : result bytes) by (symmetry; exact DE) end.
    destruct v as [b0|j]; cbn [to_text] in T.
    + injection T as <-. reflexivity.
    + unfold reload. rewrite T. cbn [bind]. unfold of_text, BYTES_FLAG. pose proof (JL j tx T) as NF. destruct (bytes_eqb (firstn 2 tx) [x01; x02]) eqn:BE; [apply bytes_eqb_eq in BE; contradiction|].
      destruct (loads tx); reflexivity.
  - assert (NI : ~ In n (saved_files x)).
    { destruct SE as [I|I]; [|exact I]. exfalso. apply in_get in I. fold n in I. congruence. }
    assert (D : disk w2 n = disk w n).
    { rewrite DW. pose proof (save_touch json dumps key root_filename encrypt encrypt_manifest manifest_text set_order x w n NI) as T. now rewrite S in T. }
    unfold DbModel.query_tag. change (filename _ _ filename_of (bare d) t) with n. fold n. rewrite G, D. cbn [bare set_cache cache get]. destruct (disk w n) as [[|b ct]|]; [reflexivity| |reflexivity].
    change (salt _ _ (bare d)) with (salt _ _ d). cbn [bare set_cache k]. change (salt json key {| k := k json key d; m := m json key d; cache := [] |}) with (salt _ _ d).
    destruct (decrypt _ _ _ _); [|reflexivity]. destruct (of_text _ _ _); reflexivity.
Qed.

(** ** Reachable trees *)
Lemma keyed_inv d ks : keyed (Node d ks) -> forall t c, In (t, c) ks -> reserved t = false /\ k _ _ (self c) = child_key (k _ _ d) (salt _ _ d) t /\ keyed c.
Proof. intros K. inversion K; assumption. Qed.
Lemma query_all_kept l : forall d s w, k _ _ (snd (query_all d l s w)) = k _ _ d.
Proof.
  induction l as [|t l IH]; intros d s w; cbn [DbModel.query_all]; [reflexivity|]. destruct (query_keeps d t s true w) as (A & _ & _). destruct (query_tag d t s true w) as [[v|e] d1]; cbn [snd] in *; [now rewrite IH|exact A].
Qed.
Lemma open_db_key kk silent preload w d w' : open_db kk silent preload w = (Ok d, w') -> k _ _ d = kk.
Proof.
  unfold DbModel.open_db.
  assert (LM : forall d1, fst (load_manifest json key root_filename decrypt_manifest new_salt manifest_of_text kk [] w) = Ok d1 -> k _ _ d1 = kk).
  { unfold load_manifest. destruct (disk w _); cbn; [|intros d1 E; injection E as <-; reflexivity]. destruct (decrypt_manifest _ _); cbn; [|discriminate]. destruct (manifest_of_text _); cbn; [|discriminate]. intros d1 E. injection E as <-. reflexivity. }
  destruct (load_manifest _ _ _ _ _ _ kk [] w) as [[d0|e] w1]; [|discriminate]. specialize (LM d0 eq_refl). destruct preload; [|intros E; injection E as <- _; exact LM]. unfold DbModel.load_tags.
  pose proof (query_all_kept (set_order (tags _ _ d0)) d0 silent w1) as A. destruct (query_all _ _ silent w1) as [[u|e] d1]; [|discriminate]. intros E. injection E as <- _. cbn in A. congruence.
Qed.
Lemma open_keyed fuel : forall kk silent preload w x w', open_node fuel kk silent preload w = (Ok x, w') -> keyed x /\ k _ _ (self x) = kk.
Proof.
  induction fuel as [|fuel IH]; intros kk silent preload w x w' O; [discriminate|]. rewrite open_unfold in O. destruct (open_db kk silent preload w) as [[d|e] w1] eqn:OD; [|discriminate]. apply open_db_key in OD. subst kk.
  assert (INV : forall t c, In (t, c) ([] : list (bytes * node)) -> reserved t = false /\ k _ _ (self c) = child_key (k _ _ d) (salt _ _ d) t /\ keyed c) by (intros ? ? []).
  revert O INV. generalize ([] : list (bytes * node)) as ks. revert w1. induction (set_order (metatags d)) as [|t l IHl]; intros w1 ks O INV; cbn [load_loop] in O.
  - injection O as <- _. split; [constructor; exact INV|reflexivity].
  - destruct (reserved t) eqn:R; [discriminate|]. destruct (open_node fuel (child_key (k _ _ d) (salt _ _ d) t) silent preload w1) as [[c|e] w2] eqn:OC; [|discriminate].
    apply (IHl w2 _ O). intros u c' I. apply in_app_iff in I as [I|[E|[]]]; [now apply INV|]. injection E as <- <-. destruct (IH _ _ _ _ _ _ OC). auto.
Qed.
Lemma in_put {A} t u (c c' : A) l : In (u, c') (put t c l) -> (u = t /\ c' = c) \/ In (u, c') l.
Proof.
  induction l as [|[v a] l IH]; cbn; [intros [Q|[]]; injection Q as <- <-; auto|]. destruct (bytes_eqb t v) eqn:E; cbn; intros [Q|I]; auto.
  - apply bytes_eqb_eq in E as ->. injection Q as <- <-. auto.
  - destruct (IH I); auto.
Qed.
Lemma in_del_pair {A} t u (c : A) l : In (u, c) (del t l) -> In (u, c) l.
Proof. induction l as [|[v a] l IH]; cbn; [auto|]. destruct (bytes_eqb t v); cbn; [auto|]. intros [Q|I]; auto. Qed.
Lemma clear_keyed x : keyed x -> keyed (clear_node json key x) /\ k _ _ (self (clear_node json key x)) = k _ _ (self x).
Proof.
  induction x as [d ks IH] using (node_induction json key). intros K. pose proof (keyed_inv _ _ K) as KI. cbn. split; [|reflexivity].
  set (f := (fix f (l : list (bytes * node)) := match l with [] => [] | (t, c) :: l => (t, if existsb (bytes_eqb t) (metatags d) then clear_node json key c else c) :: f l end)).
  assert (IN : forall l t c, In (t, c) (f l) -> exists c', In (t, c') l /\ (c = c' \/ c = clear_node json key c')).
  { induction l as [|[u c0] l IHl]; cbn; [intros ? ? []|]. intros t c [E|J]; [|destruct (IHl t c J) as (c' & A & B); eauto]. injection E as <- E. exists c0. split; [auto|]. destruct (existsb _ _); auto. }
  constructor. intros t c J. destruct (IN ks t c J) as (c' & A & B). destruct (KI t c' A) as (R & KC & KK). split; [exact R|].
  change (k _ _ (clear_cache json key d)) with (k _ _ d). change (salt _ _ (clear_cache json key d)) with (salt _ _ d). destruct B as [->| ->]; [auto|]. destruct (IH t c' A KK) as [X Y]. rewrite Y. auto.
Qed.
Lemma perform_node_keyed fuel o x w : keyed x -> let x' := snd (fst (perform_node fuel o x w)) in keyed x' /\ k _ _ (self x') = k _ _ (self x) /\ salt _ _ (self x') = salt _ _ (self x).
Proof.
  destruct x as [d ks]. intros K. pose proof (keyed_inv _ _ K) as KI. destruct o as [o| | |t silent preload|t]; cbn -[TreeModel.save_node TreeModel.clear_node TreeModel.delete_node TreeModel.open_node DbModel.perform].
  - pose proof (perform_keeps json dumps loads key root_filename filename_of encrypt decrypt encrypt_manifest manifest_text set_order o d w) as (A & B & _).
    destruct (perform o d w) as [[r d1] w1]. cbn in *. split; [|auto]. constructor. rewrite A, B. exact KI.
  - destruct (save_node _ w). auto.
  - pose proof (clear_keyed _ K) as [A _]. auto.
  - destruct (reserved t) eqn:R; [auto|]. set (dd := if existsb (bytes_eqb t) (metatags d) then d else set_metatags _ _ d (metatags d ++ [t])).
    assert (KD : k _ _ dd = k _ _ d /\ salt _ _ dd = salt _ _ d) by (unfold dd; destruct (existsb _ _); auto). destruct KD as [K1 K2].
    destruct (has t ks); cbn; [split; [constructor; rewrite K1, K2; exact KI|auto]|].
    destruct (open_node fuel _ silent preload w) as [[c|e] w1] eqn:OC; cbn; [|auto]. split; [|auto]. constructor. rewrite K1, K2. intros u c' I. apply in_app_iff in I as [I|[E|[]]]; [now apply KI|].
    injection E as <- <-. destruct (open_keyed _ _ _ _ _ _ _ OC). auto.
  - destruct (existsb _ _); [|auto]. destruct (get t ks) as [c|]; [|auto]. destruct (delete_node c w) as [[u|e] w1]; [|auto]. cbn. split; [|auto]. constructor. intros u' c' I. apply in_del_pair in I. exact (KI u' c' I).
Qed.
Lemma perform_at_keyed fuel p : forall o x w, keyed x -> let x' := snd (fst (perform_at fuel p o x w)) in keyed x' /\ k _ _ (self x') = k _ _ (self x) /\ salt _ _ (self x') = salt _ _ (self x).
Proof.
  induction p as [|t p IH]; intros o x w K; cbn [TreeModel.perform_at]; [now apply perform_node_keyed|]. destruct x as [d ks]. cbn [TreeModel.kids TreeModel.self]. pose proof (keyed_inv _ _ K) as KI.
  destruct (get t ks) as [c|] eqn:G; [|auto]. destruct (KI t c (TreeProofs.get_in _ _ _ G)) as (R & KC & KK). destruct (IH o c w KK) as (A & B & _). destruct (perform_at fuel p o c w) as [[r c1] w1]. cbn in *.
  split; [|auto]. constructor. intros u c' I. apply in_put in I as [[-> ->]|I]; [|now apply KI]. split; [exact R|]. split; [congruence|exact A].
Qed.
Lemma session_keyed fuel l : forall x w rs x' w', keyed x -> tree_session fuel l x w = (rs, x', w') -> keyed x'.
Proof.
  induction l as [|[p o] l IH]; intros x w rs x' w' K S; cbn in S; [injection S as _ <- _; exact K|]. destruct (perform_at_keyed fuel p o x w K) as (A & _ & _).
  destruct (perform_at fuel p o x w) as [[r x1] w1]. destruct (tree_session fuel l x1 w1) as [[rs1 x2] w2] eqn:E. injection S as _ <- _. exact (IH _ _ _ _ _ A E).
Qed.
End F.
