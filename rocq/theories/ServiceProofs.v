(** * The signing service: proofs *)
From Coq Require Import Strings.String Permutation ZifyBool ZifyNat ZifyN Lia.
From Verif Require Import Base BaseFacts CanonModel CanonSpec CanonProofs GentoolsModel GentoolsProofs KdfModel ClockModel CipherModel CipherSpec StrModel StrFacts JsonModel JsonSpec JsonProofs LoadsModel LoadsSpec LoadsProofs CurveModel CurveSpec PackageModel PackageSpec PackageProofs CipherProofs CipherProps ServiceModel ServiceSpec IndentProofs.
Import ListNotations.
Open Scope list_scope.
Local Open Scope N_scope.

(** ** Sockets *)
Lemma recv_what n l : 0 < n ->
  match recv n l with
  | (l', Got []) => stream l = [] /\ fate l = Aborted /\ stream l' = []
  | (l', Got b) => stream l = b ++ stream l' /\ fate l' = fate l /\ blen b <= n /\ (pending l' + List.length b = pending l)%nat
  | (l', Fails p) => stream l = [] /\ fate l = p
  end.
Proof.
  intros P. induction l as [|[[|x b]|p] l IH]; cbn [recv stream fate pending]; auto.
  set (y := x :: b). assert (T : take n y ++ drop n y = y) by apply take_drop.
  assert (NE : take n y <> []).
  { rewrite take_firstn. unfold y. destruct (N.to_nat n) eqn:E; [lia|]. discriminate. }
  assert (L : blen (take n y) <= n) by (rewrite take_firstn; unfold blen; rewrite firstn_length; lia).
  assert (Q : (List.length (drop n y) + List.length (take n y) = List.length y)%nat) by (rewrite <- T at 3; rewrite app_length; lia).
  destruct (n <? blen y) eqn:E; destruct (take n y) as [|u v] eqn:TK; try contradiction.
  - cbn [stream fate pending]. rewrite app_assoc. split; [f_equal; congruence|]. split; [reflexivity|]. split; [exact L|]. lia.
  - assert (D : drop n y = []) by (rewrite drop_skipn; apply skipn_all2; unfold blen in *; lia). rewrite D, app_nil_r in T.
    split; [f_equal; congruence|]. split; [reflexivity|]. split; [exact L|]. rewrite T. lia.
Qed.
Lemma receive_what size : forall rounds buffer l, (pending l < rounds)%nat -> blen buffer <= size ->
  match receive rounds size buffer l with
  | (l', Got b) => size <= blen buffer + blen (stream l) /\ exists x, b = buffer ++ x /\ blen b = size /\ stream l = x ++ stream l' /\ fate l' = fate l
  | (l', Fails p) => blen buffer + blen (stream l) < size /\ p = fate l
  end.
Proof.
  induction rounds as [|rounds IH]; intros buffer l P B; [lia|]. cbn [receive]. destruct (blen buffer <? size) eqn:E.
  - pose proof (recv_what (N.min (size - blen buffer) MAX_BUFFER) l ltac:(unfold MAX_BUFFER; lia)) as R.
    destruct (recv _ l) as [l' [[|x b]|p]].
    + destruct R as (S & F & _). rewrite S, F. split; [rewrite blen_nil; lia|reflexivity].
    + destruct R as (S & F & L & N). specialize (IH (buffer ++ x :: b) l'). cbn [length] in N.
      assert (LB : blen (buffer ++ x :: b) = blen buffer + blen (x :: b)) by apply blen_app.
      assert (pending l' < rounds)%nat as P' by lia. specialize (IH P' ltac:(lia)).
      assert (LS : blen (stream l) = blen (x :: b) + blen (stream l')) by (rewrite S; apply (blen_app (x :: b))).
      destruct (receive rounds size (buffer ++ x :: b) l') as [l2 [y|p]].
      * destruct IH as (IL & z & EQ & LY & ST & FT). split; [lia|]. exists ((x :: b) ++ z). split; [now rewrite EQ, <- app_assoc|]. split; [exact LY|].
        split; [rewrite S, ST; apply app_assoc|congruence].
      * destruct IH as (IL & EQ). split; [lia|congruence].
    + destruct R as (S & F). rewrite S. split; [rewrite blen_nil; lia|congruence].
  - split; [lia|]. exists []. rewrite app_nil_r. repeat split; lia.
Qed.
Theorem buffer_recv_what size l :
  match buffer_recv size l with
  | (l', Got b) => blen b = size /\ stream l = b ++ stream l' /\ fate l' = fate l
  | (l', Fails p) => blen (stream l) < size /\ p = fate l
  end.
Proof.
  pose proof (receive_what size (S (pending l)) [] l ltac:(lia) ltac:(rewrite blen_nil; lia)) as R. unfold buffer_recv.
  destruct (receive _ size [] l) as [l' [b|p]].
  - destruct R as (_ & x & -> & L & S & F). auto.
  - destruct R as (L & E). rewrite blen_nil in L. split; [lia|exact E].
Qed.
Lemma app_same_len {A} (a b x y : list A) : blen a = blen b -> a ++ x = b ++ y -> a = b /\ x = y.
Proof. intros L E. apply app_inj_len in E; [exact E|unfold blen in L; lia]. Qed.
Theorem recv_message_framed l data framed rest : frame data framed -> stream l = framed ++ rest ->
  exists l', recv_message l = (l', Got data) /\ stream l' = rest /\ fate l' = fate l.
Proof.
  intros (size & -> & L & B) S. unfold recv_message. rewrite <- app_assoc in S.
  pose proof (buffer_recv_what 8 l) as R. destruct (buffer_recv 8 l) as [l1 [b|p]].
  2:{ destruct R as (Q & _). rewrite S, blen_app in Q. lia. }
  destruct R as (Lb & Sb & Fb). rewrite S in Sb. apply app_same_len in Sb as (<- & Sb); [|congruence].
  rewrite B. pose proof (buffer_recv_what (blen data) l1) as R. destruct (buffer_recv (blen data) l1) as [l2 [b|p]].
  2:{ destruct R as (Q & _). rewrite <- Sb, blen_app in Q. lia. }
  destruct R as (Lb' & Sb' & Fb'). rewrite <- Sb in Sb'. apply app_same_len in Sb' as (<- & Sb'); [|congruence].
  exists l2. repeat split; congruence.
Qed.
Theorem recv_message_what l :
  match recv_message l with
  | (l', Got data) => exists framed, frame data framed /\ stream l = framed ++ stream l' /\ fate l' = fate l
  | (l', Fails p) => p = fate l /\ forall data framed rest, frame data framed -> stream l <> framed ++ rest
  end.
Proof.
  assert (NO : forall p l', recv_message l = (l', Fails p) -> forall data framed rest, frame data framed -> stream l <> framed ++ rest).
  { intros p l' E data framed rest F S. destruct (recv_message_framed l data framed rest F S) as (l2 & G & _). congruence. }
  destruct (recv_message l) as [l' [data|p]] eqn:E.
  - unfold recv_message in E. pose proof (buffer_recv_what 8 l) as R. destruct (buffer_recv 8 l) as [l1 [b|p]]; [|discriminate].
    destruct R as (Lb & Sb & Fb). pose proof (buffer_recv_what (be_int b) l1) as R. rewrite E in R. destruct R as (Ld & Sd & Fd).
    exists (b ++ data). split; [exists b; auto|]. split; [rewrite Sb, Sd; apply app_assoc|congruence].
  - split; [|exact (NO p l' eq_refl)]. unfold recv_message in E. pose proof (buffer_recv_what 8 l) as R. destruct (buffer_recv 8 l) as [l1 [b|q]].
    + destruct R as (_ & _ & Fb). pose proof (buffer_recv_what (be_int b) l1) as R. rewrite E in R. destruct R as (_ & ->). exact Fb.
    + assert (q = p) as -> by congruence. apply R.
Qed.

Lemma send_all_quiet parts : forall net, Forall (fun o => o = None) net -> send_all parts net = (concat parts, Got tt).
Proof.
  induction parts as [|x parts IH]; intros net F; [reflexivity|]. cbn [send_all concat]. destruct F as [|o net -> F]; cbn [tl]; rewrite IH by auto; reflexivity.
Qed.
Theorem buffer_send_framed data net : blen data < 2 ^ 64 -> Forall (fun o => o = None) net ->
  exists framed, buffer_send data net = (framed, Got tt) /\ frame data framed.
Proof.
  intros L F. unfold buffer_send, to_bytes_be. change (256 ^ 8) with (2 ^ 64). rewrite (proj2 (N.ltb_lt _ _) L). rewrite send_all_quiet by exact F.
  eexists. split; [reflexivity|]. exists (be_enc (N.to_nat 8) (blen data)). cbn [concat]. rewrite batch_concat by (unfold MAX_BUFFER; lia). split; [reflexivity|].
  split; [rewrite blen_be_enc; reflexivity|]. rewrite be_int_be_enc. apply N.mod_small. exact L.
Qed.

(** ** Namespaces *)
Lemma usable_set {V} (ns : list (str * V)) k v : usable k -> ns_set ns k v = Ok (dict_set str_eqb ns k v).
Proof.
  intros U. unfold usable in U. unfold ns_set.
  assert (E : existsb (str_eqb k) RESTRICTED_NAMES = false).
  { apply not_true_iff_false. intros T. apply existsb_exists in T as (x & I & Q). apply str_eqb_eq in Q as <-. apply U.
    cbn [map] in I |- *. cbn [RESTRICTED_NAMES map In] in I |- *. tauto. }
  rewrite E.
  assert (E1 : str_eqb k (lit "__dict__") = false) by (apply str_eqb_neq; intros ->; apply U; cbn [map In]; tauto).
  assert (E2 : str_eqb k (lit "__class__") = false) by (apply str_eqb_neq; intros ->; apply U; cbn [map In]; tauto).
  now rewrite E1, E2.
Qed.
Lemma usable_update {V} (items : list (str * V)) : forall ns, Forall (fun kv => usable (fst kv)) items ->
  ns_update ns items = (dict_update str_eqb ns items, Ok tt).
Proof.
  induction items as [|[k v] items IH]; intros ns F; [reflexivity|]. inversion F as [|? ? U F']; subst. cbn [ns_update].
  rewrite usable_set by exact U. rewrite IH by exact F'. reflexivity.
Qed.
Lemma update_nodup {V} (l : list (str * V)) : NoDup (map fst l) -> dict_update str_eqb [] l = l.
Proof.
  unfold dict_update. enough (G : forall (l d : list (str * V)), NoDup (map fst (d ++ l)) ->
    fold_left (fun d kv => dict_set str_eqb d (fst kv) (snd kv)) l d = d ++ l) by (intros N; apply (G l []); exact N).
  clear l. induction l as [|[k v] l IH]; intros d N; cbn [fold_left fst snd]; [now rewrite app_nil_r|].
  assert (dict_set str_eqb d k v = d ++ [(k, v)]) as ->.
  { rewrite map_app in N. cbn in N. apply NoDup_remove_2 in N. assert (~ In k (map fst d)) as M by (rewrite in_app_iff in N; tauto). clear N.
    induction d as [|[k' v'] d IHd]; [reflexivity|]. cbn in M |- *. destruct (str_eqb k' k) eqn:E; [apply str_eqb_eq in E; tauto|]. f_equal. apply IHd. tauto. }
  rewrite IH; [now rewrite <- app_assoc|]. now rewrite <- app_assoc.
Qed.
Lemma get_filter {V} (p : str -> bool) (l : list (str * V)) k :
  dict_get str_eqb (filter (fun kv => p (fst kv)) l) k = if p k then dict_get str_eqb l k else None.
Proof.
  induction l as [|[a v] l IH]; cbn [filter dict_get fst]; [now destruct (p k)|].
  destruct (str_eqb a k) eqn:E.
  - apply str_eqb_eq in E as ->. destruct (p k) eqn:P; [cbn [dict_get]; now rewrite str_eqb_refl|exact IH].
  - destruct (p a); [cbn [dict_get]; rewrite E|]; exact IH.
Qed.
Lemma nodup_filter {V} (p : str * V -> bool) l : NoDup (map fst l) -> NoDup (map fst (filter p l)).
Proof.
  induction l as [|[a v] l IH]; intros N; [constructor|]. inversion N as [|? ? A N']; subst. cbn [filter]. destruct (p (a, v)); [|auto].
  cbn [map fst]. constructor; [|auto]. intros I. apply A. apply in_map_iff in I as (x & <- & I). apply filter_In in I as (I & _). now apply in_map.
Qed.
Lemma forall_filter {A} (P : A -> Prop) p l : Forall P l -> Forall P (filter p l).
Proof. intros F. apply Forall_forall. intros x I. apply filter_In in I as (I & _). rewrite Forall_forall in F. auto. Qed.

Lemma reinit_good package version scope today w : good_scope package version scope ->
  exists s, reinit scope today w = (set_scope (set_files w []) s, Ok tt) /\ dated scope today s /\ normal (JObj s) /\
    dict_get str_eqb s (lit "package") = Some (JStr package) /\ dict_get str_eqb s (lit "version") = Some (JStr version).
Proof.
  intros [N P V S U]. apply normal_obj in N as [ND NF]. unfold reinit, PACKAGE, VERSION, DATE. rewrite S, P, V.
  set (date := match dict_get str_eqb scope (lit "date") with Some d => if truthy d then d else JInt today | None => JInt today end).
  set (keep := fun k => negb (existsb (str_eqb k) [lit "package"; lit "version"; lit "date"])).
  change (filter (fun kv : str * json => negb (existsb (str_eqb (fst kv)) [lit "package"; lit "version"; lit "date"])) scope)
    with (filter (fun kv : str * json => keep (fst kv)) scope).
  set (extras := filter (fun kv : str * json => keep (fst kv)) scope).
  rewrite (usable_update extras []) by now apply forall_filter.
  rewrite (update_nodup extras) by now apply nodup_filter.
  assert (UL : forall n, In n [lit "package"; lit "version"; lit "date"] -> usable n).
  { intros n I J. cbn [In map] in I, J. repeat (destruct I as [<-|I]; [repeat (destruct J as [J|J]; [discriminate J|]); exact J|]). exact I. }
  rewrite (usable_update _ extras) by (repeat constructor; cbn [fst]; apply UL; cbn [In]; auto).
  eexists. split; [reflexivity|]. cbn [dict_update fold_left fst snd].
  set (s := dict_set str_eqb _ (lit "date") date).
  assert (G : forall k, dict_get str_eqb s k = if str_eqb k (lit "date") then Some date else dict_get str_eqb scope k).
  { intros k. unfold s. rewrite !(get_set _ str_eqb_eq). rewrite (eqb_sym _ str_eqb_eq (lit "date") k), (eqb_sym _ str_eqb_eq (lit "version") k), (eqb_sym _ str_eqb_eq (lit "package") k).
    destruct (str_eqb k (lit "date")) eqn:E1; [reflexivity|]. destruct (str_eqb k (lit "version")) eqn:E2; [apply str_eqb_eq in E2 as ->; now rewrite V|].
    destruct (str_eqb k (lit "package")) eqn:E3; [apply str_eqb_eq in E3 as ->; now rewrite P|].
    unfold extras. rewrite get_filter. unfold keep. cbn [existsb]. now rewrite E1, E2, E3. }
  assert (NS : NoDup (map fst s)) by (unfold s; do 3 apply (nodup_set _ str_eqb_eq); now apply nodup_filter).
  split; [|split; [|split; [rewrite G; exact P|rewrite G; exact V]]].
  - exists date. split; [intros d D T; unfold date; now rewrite D, T|]. split; [intros D; unfold date; now rewrite D|]. split; [exact NS|exact G].
  - apply normal_obj. split; [exact NS|].
    assert (PN : clean_str (lit "package") /\ normal (JStr package)).
    { apply (get_in _ str_eqb_eq) in P. rewrite Forall_forall in NF. exact (NF _ P). }
    assert (VN : clean_str (lit "version") /\ normal (JStr version)).
    { apply (get_in _ str_eqb_eq) in V. rewrite Forall_forall in NF. exact (NF _ V). }
    assert (DN : clean_str (lit "date") /\ normal date).
    { split; [now apply lit_clean|]. unfold date. destruct (dict_get str_eqb scope (lit "date")) as [d|] eqn:D; [|exact I]. destruct (truthy d); [|exact I].
      apply (get_in _ str_eqb_eq) in D. rewrite Forall_forall in NF. exact (proj2 (NF _ D)). }
    unfold s. repeat apply PackageProofs.dict_set_forall; [now apply forall_filter|exact PN|exact VN|exact DN].
Qed.
Lemma strings_back files : strings (map (fun kv => (fst kv, JStr (snd kv))) files) = Some files.
Proof. induction files as [|[k v] l IH]; [reflexivity|]. cbn [map strings fst snd]. now rewrite IH. Qed.
Lemma add_files_good files w : good_files files -> w_files w = [] -> add_files (file_object files) w = (set_files w files, Ok tt).
Proof.
  intros [N F U] E. unfold add_files, file_object. rewrite strings_back, E, usable_update by exact U. now rewrite update_nodup.
Qed.
Lemma files_normal files : good_files files -> normal (file_object files).
Proof.
  intros [N F U]. apply normal_obj. rewrite map_map. cbn [fst]. split; [exact N|]. apply Forall_map. cbn. exact F.
Qed.

(** ** Signing *)
Section Sign.
Variable C : curve.
Variable sha384 : bytes -> bytes.
Variable read_token : str -> str -> result bytes.
Hypothesis SG : signs C.
Notation sign_package := (sign_package C sha384 read_token).
Notation summarize := (summarize C sha384 read_token).
Notation summary := (summary C read_token).
Notation signing_key := (signing_key C read_token).
Notation ready := (ready C read_token).

Lemma ready_key package s w : ready package s w -> scope_str w PACKAGE = Ok package ->
  signing_key w = Ok (pair_of s) /\ exists cache e, w_cache w = Some cache /\ db_entry w package = Ok e /\ dict_get str_eqb cache package = Some e /\ normal (JObj (e_credentials e)).
Proof.
  intros (cache & e & k & W & G & NE & RT & FP & NC) P. unfold PackageModel.signing_key. rewrite P. cbn [bind]. unfold db_entry. rewrite W, G. cbn [bind].
  split; [|exists cache, e; auto]. destruct (e_key e) as [|a t] eqn:E; [contradiction|]. rewrite RT. cbn [bind]. unfold import_secret_key, new_key, has_secret_key. cbn. rewrite FP. reflexivity.
Qed.
(** What becomes of the tables of the database. *)
Definition signed_in (w w' : world) (package version : str) (signature : str) : Prop :=
  exists cache e, w_cache w = Some cache /\ dict_get str_eqb cache package = Some e /\
    let e' := {| e_key := e_key e; e_versions := dict_set str_eqb (e_versions e) version signature; e_credentials := e_credentials e |} in
    w_cache w' = Some (dict_set str_eqb cache package e') /\ w_saved w' = dict_update str_eqb (w_saved w) (dict_set str_eqb cache package e').

Lemma sign_ready package version s w : ready package s w -> scope_str w PACKAGE = Ok package -> scope_str w VERSION = Ok version ->
  exists w' S sg B, sign_package w = (w', Ok tt) /\ summarize w' = Ok S /\ S = (CHECKSUM, JStr (hex (checksum_of sha384 B))) :: B ++ [(SIGNATURE, JStr (hex sg))] /\
    summary w = Ok B /\ sg = ed_sign C s (checksum_of sha384 B) /\ signing_key w' = Ok (pair_of s) /\
    w_scope w' = w_scope w /\ w_files w' = w_files w /\ signed_in w w' package version (hex sg) /\ ready package s w'.
Proof.
  intros R P V. destruct (ready_key _ _ _ R P) as (K & cache & e & W & DE & G & NC).
  set (B := [(CHECKSUMS, JObj (as_strings (sort_items (w_files w)))); (PUBLIC_CREDENTIALS, JObj (sort_items (e_credentials e))); (SCOPE, JObj (sort_items (w_scope w))); (SIGNING_KEY, JStr (hex (raw_public C (public_of C s))))]).
  assert (SM : summary w = Ok B) by (unfold PackageModel.summary; rewrite P; cbn [bind]; rewrite DE; cbn [bind]; rewrite K; reflexivity).
  set (sg := ed_sign C s (checksum_of sha384 B)).
  set (e' := {| e_key := e_key e; e_versions := dict_set str_eqb (e_versions e) version (hex sg); e_credentials := e_credentials e |}).
  set (cache' := dict_set str_eqb cache package e').
  set (w' := {| w_saved := dict_update str_eqb (w_saved w) cache'; w_cache := Some cache'; w_scope := w_scope w; w_files := w_files w |}).
  assert (SP : sign_package w = (w', Ok tt)).
  { unfold PackageModel.sign_package, checksum. rewrite SM. cbn [bind]. rewrite V. cbn [bind]. rewrite K. cbn [bind]. unfold sign. cbn [pair_of k_secret bind]. rewrite P. cbn [bind]. rewrite DE. cbn [bind].
    unfold put_entry. rewrite W. reflexivity. }
  assert (R' : ready package s w').
  { destruct R as (cache0 & e0 & k & W0 & G0 & NE & RT & FP & N0). assert (cache0 = cache) as -> by congruence. assert (e0 = e) as -> by congruence.
    exists cache', e', k. split; [reflexivity|]. split; [unfold cache'; rewrite (get_set _ str_eqb_eq), str_eqb_refl; reflexivity|]. auto. }
  assert (P' : scope_str w' PACKAGE = Ok package) by exact P. assert (V' : scope_str w' VERSION = Ok version) by exact V.
  destruct (ready_key _ _ _ R' P') as (K' & cache1 & e1 & W1 & DE1 & G1 & _).
  assert (e1 = e') as ->. { assert (cache1 = cache') as -> by (cbn in W1; congruence). unfold cache' in G1. rewrite (get_set _ str_eqb_eq), str_eqb_refl in G1. congruence. }
  assert (SM' : summary w' = Ok B) by (unfold PackageModel.summary; rewrite P'; cbn [bind]; rewrite DE1; cbn [bind]; rewrite K'; reflexivity).
  exists w', ((CHECKSUM, JStr (hex (checksum_of sha384 B))) :: B ++ [(SIGNATURE, JStr (hex sg))]), sg, B.
  split; [exact SP|]. split.
  { unfold PackageModel.summarize, checksum. rewrite SM'. cbn [bind]. unfold signature. rewrite P'. cbn [bind]. rewrite DE1. cbn [bind]. rewrite V'. cbn [bind e' e_versions].
    rewrite (get_set _ str_eqb_eq), str_eqb_refl, fromhex_hex. cbn [bind]. rewrite K'. cbn [bind]. unfold verify. cbn [pair_of k_public bind]. unfold sg at 1. rewrite SG. reflexivity. }
  do 3 (split; [reflexivity || exact SM|]). split; [exact K'|]. do 2 (split; [reflexivity|]). split; [exists cache, e; auto|exact R'].
Qed.
Lemma normal_sorted l : normal (JObj l) -> normal (JObj (sort_items l)).
Proof.
  intros N. apply normal_obj in N as [N F]. apply normal_obj. split.
  - eapply Permutation_NoDup; [|exact N]. apply Permutation_map. symmetry. apply sort_perm.
  - eapply Permutation_Forall; [|exact F]. symmetry. apply sort_perm.
Qed.
Theorem produce_good package version scope files today s w : good_scope package version scope -> good_files files -> ready package s w ->
  exists w' S sc sg, produce_signed_summary C sha384 read_token scope (file_object files) today w = (w', Ok (dumps4_bytes (JObj S))) /\
    normal (JObj S) /\ dated scope today sc /\ field S "scope" (JObj (sort_items sc)) /\ field S "checksums" (file_object (sort_items files)) /\
    field S "signature" (JStr (hex sg)) /\ signed_in w w' package version (hex sg) /\ ready package s w' /\
    forall v, k_public (v_key C v) = Some (public_of C s) ->
      (forall read, v_read C v = Some read -> forall name h, In (name, h) files -> exists data, read name = Ok data /\ hex (sha384 data) = h) ->
      exists reads, verify_summary C sha384 v S = (reads, Ok tt).
Proof.
  intros GS GF R. destruct (reinit_good package version scope today w GS) as (sc & RE & DT & NS & GP & GV).
  unfold produce_signed_summary. rewrite RE. rewrite add_files_good by (exact GF || reflexivity). set (w1 := set_files _ files).
  assert (R1 : ready package s w1) by exact R.
  assert (P1 : scope_str w1 PACKAGE = Ok package) by (unfold scope_str, PACKAGE; cbn [w1 set_files set_scope w_scope]; now rewrite GP).
  assert (V1 : scope_str w1 VERSION = Ok version) by (unfold scope_str, VERSION; cbn [w1 set_files set_scope w_scope]; now rewrite GV).
  destruct (sign_ready package version s w1 R1 P1 V1) as (w' & S & sg & B & SP & SZ & ES & SM & EG & K' & WS & WF & SI & R').
  rewrite SP, SZ. cbn [bind]. exists w', S, sc, sg. split; [reflexivity|].
  destruct (ready_key _ _ _ R1 P1) as (K1 & cache & e & W & DE & G & NC).
  assert (EB : B = [(CHECKSUMS, JObj (as_strings (sort_items files))); (PUBLIC_CREDENTIALS, JObj (sort_items (e_credentials e))); (SCOPE, JObj (sort_items sc)); (SIGNING_KEY, JStr (hex (raw_public C (public_of C s))))]).
  { unfold PackageModel.summary in SM. rewrite P1 in SM. cbn [bind] in SM. rewrite DE in SM. cbn [bind] in SM. rewrite K1 in SM. cbn [bind] in SM. unfold public_bytes in SM. cbn [pair_of k_public bind] in SM. apply Ok_inj in SM. symmetry. exact SM. }
  split.
  { rewrite ES, EB. apply normal_obj. split.
    - cbn [app map fst]. repeat constructor; cbn [In]; intros Q; repeat (destruct Q as [Q|Q]; [discriminate Q|]); exact Q.
    - cbn [app]. repeat (constructor; [split; [now apply lit_clean|cbn [snd]]|]); [| | | | | |constructor].
      + apply hex_clean.
      + change (as_strings (sort_items files)) with (map (fun kv : str * str => (fst kv, JStr (snd kv))) (sort_items files)). apply (files_normal (sort_items files)).
        destruct GF as [N F U]. split.
        * eapply Permutation_NoDup; [|exact N]. apply Permutation_map. symmetry. apply sort_perm.
        * eapply Permutation_Forall; [|exact F]. symmetry. apply sort_perm.
        * eapply Permutation_Forall; [|exact U]. symmetry. apply sort_perm.
      + now apply normal_sorted.
      + now apply normal_sorted.
      + apply hex_clean.
      + apply hex_clean. }
  split; [exact DT|]. rewrite ES, EB. do 3 (split; [reflexivity|]). split; [exact SI|]. split; [exact R'|].
  intros v KP FL. rewrite <- EB, <- ES. eapply (summarize_verifies C sha384 read_token w' S v (public_of C s)); [exact SZ|..].
  - exists (pair_of s). auto.
  - exact KP.
  - intros read VR name h I. apply (FL read VR). rewrite WF in I. exact I.
Qed.
End Sign.

(** ** Requests and responses *)
Lemma framed_length w items body : framed w items body -> blen body = w * blen items + fold_right (fun i n => blen i + n) 0 items.
Proof.
  induction 1 as [|len item items rest L _ F IH]; [rewrite !blen_nil, N.mul_0_r; reflexivity|]. rewrite !blen_app, blen_cons, IH. cbn [fold_right]. rewrite N.mul_add_distr_l, L. lia.
Qed.
Lemma pack_length items x : pack items = Ok x -> blen x = 34 + 8 * blen items + fold_right (fun i n => blen i + n) 0 items.
Proof.
  unfold pack. intros E. apply canonical_pack_layout in E as (p & k & blob & _ & _ & (s & count & body & _ & Lc & _ & FR & ->) & Lb & _ & K & _).
  apply framed_length in FR. rewrite blen_cons, !blen_app, blen_repeat, FR, Lc. rewrite !blen_cons. cbn [fold_right]. rewrite Lb, blen_cons, blen_nil. lia.
Qed.
Lemma pack_total items : blen items < 2 ^ 16 -> Forall (fun i => blen i < 2 ^ 64) items -> exists x, pack items = Ok x.
Proof.
  intros L F. apply canonical_pack_total. split; [split; discriminate|]. split; [split; [discriminate|reflexivity]|].
  split; [apply (N.lt_trans _ (2 ^ 16 + 2)); [exact (proj1 (N.add_lt_mono_r _ _ 2) L)|reflexivity]|exact F].
Qed.
Lemma response_aad header : blen header < 2 ^ 16 -> exists aad, pack [RESPONSE_AAD; header] = Ok aad /\ blen aad < 2 ^ 32.
Proof.
  change (2 ^ 16) with 65536. change (2 ^ 32) with 4294967296. intros L. assert (R : blen RESPONSE_AAD = 24) by reflexivity.
  destruct (pack_total [RESPONSE_AAD; header]) as (x & E).
  - reflexivity.
  - change (2 ^ 64) with 18446744073709551616. repeat constructor; lia.
  - exists x. split; [exact E|]. rewrite (pack_length _ _ E). cbn [fold_right]. rewrite R, !blen_cons, blen_nil. lia.
Qed.
Lemma request_aad : blen REQUEST_AAD < 2 ^ 32.
Proof. reflexivity. Qed.

Section Exchange.
Variable C : curve.
Variable sha384 : bytes -> bytes.
Variable read_token : str -> str -> result bytes.
Variable H : hasher.
Variable rate : N.
Variable cfg : cfg.
Variable the_package : str.
Hypothesis X : an_xof rate H.
Hypothesis V : valid_cfg H cfg.
Hypothesis SMALL : header_bytes cfg < 2 ^ 16.
Notation serve := (serve C sha384 read_token H cfg the_package).
Notation make_request := (make_request H cfg).
Notation recv_response := (recv_response H cfg).

Lemma sealed_small ks r data aad ct : valid_coins cfg r -> blen aad < 2 ^ 32 -> bytes_encrypt H cfg ks r data None aad = Ok ct -> blen data <= blen ct.
Proof.
  intros R A E. destruct (C23_ciphertext_layout H rate cfg ks r data None aad X V R I A) as (tag & body & E' & _ & _ & L & _).
  rewrite E in E'. apply Ok_inj in E' as ->. rewrite !blen_app. lia.
Qed.
Lemma request_made ks r scope files : valid_coins cfg r -> normal scope -> normal files ->
  blen (dumps_bytes scope) < 2 ^ 64 -> blen (dumps_bytes files) < 2 ^ 64 -> exists request, make_request ks r scope files = Ok request.
Proof.
  intros R NS NF LS LF. unfold ServiceModel.make_request. rewrite !dumps_value_normal by assumption. cbn [bind].
  destruct (pack_total [dumps_bytes scope; dumps_bytes files]) as (x & ->); [reflexivity|auto|]. cbn [bind].
  destruct (C22_any_configuration_roundtrip H rate cfg ks r x None REQUEST_AAD X V R I request_aad) as (ct & E & _). eauto.
Qed.
Lemma request_opens ks r scope files request : valid_coins cfg r -> normal scope -> normal files ->
  make_request ks r scope files = Ok request -> python_sized request ->
  exists x, canonical_unpack x = Ok [dumps_bytes scope; dumps_bytes files] /\
    forall salt now, bytes_decrypt H cfg ks salt now request REQUEST_AAD (Some TTL) = opened (c_clock cfg) (r_now r) now (Some TTL) x.
Proof.
  intros R NS NF E P. unfold ServiceModel.make_request in E. rewrite !dumps_value_normal in E by assumption. cbn [bind] in E.
  apply bind_ok in E as (x & E & E2). exists x. split.
  - apply (canonical_roundtrip _ _ _ _ _ E). unfold python_sized in *. pose proof (sealed_small _ _ _ _ _ R request_aad E2). lia.
  - intros salt now. destruct (C22_any_configuration_roundtrip H rate cfg ks r x None REQUEST_AAD X V R I request_aad) as (ct & E' & D). rewrite E2 in E'. apply Ok_inj in E' as <-. apply D.
Qed.
Lemma in_time_opened made now data : in_time cfg made now -> opened (c_clock cfg) made now (Some TTL) data = Ok data.
Proof. unfold in_time, opened, TTL. intros T. now rewrite (proj2 (Z.leb_le _ _) T). Qed.
Lemma head_small (x : bytes) : blen (take (header_bytes cfg) x) < 2 ^ 16.
Proof. rewrite take_firstn. unfold blen in *. rewrite firstn_length. lia. Qed.

Theorem exchange ks key r scope files request c w version s framed more :
  signs C -> make_cipher H cfg key = Ok ks -> transmit_key c = Ok key ->
  good_scope the_package version scope -> good_files files -> ready C read_token the_package s w ->
  valid_coins cfg r -> make_request ks r (JObj scope) (file_object files) = Ok request -> python_sized request ->
  frame request framed -> stream (arrivals c) = framed ++ more -> in_time cfg (r_now r) (now c) ->
  valid_coins cfg (drawn c) ->
  exists w' S sc sg response,
    normal (JObj S) /\ dated scope (today c) sc /\ field S "scope" (JObj (sort_items sc)) /\ field S "checksums" (file_object (sort_items files)) /\
    field S "signature" (JStr (hex sg)) /\ signed_in w w' the_package version (hex sg) /\ ready C read_token the_package s w' /\
    (forall v, k_public (v_key C v) = Some (public_of C s) ->
      (forall read, v_read C v = Some read -> forall name h, In (name, h) files -> exists data, read name = Ok data /\ hex (sha384 data) = h) ->
      exists reads, verify_summary C sha384 v S = (reads, Ok tt)) /\
    (python_sized response -> forall p net, sendings c = Some p :: net -> serve c w = (w', [], Fails p)) /\
    (python_sized response -> Forall (fun o => o = None) (sendings c) -> exists sent, frame response sent /\ serve c w = (w', sent, Got tt) /\
      forall l more' salt now, stream l = sent ++ more' -> in_time cfg (r_now (drawn c)) now ->
        recv_response ks (take (header_bytes cfg) request) salt now l = Got (dumps4_bytes (JObj S))).
Proof.
  intros SG MK TK GS GF RD VR MR PS FR ST IT VD.
  destruct (produce_good C sha384 read_token SG the_package version scope files (today c) s w GS GF RD) as (w' & S & sc & sg & PR & NS & DT & F1 & F2 & F3 & SI & RD' & VF).
  assert (NSC : normal (JObj scope)) by apply GS. assert (NF : normal (file_object files)) by now apply files_normal.
  destruct (request_opens ks r _ _ request VR NSC NF MR PS) as (x & UN & OP).
  destruct (response_aad (take (header_bytes cfg) request) (head_small request)) as (aad & PA & LA).
  destruct (C22_any_configuration_roundtrip H rate cfg ks (drawn c) (dumps4_bytes (JObj S)) None aad X V VD I LA) as (response & ER & DR).
  exists w', S, sc, sg, response. do 8 (split; [assumption|]).
  assert (L64 : python_sized response -> blen response < 2 ^ 64) by (intros PZ; unfold python_sized in PZ; change (2 ^ 63) with 9223372036854775808 in PZ; change (2 ^ 64) with 18446744073709551616; lia).
  assert (SV : serve c w = let '(sent, r) := buffer_send response (sendings c) in (w', sent, r)).
  { unfold ServiceModel.serve. rewrite TK. cbn [bind]. rewrite MK. cbn [lift]. unfold get_and_parse_request.
    destruct (recv_message_framed (arrivals c) request framed more FR ST) as (l' & -> & _).
    rewrite OP, in_time_opened by exact IT. cbn [bind]. rewrite UN. cbn [bind]. rewrite !loads_bytes_dumps by assumption. cbn [bind lift].
    unfold right_package, PACKAGE. rewrite (gs_package _ _ _ GS). rewrite str_eqb_refl. rewrite PR. unfold send_packaged_response. match goal with |- context [pack ?x] => replace (pack x) with (@Ok bytes aad) by (symmetry; exact PA) end. cbn [bind]. rewrite ER. reflexivity. }
  split.
  { intros PZ p net EN. rewrite SV. unfold buffer_send, to_bytes_be. change (256 ^ 8) with (2 ^ 64). rewrite (proj2 (N.ltb_lt _ _) (L64 PZ)), EN. reflexivity. }
  intros PZ QU. destruct (buffer_send_framed response (sendings c) (L64 PZ) QU) as (sent & BS & FS). exists sent. split; [exact FS|]. split; [rewrite SV, BS; reflexivity|].
  intros l more' salt now' SL IT'. unfold ServiceModel.recv_response. destruct (recv_message_framed l response sent more' FS SL) as (l' & -> & _).
    match goal with |- context [pack ?x] => replace (pack x) with (@Ok bytes aad) by (symmetry; exact PA) end. cbn [bind]. rewrite DR, in_time_opened by exact IT'. reflexivity.
Qed.
End Exchange.

(** ** What a client can change *)
Section Any.
Variable C : curve.
Variable sha384 : bytes -> bytes.
Variable read_token : str -> str -> result bytes.
Variable H : hasher.
Variable cfg : cfg.
Variable the_package : str.
Notation serve := (serve C sha384 read_token H cfg the_package).
Notation produce := (produce_signed_summary C sha384 read_token).
Notation service_loop := (service_loop C sha384 read_token H cfg the_package).

Lemma reinit_what scope today w : exists w', (forall w2, database w2 = database w -> exists w2', snd (reinit scope today w2) = snd (reinit scope today w) /\ fst (reinit scope today w2) = w2' /\ database w2' = database w /\
    (snd (reinit scope today w) = Ok tt -> w2' = w')) /\ fst (reinit scope today w) = w' /\ database w' = database w /\
  (snd (reinit scope today w) = Ok tt -> forall p, dict_get str_eqb scope PACKAGE = Some (JStr p) -> scope_str w' PACKAGE = Ok p).
Proof.
  exists (fst (reinit scope today w)). unfold reinit. destruct (dict_get str_eqb scope (lit "self")) as [x|].
  { split; [|split; [reflexivity|split; [reflexivity|discriminate]]]. intros w2 D. exists w2. split; [reflexivity|]. split; [reflexivity|]. split; [exact D|discriminate]. }
  destruct (dict_get str_eqb scope PACKAGE) as [package|] eqn:EP.
  2:{ split; [|split; [reflexivity|split; [reflexivity|discriminate]]]. intros w2 D. exists w2. split; [reflexivity|]. split; [reflexivity|]. split; [exact D|discriminate]. }
  destruct (dict_get str_eqb scope VERSION) as [version|].
  2:{ split; [|split; [reflexivity|split; [reflexivity|discriminate]]]. intros w2 D. exists w2. split; [reflexivity|]. split; [reflexivity|]. split; [exact D|discriminate]. }
  set (extras := filter _ scope). set (date := match dict_get str_eqb scope DATE with Some d => if truthy d then d else JInt today | None => JInt today end).
  destruct (ns_update [] extras) as [s [u|e]].
  2:{ split; [|split; [reflexivity|split; [reflexivity|discriminate]]]. intros w2 D. exists (set_files w2 []). split; [reflexivity|]. split; [reflexivity|]. split; [exact D|discriminate]. }
  assert (UL : forall n, In n [lit "package"; lit "version"; lit "date"] -> usable n).
  { intros n I J. cbn [In map] in I, J. repeat (destruct I as [<-|I]; [repeat (destruct J as [J|J]; [discriminate J|]); exact J|]). exact I. }
  rewrite (usable_update [(PACKAGE, package); (VERSION, version); (DATE, date)] s) by (unfold PACKAGE, VERSION, DATE; repeat constructor; cbn [fst]; apply UL; cbn [In]; auto).
  split; [|split; [reflexivity|split; [reflexivity|]]].
  - intros w2 D. eexists. split; [reflexivity|]. split; [reflexivity|]. unfold database in D |- *. cbn in D |- *. split; [exact D|]. intros _. unfold set_scope, set_files. cbn. congruence.
  - intros _ p E. injection E as ->. unfold scope_str. cbn [fst set_scope w_scope dict_update fold_left snd]. rewrite !(get_set _ str_eqb_eq). rewrite str_eqb_refl.
    change (str_eqb DATE PACKAGE) with false. change (str_eqb VERSION PACKAGE) with false. reflexivity.
Qed.
Lemma add_files_what files w : database (fst (add_files files w)) = database w /\ w_scope (fst (add_files files w)) = w_scope w.
Proof.
  unfold add_files. destruct files; try (split; reflexivity). destruct (strings l) as [m|]; [|split; reflexivity]. destruct (ns_update _ m) as [f r]. split; reflexivity.
Qed.
Lemma sign_what w : (fst (sign_package C sha384 read_token w) = w /\ snd (sign_package C sha384 read_token w) <> Ok tt) \/
  exists package version sg, scope_str w PACKAGE = Ok package /\ snd (sign_package C sha384 read_token w) = Ok tt /\
    signed_in w (fst (sign_package C sha384 read_token w)) package version (hex sg).
Proof.
  unfold sign_package. destruct (bind _ _) as [[[[v s] p] e]|e] eqn:E; [|left; split; [reflexivity|discriminate]].
  apply bindE in E as (c & CK & E). apply bindE in E as (v' & V & E). apply bindE in E as (k & K & E). apply bindE in E as (s' & SG & E). apply bindE in E as (p' & P & E). apply bindE in E as (e' & DE & E). apply Ok_inj in E. injection E as -> -> -> ->.
  right. exists p, v, s. split; [exact P|]. pose proof DE as DE'. unfold db_entry in DE'. destruct (w_cache w) as [cache|] eqn:W; [|discriminate].
  destruct (dict_get str_eqb cache p) as [e0|] eqn:G; [|discriminate]. apply Ok_inj in DE' as ->. unfold put_entry. rewrite W. split; [reflexivity|].
  exists cache, e. split; [exact W|]. split; [exact G|]. split; reflexivity.
Qed.
Lemma signed_in_of w1 w w' p v sg : database w1 = database w -> signed_in w1 w' p v sg -> signed_in w w' p v sg.
Proof. unfold database, signed_in. intros D (cache & e & W & G & A & B). injection D as D1 D2. exists cache, e. rewrite <- D1, <- D2. auto. Qed.

Theorem produce_what scope files today w : dict_get str_eqb scope PACKAGE = Some (JStr the_package) ->
  database (fst (produce scope files today w)) = database w \/
  exists version sg, signed_in w (fst (produce scope files today w)) the_package version (hex sg).
Proof.
  intros P. unfold produce_signed_summary. destruct (reinit_what scope today w) as (w' & _ & F & D & SC). destruct (reinit scope today w) as [w1 [[]|e]]; cbn [fst snd] in *; subst w1; [|now left].
  specialize (SC eq_refl _ P). destruct (add_files_what files w') as (D2 & S2). destruct (add_files files w') as [w2 [[]|e]]; cbn [fst] in *; [|left; congruence].
  destruct (sign_what w2) as [(E & NE)|(package & version & sg & PK & OKS & SI)].
  - destruct (sign_package C sha384 read_token w2) as [w3 [[]|e]]; cbn [fst snd] in *; [contradiction|]. subst. left. congruence.
  - destruct (sign_package C sha384 read_token w2) as [w3 [[]|e]]; cbn [fst snd] in *; [|discriminate].
    right. exists version, sg. assert (package = the_package) as -> by (unfold scope_str in *; rewrite S2 in PK; congruence). apply (signed_in_of w2); [congruence|exact SI].
Qed.
Theorem produce_independent scope files today w1 w2 : database w1 = database w2 ->
  snd (produce scope files today w1) = snd (produce scope files today w2) /\ database (fst (produce scope files today w1)) = database (fst (produce scope files today w2)).
Proof.
  intros D. unfold produce_signed_summary. destruct (reinit_what scope today w2) as (w' & I & F & D2 & _). destruct (I w1 D) as (w1' & R & F1 & D1 & S1).
  destruct (reinit scope today w1) as [u1 r1]. destruct (reinit scope today w2) as [u2 r2]. cbn [fst snd] in *. subst r1 u1 u2.
  destruct r2 as [[]|e]; [|cbn [fst snd]; split; [reflexivity|congruence]]. rewrite S1 by reflexivity. split; reflexivity.
Qed.

Theorem serve_what c w : let '(w', sent, r) := serve c w in
  (w' = w /\ sent = [] /\ exists p, r = Fails p) \/
  exists key ks request framed rest text scope_text files_text scope files,
    transmit_key c = Ok key /\ make_cipher H cfg key = Ok ks /\ frame request framed /\ stream (arrivals c) = framed ++ rest /\
    bytes_decrypt H cfg ks (unused_salt c) (now c) request REQUEST_AAD (Some TTL) = Ok text /\ canonical_unpack text = Ok [scope_text; files_text] /\
    loads_bytes scope_text = Ok (JObj scope) /\ loads_bytes files_text = Ok files /\ dict_get str_eqb scope PACKAGE = Some (JStr the_package) /\
    w' = fst (produce scope files (today c) w) /\
    (forall text, snd (produce scope files (today c) w) = Ok text -> send_packaged_response H cfg ks (take (header_bytes cfg) request) text c = (sent, r)) /\
    (forall e, snd (produce scope files (today c) w) = Err e -> sent = [] /\ r = Fails (Raised e)).
Proof.
  unfold ServiceModel.serve. destruct (transmit_key c) as [key|e]; cbn [bind lift]; [|left; eauto]. destruct (make_cipher H cfg key) as [ks|e] eqn:MK; cbn [lift]; [|left; eauto].
  unfold get_and_parse_request. pose proof (recv_message_what (arrivals c)) as R. destruct (recv_message (arrivals c)) as [l [request|p]]; [|left; eauto].
  destruct R as (framed & FR & ST & _). destruct (bytes_decrypt _ _ _ _ _ _ _ _) as [text|e] eqn:BD; cbn [bind lift]; [|left; eauto].
  destruct (canonical_unpack text) as [items|e] eqn:CU; cbn [bind lift]; [|left; eauto]. destruct items as [|st [|ft [|z items]]]; cbn [lift]; try (left; eauto; fail).
  destruct (loads_bytes st) as [scope|e] eqn:LS; cbn [bind lift]; [|left; eauto]. destruct (loads_bytes ft) as [files|e] eqn:LF; cbn [bind lift]; [|left; eauto].
  destruct (right_package the_package scope) as [sc|e] eqn:RP; [|left; eauto].
  assert (RQ : scope = JObj sc /\ dict_get str_eqb sc PACKAGE = Some (JStr the_package)).
  { unfold right_package in RP. destruct scope; try discriminate. destruct (dict_get str_eqb l0 PACKAGE) as [[]|] eqn:G; try discriminate. destruct (str_eqb s the_package) eqn:E; [|discriminate].
    apply Ok_inj in RP as <-. apply str_eqb_eq in E as <-. auto. }
  destruct RQ as (-> & PK).
  destruct (produce sc files (today c) w) as [w' [t|e]] eqn:PR.
  - destruct (send_packaged_response _ _ _ _ _ _) as [sent r] eqn:SP. right. exists key, ks, request, framed, (stream l), text, st, ft, sc, files.
    do 9 (split; [assumption || reflexivity|]). rewrite PR. split; [reflexivity|]. cbn [snd]. split; [intros t' E; apply Ok_inj in E as <-; exact SP|discriminate].
  - right. exists key, ks, request, framed, (stream l), text, st, ft, sc, files.
    do 9 (split; [assumption || reflexivity|]). rewrite PR. split; [reflexivity|]. cbn [snd]. split; [discriminate|intros e' E; injection E as <-; auto].
Qed.
Theorem serve_independent c w1 w2 : database w1 = database w2 ->
  snd (fst (serve c w1)) = snd (fst (serve c w2)) /\ snd (serve c w1) = snd (serve c w2) /\ database (fst (fst (serve c w1))) = database (fst (fst (serve c w2))).
Proof.
  intros D. unfold ServiceModel.serve. destruct (lift _) as [ks|p]; [|auto]. destruct (get_and_parse_request _ _ _ _) as [[[header scope] files]|p]; [|auto].
  destruct (right_package the_package scope) as [sc|e]; [|auto]. destruct (produce_independent sc files (today c) w1 w2 D) as (E & D').
  destruct (produce sc files (today c) w1) as [u1 r1]. destruct (produce sc files (today c) w2) as [u2 r2]. cbn [fst snd] in *. subst r1.
  destruct r2 as [t|e]; [|auto]. destruct (send_packaged_response _ _ _ _ _ _) as [sent r]. auto.
Qed.

Theorem loop_deeds vs : forall w, exists sents, snd (fst (service_loop vs w)) = flat_map (fun b => [Accepts; Sends b; Closes]) sents.
Proof.
  induction vs as [|[c|p] vs IH]; intros w; [exists []; reflexivity| |exists []; reflexivity]. cbn [ServiceModel.service_loop].
  destruct (serve c w) as [[w' sent] r]. destruct (IH w') as (sents & E). destruct (service_loop vs w') as [[w2 ds] e]. cbn [fst snd] in E. subst ds.
  destruct r as [u|p]; [exists (sent :: sents); reflexivity|]. destruct (react p); [exists (sent :: sents)|exists [sent]|exists [sent]]; reflexivity.
Qed.
Lemma loop_goes_on c vs w w' sent p : serve c w = (w', sent, Fails p) -> react p = GoOn ->
  service_loop (Comes c :: vs) w = (fst (fst (service_loop vs w')), [Accepts; Sends sent; Closes] ++ snd (fst (service_loop vs w')), snd (service_loop vs w')).
Proof. intros E R. cbn [ServiceModel.service_loop]. rewrite E, R. now destruct (service_loop vs w') as [[w2 ds] e]. Qed.
Lemma loop_served c vs w w' sent : serve c w = (w', sent, Got tt) ->
  service_loop (Comes c :: vs) w = (fst (fst (service_loop vs w')), [Accepts; Sends sent; Closes] ++ snd (fst (service_loop vs w')), snd (service_loop vs w')).
Proof. intros E. cbn [ServiceModel.service_loop]. rewrite E. now destruct (service_loop vs w') as [[w2 ds] e]. Qed.
Lemma loop_dies c vs w w' sent p : serve c w = (w', sent, Fails p) -> react p = Escape -> service_loop (Comes c :: vs) w = (w', [Accepts; Sends sent; Closes], Died p).
Proof. intros E R. cbn [ServiceModel.service_loop]. now rewrite E, R. Qed.

(** Requests that do not open. *)
Theorem serve_refused rate c w key ks : an_xof rate H -> valid_cfg H cfg -> transmit_key c = Ok key -> make_cipher H cfg key = Ok ks ->
  In (fate (arrivals c)) [Aborted; Reset; TimedOut] ->
  (forall request framed rest text, frame request framed -> stream (arrivals c) = framed ++ rest -> bytes_decrypt H cfg ks (unused_salt c) (now c) request REQUEST_AAD (Some TTL) <> Ok text) ->
  exists p, serve c w = (w, [], Fails p) /\ react p = GoOn.
Proof.
  intros X V TK MK FT NO. unfold ServiceModel.serve. rewrite TK. cbn [bind]. rewrite MK. cbn [lift]. unfold get_and_parse_request.
  pose proof (recv_message_what (arrivals c)) as R. destruct (recv_message (arrivals c)) as [l [request|p]].
  - destruct R as (framed & FR & ST & _). destruct (bytes_decrypt _ _ _ _ _ _ _ _) as [text|e] eqn:BD; [now destruct (NO request framed (stream l) text FR ST)|].
    cbn [bind lift]. exists (Raised e). split; [reflexivity|].
    destruct (C24_decrypt_outcomes H rate cfg ks (unused_salt c) (now c) request REQUEST_AAD (Some TTL) e X V request_aad BD) as [->|[->|(late & _ & ->)]]; reflexivity.
  - destruct R as (-> & _). exists (fate (arrivals c)). split; [reflexivity|]. cbn [In] in FT. destruct FT as [<-|[<-|[<-|[]]]]; reflexivity.
Qed.
(** Requests of holders of the key without a package. *)
Theorem serve_nameless c w key ks request framed rest text st ft scope files : transmit_key c = Ok key -> make_cipher H cfg key = Ok ks ->
  frame request framed -> stream (arrivals c) = framed ++ rest -> bytes_decrypt H cfg ks (unused_salt c) (now c) request REQUEST_AAD (Some TTL) = Ok text ->
  canonical_unpack text = Ok [st; ft] -> loads_bytes st = Ok (JObj scope) -> loads_bytes ft = Ok files -> dict_get str_eqb scope PACKAGE = None ->
  serve c w = (w, [], Fails (Raised KeyErr)).
Proof.
  intros TK MK FR ST BD CU LS LF G. unfold ServiceModel.serve. rewrite TK. cbn [bind]. rewrite MK. cbn [lift]. unfold get_and_parse_request.
  destruct (recv_message_framed _ _ _ _ FR ST) as (l & -> & _). rewrite BD. cbn [bind]. rewrite CU. cbn [bind]. rewrite LS. cbn [bind]. rewrite LF. cbn [bind lift]. unfold right_package. now rewrite G.
Qed.
End Any.

(** ** The inventory *)
Lemma lstrip_what s : exists a, s = a ++ lstrip s /\ Forall (fun c => blank c = true) a /\ forall c r, lstrip s = c :: r -> blank c = false.
Proof.
  induction s as [|x s (a & E & F & N)]; cbn [lstrip]; [exists []; repeat split; [constructor|discriminate]|]. destruct (blank x) eqn:B.
  - exists (x :: a). split; [cbn; congruence|]. split; [now constructor|exact N].
  - exists []. split; [reflexivity|]. split; [constructor|]. intros c r Q. injection Q as <- _. exact B.
Qed.
Lemma strip_what s : stripped s (strip s).
Proof.
  unfold strip. destruct (lstrip_what s) as (a & E & F & N). destruct (lstrip_what (rev (lstrip s))) as (b & E' & F' & N').
  set (u := lstrip s) in *. set (v := lstrip (rev u)) in *. assert (U : u = rev v ++ rev b) by (rewrite <- (rev_involutive u), E'; apply rev_app_distr).
  exists a, (rev b). split; [rewrite E at 1; f_equal; exact U|]. split; [exact F|]. split; [apply Forall_rev; exact F'|]. split.
  - intros c r Q. apply (N c (r ++ rev b)). rewrite U, Q. reflexivity.
  - intros c r Q. apply (N' c (rev r)). rewrite <- (rev_involutive v), Q, rev_app_distr. reflexivity.
Qed.
Lemma split_what s : Forall (fun l => ~ In 10 l) (split_lines s) /\ split_lines s <> [] /\ s = intercalate [10] (split_lines s).
Proof.
  induction s as [|c s (F & NE & E)]; cbn [split_lines].
  - split; [repeat constructor; intros []|]. split; [discriminate|reflexivity].
  - destruct (c =? 10) eqn:Q.
    + assert (c = 10) as -> by lia. split; [constructor; [intros []|exact F]|]. split; [discriminate|]. destruct (split_lines s) as [|l ls]; [contradiction|]. rewrite E. reflexivity.
    + destruct (split_lines s) as [|l ls]; [contradiction|]. inversion F as [|? ? A B]; subst. split; [constructor; [|exact B]|].
      * intros [P|P]; [lia|now apply A].
      * split; [discriminate|]. destruct ls; cbn [intercalate app] in *; reflexivity.
Qed.
Lemma starts_what t : forall s, starts_with t s = true <-> exists b, s = t ++ b.
Proof.
  induction t as [|a t IH]; intros s; cbn [starts_with]; [split; [exists s; reflexivity|reflexivity]|]. destruct s as [|x s]; [split; [discriminate|intros (b & E); discriminate]|].
  rewrite andb_true_iff, IH, N.eqb_eq. split; [intros (-> & b & ->); exists b; reflexivity|intros (b & E); injection E as -> ->; eauto].
Qed.
Lemma contains_what part : forall s, contains part s = true <-> exists a b, s = a ++ part ++ b.
Proof.
  induction s as [|x s IH]; cbn [contains]; rewrite orb_true_iff, starts_what.
  - split; [intros [(b & E)|Q]; [exists [], b; exact E|discriminate]|]. intros (a & b & E). left. destruct a; [exists b; exact E|discriminate].
  - rewrite IH. split.
    + intros [(b & E)|(a & b & ->)]; [exists [], b; exact E|exists (x :: a), b; reflexivity].
    + intros (a & b & E). destruct a as [|y a]; [left; exists b; exact E|]. injection E as <- E. right. eauto.
Qed.
Lemma excluded_what name : existsb (fun part => contains part name) MANIFEST_EXCLUDES = true <-> left_out name.
Proof.
  rewrite existsb_exists. unfold left_out. split.
  - intros (part & I & Q). apply contains_what in Q as (a & b & E). exists part, a, b. auto.
  - intros (part & a & b & I & E). exists part. split; [exact I|]. apply contains_what. eauto.
Qed.
Definition dynamic (name : str) : bool := existsb (str_eqb name) [MANIFEST_FILENAME; SIGNATURE_FILENAME].
Section Inventory.
Variable sha384 : bytes -> bytes.
Variable read : str -> result bytes.
Notation names lines := (filter (fun n => negb (str_eqb n [])) (map strip lines)).
Lemma inventory_what lines : forall manifest files,
  match take_inventory sha384 read lines manifest files with
  | Ok (m, fs) =>
      (exists text, manifest_of (names lines) text /\ m = manifest ++ text) /\
      (forall name, In name (names lines) -> dynamic name = false -> exists data, read name = Ok data) /\
      (NoDup (map fst files) -> NoDup (map fst fs)) /\
      forall name, dict_get str_eqb fs name =
        if existsb (str_eqb name) (names lines) && negb (dynamic name) then match read name with Ok data => Some (hex (sha384 data)) | Err _ => None end
        else dict_get str_eqb files name
  | Err e => exists before name after, names lines = before ++ name :: after /\ dynamic name = false /\ read name = Err e /\
      forall n, In n before -> dynamic n = false -> exists data, read n = Ok data
  end.
Proof.
  induction lines as [|line lines IH]; intros manifest files; cbn [take_inventory map filter].
  - split; [exists []; split; [constructor|now rewrite app_nil_r]|]. split; [intros _ []|]. auto.
  - set (n := strip line). fold n. destruct (str_eqb n []) eqn:E0; cbn [negb]; [exact (IH manifest files)|].
    set (m' := if existsb (fun part => contains part n) MANIFEST_EXCLUDES then manifest else manifest ++ lit "include " ++ n ++ [10]).
    assert (MM : forall text, manifest_of (names lines) text -> exists text', manifest_of (n :: names lines) text' /\ m' ++ text = manifest ++ text').
    { intros text T. unfold m'. destruct (existsb _ MANIFEST_EXCLUDES) eqn:X.
      - exists text. split; [apply leaves_out; [now apply excluded_what|exact T]|reflexivity].
      - exists (lit "include " ++ n ++ [10] ++ text). split; [apply includes; [rewrite <- excluded_what; congruence|exact T]|]. now repeat rewrite <- app_assoc. }
    fold (dynamic n). destruct (dynamic n) eqn:DY.
    + specialize (IH m' files). destruct (take_inventory sha384 read lines m' files) as [[m fs]|e].
      * destruct IH as ((text & T & ->) & RD & ND & G). split; [now apply MM|]. split; [intros name [<-|I] Q; [congruence|auto]|]. split; [exact ND|].
        intros name. rewrite G. cbn [existsb]. destruct (str_eqb name n) eqn:EN; [|reflexivity]. apply str_eqb_eq in EN as ->. rewrite DY. now rewrite !andb_false_r.
      * destruct IH as (before & name & after & EQ & D & R & B). exists (n :: before), name, after. split; [cbn [app]; congruence|]. split; [exact D|]. split; [exact R|]. intros x [<-|I] Q; [congruence|auto].
    + destruct (read n) as [data|e] eqn:R; cbn [bind]; [|exists [], n, (names lines); split; [reflexivity|]; split; [exact DY|]; split; [exact R|intros x []]].
      specialize (IH m' (dict_set str_eqb files n (hex (sha384 data)))). destruct (take_inventory sha384 read lines m' _) as [[m fs]|e].
      * destruct IH as ((text & T & ->) & RD & ND & G). split; [now apply MM|]. split; [intros name [<-|I] Q; [eauto|auto]|]. split; [intros N; apply ND; now apply (nodup_set _ str_eqb_eq)|].
        intros name. rewrite G. cbn [existsb]. rewrite (get_set _ str_eqb_eq). rewrite (eqb_sym _ str_eqb_eq n name). destruct (str_eqb name n) eqn:EN; [|reflexivity]. apply str_eqb_eq in EN as ->. rewrite DY, R. cbn [orb andb negb].
        now destruct (existsb (str_eqb n) (names lines)).
      * destruct IH as (before & name & after & EQ & D & R' & B). exists (n :: before), name, after. split; [cbn [app]; congruence|]. split; [exact D|]. split; [exact R'|]. intros x [<-|I] Q; [eauto|auto].
Qed.
End Inventory.
Lemma listed_lines tree : listed tree (filter (fun n => negb (str_eqb n [])) (map strip (split_lines tree))).
Proof.
  destruct (split_what tree) as (F & NE & E). exists (split_lines tree), (map strip (split_lines tree)). repeat split; auto.
  clear. induction (split_lines tree) as [|l ls IH]; cbn [map]; constructor; [apply strip_what|exact IH].
Qed.

(** ** Order of items *)
Lemma get_perm {V} (l1 l2 : list (str * V)) k : Permutation l1 l2 -> NoDup (map fst l1) -> dict_get str_eqb l1 k = dict_get str_eqb l2 k.
Proof.
  intros P N. assert (N2 : NoDup (map fst l2)) by (eapply Permutation_NoDup; [|exact N]; now apply Permutation_map).
  destruct (dict_get str_eqb l1 k) as [v|] eqn:G.
  - apply (get_in _ str_eqb_eq) in G. symmetry. apply (in_get _ str_eqb_eq); [exact N2|]. eapply Permutation_in; eauto.
  - destruct (dict_get str_eqb l2 k) as [v|] eqn:G2; [|reflexivity]. apply (get_in _ str_eqb_eq) in G2.
    assert (In (k, v) l1) as I by (eapply Permutation_in; [symmetry; exact P|exact G2]). apply (in_get _ str_eqb_eq) in I; [congruence|exact N].
Qed.
Lemma dated_sorted scope today sc : dated scope today sc -> dated scope today (sort_items sc).
Proof.
  intros (date & A & B & N & G). exists date. split; [exact A|]. split; [exact B|]. assert (P : Permutation sc (sort_items sc)) by (symmetry; apply sort_perm). split.
  - eapply Permutation_NoDup; [|exact N]. now apply Permutation_map.
  - intros k. rewrite <- G. symmetry. now apply get_perm.
Qed.
Lemma head_take c (ct header : bytes) : head c ct header -> take (header_bytes c) ct = header.
Proof. intros (body & -> & L). rewrite take_firstn. replace (N.to_nat (header_bytes c)) with (List.length header) by (unfold header_bytes, blen in *; lia). rewrite firstn_app, Nat.sub_diag, firstn_O, app_nil_r. apply firstn_all. Qed.
Lemma response_taken H cfg ks (header : bytes) s t l message framed rest text : frame message framed -> stream l = framed ++ rest ->
  recv_response H cfg ks header s t l = Got text -> blen header < 2 ^ 16 ->
  exists aad, pack [RESPONSE_AAD; header] = Ok aad /\ blen aad < 2 ^ 32 /\ bytes_decrypt H cfg ks s t message aad (Some TTL) = Ok text.
Proof.
  intros F S R L. unfold recv_response in R. destruct (recv_message_framed _ _ _ _ F S) as (m & E & _). rewrite E in R. destruct (response_aad header L) as (aad & P & A).
  exists aad. split; [exact P|]. split; [exact A|]. match type of R with context [pack ?x] => replace (pack x) with (@Ok bytes aad) in R by (symmetry; exact P) end. cbn [bind] in R.
  destruct (bytes_decrypt H cfg ks s t message aad (Some TTL)) as [y|]; [|discriminate]. cbn [lift] in R. congruence.
Qed.

Lemma lstrip_blank a x : Forall (fun c => blank c = true) a -> lstrip (a ++ x) = lstrip x.
Proof. induction 1 as [|c a B _ IH]; [reflexivity|]. cbn [app lstrip]. now rewrite B. Qed.
Lemma stripped_strip s t : stripped s t -> strip s = t.
Proof.
  intros (a & b & -> & FA & FB & N1 & N2). unfold strip. rewrite lstrip_blank by exact FA. destruct t as [|c t].
  - cbn [app]. rewrite <- (app_nil_r b), lstrip_blank by exact FB. reflexivity.
  - cbn [app lstrip]. rewrite (N1 c t eq_refl). change (c :: t ++ b) with ((c :: t) ++ b). rewrite rev_app_distr, lstrip_blank by now apply Forall_rev.
    rewrite <- (rev_involutive (c :: t)) at 2. f_equal. destruct (rev (c :: t)) as [|d r] eqn:E; [reflexivity|]. cbn [lstrip]. rewrite (N2 d (rev r)); [reflexivity|].
    rewrite <- (rev_involutive (c :: t)), E. reflexivity.
Qed.
Lemma split_line l r : ~ In 10 l -> split_lines (l ++ 10 :: r) = l :: split_lines r.
Proof.
  induction l as [|c l IH]; intros N; [reflexivity|]. cbn [app split_lines]. destruct (c =? 10) eqn:E; [destruct N; left; lia|]. rewrite IH; [reflexivity|]. intros I. apply N. now right.
Qed.
Lemma split_last l : ~ In 10 l -> split_lines l = [l].
Proof.
  induction l as [|c l IH]; intros N; [reflexivity|]. cbn [split_lines]. destruct (c =? 10) eqn:E; [destruct N; left; lia|]. rewrite IH; [reflexivity|]. intros I. apply N. now right.
Qed.
Lemma split_intercalate lines : Forall (fun l => ~ In 10 l) lines -> lines <> [] -> split_lines (intercalate [10] lines) = lines.
Proof.
  intros F N. destruct lines as [|l ls]; [contradiction|]. clear N. cbn [intercalate]. inversion F as [|? ? A B]; subst. clear F. revert l A.
  induction B as [|m ms M B IH]; intros l A; cbn [flat_map app]; [rewrite app_nil_r; now apply split_last|]. rewrite split_line by exact A. f_equal. now apply IH.
Qed.
Lemma listed_is tree names : listed tree names -> names = filter (fun n => negb (str_eqb n [])) (map strip (split_lines tree)).
Proof.
  intros (lines & all & F & N & -> & S & ->). rewrite split_intercalate by assumption. f_equal. clear F N. induction S as [|l t lines all E _ IH]; [reflexivity|]. cbn [map]. rewrite IH. f_equal. symmetry. now apply stripped_strip.
Qed.

Lemma first_failing (read : str -> result bytes) b1 : forall n1 a1 b2 n2 a2 e1 e2, b1 ++ n1 :: a1 = b2 ++ n2 :: a2 -> dynamic n1 = false -> dynamic n2 = false -> read n1 = Err e1 -> read n2 = Err e2 ->
  (forall n, In n b1 -> dynamic n = false -> exists data, read n = Ok data) -> (forall n, In n b2 -> dynamic n = false -> exists data, read n = Ok data) -> e1 = e2.
Proof.
  induction b1 as [|x b1 IH]; intros n1 a1 b2 n2 a2 e1 e2 E D1 D2 R1 R2 B1 B2; destruct b2 as [|y b2]; cbn [app] in E; injection E as -> E.
  - congruence.
  - destruct (B2 y (or_introl eq_refl) D1). congruence.
  - destruct (B1 n2 (or_introl eq_refl) D2). congruence.
  - eapply (IH n1 a1 b2 n2 a2); eauto; intros n I; [apply B1|apply B2]; now right.
Qed.
Lemma dynamic_what name : dynamic name = false <-> name <> lit "MANIFEST.in" /\ name <> lit "SIGNATURE.txt".
Proof. unfold dynamic, MANIFEST_FILENAME, SIGNATURE_FILENAME. cbn [existsb]. rewrite orb_false_r, orb_false_iff, !str_eqb_neq. reflexivity. Qed.
