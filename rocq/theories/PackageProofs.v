(** * Package signatures: proofs *)
From Coq Require Import Strings.String Permutation.
From Verif Require Import Base BaseFacts StrModel StrFacts JsonModel JsonSpec JsonProofs CurveModel CurveSpec PackageModel PackageSpec.
Local Open Scope N_scope.
Open Scope list_scope.

(** ** Hexadecimal *)
Lemma hex_digit_char d : d < 16 -> hex_digit (hex_char d) = Some d.
Proof.
  intros L. unfold hex_char, hex_digit. destruct (d <? 10) eqn:E.
  - replace ((48 <=? 48 + d) && (48 + d <=? 57)) with true by lia. f_equal. lia.
  - replace ((48 <=? 87 + d) && (87 + d <=? 57)) with false by lia. replace ((97 <=? 87 + d) && (87 + d <=? 102)) with true by lia. f_equal. lia.
Qed.
Lemma hex_char_space d : d < 16 -> space (hex_char d) = false.
Proof. intros L. unfold hex_char, space. destruct (d <? 10) eqn:E; lia. Qed.
Lemma fromhex_hex b : fromhex (hex b) = Ok b.
Proof.
  induction b as [|x b IH]; [reflexivity|]. pose proof (bval_lt x) as L. assert (bval x / 16 < 16) as L1 by (apply N.div_lt_upper_bound; lia). assert (bval x mod 16 < 16) as L2 by (apply N.mod_lt; lia).
  unfold hex. cbn [flat_map app]. fold (hex b). cbn [fromhex]. rewrite hex_char_space by exact L1. rewrite !hex_digit_char by assumption. rewrite IH. cbn [bind]. do 2 f_equal.
  rewrite <- (N.div_mod (bval x) 16) by lia. apply byte_of_bval.
Qed.
Lemma ascii_clean s : Forall (fun c => c < 128) s -> clean_str s.
Proof.
  intros F. split; [eapply Forall_impl; [|exact F]; cbn; intros; lia|]. induction F as [|c s L F IH]; [exact I|]. destruct s as [|d s]; [exact I|]. split; [|exact IH]. unfold high. lia.
Qed.
Lemma hex_clean b : clean_str (hex b).
Proof.
  apply ascii_clean. induction b as [|x b IH]; [constructor|]. unfold hex. cbn [flat_map app]. fold (hex b). assert (forall d, d < 16 -> hex_char d < 128) as H by (intros d L; unfold hex_char; destruct (d <? 10); lia).
  pose proof (bval_lt x). constructor; [apply H, N.div_lt_upper_bound; lia|]. constructor; [apply H, N.mod_lt; lia|exact IH].
Qed.
Lemma lit_clean s : forallb (fun c => c <? 128) (lit s) = true -> clean_str (lit s).
Proof. intros H. apply ascii_clean. apply Forall_forall. intros c I. apply (proj1 (forallb_forall _ _) H) in I. lia. Qed.

(** ** Sorting *)
Lemma insert_perm {V} (kv : str * V) l : Permutation (insert_item kv l) (kv :: l).
Proof. induction l as [|x l IH]; cbn; [constructor; constructor|]. destruct (str_ltb (fst x) (fst kv)); [|reflexivity]. rewrite IH. apply perm_swap. Qed.
Lemma sort_perm {V} (l : list (str * V)) : Permutation (sort_items l) l.
Proof. induction l as [|x l IH]; cbn; [constructor|]. rewrite insert_perm. now constructor. Qed.

(** ** Dictionaries *)
Lemma dict_set_forall {V} (P : str * V -> Prop) d k v : Forall P d -> P (k, v) -> Forall P (dict_set str_eqb d k v).
Proof.
  intros F p. induction F as [|[a w] d H F IH]; cbn; [constructor; [exact p|constructor]|]. destruct (str_eqb a k) eqn:E; [|now constructor]. apply str_eqb_eq in E as ->. now constructor.
Qed.
Lemma dict_update_forall {V} (P : str * V -> Prop) items : forall d, Forall P d -> Forall P items -> Forall P (dict_update str_eqb d items).
Proof. induction items as [|[k v] items IH]; intros d F G; [exact F|]. inversion G; subst. cbn. apply IH; [now apply dict_set_forall|assumption]. Qed.
Lemma ns_set_ok {V} ns k (v : V) ns' : ns_set ns k v = Ok ns' -> ns' = dict_set str_eqb ns k v.
Proof. unfold ns_set. destruct (existsb _ _); [discriminate|]. destruct (_ || _); [discriminate|]. intros H. now apply Ok_inj in H. Qed.
Lemma ns_update_forall {V} (P : str * V -> Prop) items : forall ns ns' r, Forall P ns -> Forall P items -> ns_update ns items = (ns', r) -> Forall P ns'.
Proof.
  induction items as [|[k v] items IH]; intros ns ns' r F G; cbn; [intros H; inversion H; subst; exact F|]. inversion G; subst. destruct (ns_set ns k v) as [n|e] eqn:E.
  - apply IH; [|assumption]. apply ns_set_ok in E as ->. now apply dict_set_forall.
  - intros H. inversion H; subst. exact F.
Qed.
Lemma ns_update_nodup {V} items : forall (ns ns' : list (str * V)) r, NoDup (map fst ns) -> ns_update ns items = (ns', r) -> NoDup (map fst ns').
Proof.
  induction items as [|[k v] items IH]; intros ns ns' r F; cbn; [intros H; inversion H; subst; exact F|]. destruct (ns_set ns k v) as [n|e] eqn:E.
  - apply IH. apply ns_set_ok in E as ->. now apply (nodup_set _ str_eqb_eq).
  - intros H. inversion H; subst. exact F.
Qed.
Lemma dict_get_forall {V} (P : str * V -> Prop) d k v : Forall P d -> dict_get str_eqb d k = Some v -> P (k, v).
Proof. intros F E. apply (get_in _ str_eqb_eq) in E. rewrite Forall_forall in F. auto. Qed.

Lemma del_filter {V} (d : list (str * V)) k : NoDup (map fst d) -> dict_del str_eqb d k = filter (fun kv => negb (str_eqb (fst kv) k)) d.
Proof.
  induction d as [|[a v] d IH]; intros N; [reflexivity|]. cbn in *. inversion N; subst. destruct (str_eqb a k) eqn:E; cbn; [|now rewrite IH].
  apply str_eqb_eq in E as ->. clear -H1. induction d as [|[b w] d IH]; [reflexivity|]. cbn in *. destruct (str_eqb b k) eqn:E; cbn.
  - apply str_eqb_eq in E as ->. exfalso. auto.
  - f_equal. apply IH. intros I. auto.
Qed.
Lemma filter_twice {A} (f g : A -> bool) l : filter g (filter f l) = filter (fun x => f x && g x) l.
Proof. induction l as [|x l IH]; [reflexivity|]. cbn. destruct (f x); cbn; [destruct (g x); now rewrite IH|exact IH]. Qed.
Lemma body_del S : NoDup (map fst S) -> dict_del str_eqb (dict_del str_eqb S CHECKSUM) SIGNATURE = body S.
Proof.
  intros N. rewrite del_filter by now apply nodup_del. rewrite del_filter by exact N. rewrite filter_twice. apply filter_ext. intros [k v]. reflexivity.
Qed.

Section P.
Variable C : curve.
Variable sha384 : bytes -> bytes.
Variable make_token : bytes -> bytes -> str -> str.
Variable read_token : str -> str -> result bytes.
Notation run := (run_sops C sha384 make_token read_token).
Notation do := (do_sop C sha384 make_token read_token).
Notation summary := (summary C read_token).
Notation summarize := (summarize C sha384 read_token).
Notation signing_key := (signing_key C read_token).
Notation signed := (signed C sha384 make_token read_token).

(** ** Invariants of the signer *)
Definition clean_entry (e : entry) : Prop := clean_items (e_credentials e).
Definition file_ok (kv : str * str) : Prop := exists data, snd kv = hex (sha384 data).
Definition inv (w : world) : Prop := Forall file_ok (w_files w).
Definition clean_world (w : world) : Prop :=
  Forall (fun kv => clean_entry (snd kv)) (w_saved w) /\ (forall c, w_cache w = Some c -> Forall (fun kv => clean_entry (snd kv)) c) /\
  clean_items (w_scope w) /\ Forall (fun kv => clean_str (fst kv) /\ clean_str (snd kv)) (w_files w).

Lemma bindE {A B} (x : result A) (f : A -> result B) b : bind x f = Ok b -> exists a, x = Ok a /\ f a = Ok b.
Proof. destruct x as [a|e]; cbn; [eauto|discriminate]. Qed.

Lemma put_files w p e : w_files (put_entry w p e) = w_files w.
Proof. unfold put_entry. destruct (w_cache w); reflexivity. Qed.
Lemma save_files w : w_files (fst (save w)) = w_files w.
Proof. unfold save. destruct (w_cache w); reflexivity. Qed.
Lemma inv_do w p : inv w -> inv (fst (do w p)).
Proof.
  intros I. destruct p as [pk ver date sc| | |l|l|rnd k|name data|]; cbn.
  - unfold new_signer. destruct (ns_update [] sc) as [s [u|e]]; [|exact I]. destruct (ns_update s _) as [s' [u'|e]]; [|exact I]. constructor.
  - unfold connect. destruct (scope_str w PACKAGE); exact I.
  - unfold inv. now rewrite save_files.
  - unfold update_scope. destruct (ns_update (w_scope w) l). exact I.
  - unfold update_credentials. destruct (bind _ _) as [[p e]|e]; [|exact I]. unfold inv. cbn [fst]. now rewrite put_files.
  - unfold update_signing_key. destruct (bind _ _) as [[[p s] e]|e]; [|exact I]. unfold inv. cbn [fst]. now rewrite put_files.
  - unfold add_file. destruct (ns_set (w_files w) name (hex (sha384 data))) as [f|e] eqn:E; [|exact I]. apply ns_set_ok in E as ->. cbn. apply dict_set_forall; [exact I|]. exists data. reflexivity.
  - unfold sign_package. destruct (bind _ _) as [[[[v s] p] e]|e]; [|exact I]. unfold inv. now rewrite save_files, put_files.
Qed.
Lemma inv_run ops : inv (run ops).
Proof.
  unfold run_sops. assert (inv empty_world) as I by constructor. revert I. generalize empty_world. induction ops as [|p ops IH]; intros w I; [exact I|]. cbn. apply IH. now apply inv_do.
Qed.

Lemma clean_put w p e : clean_world w -> clean_entry e -> clean_world (put_entry w p e).
Proof.
  intros (A & B & D & F) E. unfold put_entry. destruct (w_cache w) as [c|] eqn:W; [|repeat split; auto; congruence]. split; [exact A|]. split; [|split; [exact D|exact F]].
  cbn. intros c' H. injection H as <-. apply dict_set_forall; auto.
Qed.
Lemma clean_save w : clean_world w -> clean_world (fst (save w)).
Proof.
  intros (A & B & D & F). unfold save. destruct (w_cache w) as [c|] eqn:W; cbn; [|split; [exact A|split; [congruence|auto]]].
  split; [|split; [|split; [exact D|exact F]]]; cbn; [apply dict_update_forall; auto|]. intros c' H. injection H as <-. auto.
Qed.
Lemma clean_db w p e : clean_world w -> db_entry w p = Ok e -> clean_entry e.
Proof.
  intros (_ & B & _). unfold db_entry. destruct (w_cache w) as [c|]; [|discriminate]. destruct (dict_get str_eqb c p) as [e'|] eqn:G; [|discriminate]. intros H. apply Ok_inj in H as <-.
  exact (dict_get_forall _ _ _ _ (B c eq_refl) G).
Qed.
Lemma clean_do w p : clean_op C p -> clean_world w -> clean_world (fst (do w p)).
Proof.
  intros K I. pose proof I as (A & B & D & F). destruct p as [pk ver date sc| | |l|l|rnd k|name data|]; cbn.
  - destruct K as (K1 & K2 & K3). unfold new_signer. destruct (ns_update [] sc) as [s [u|e]] eqn:E1; [|exact I]. destruct (ns_update s _) as [s' [u'|e]] eqn:E2; [|exact I].
    split; [exact A|]. split; [discriminate|]. split; [|constructor]. cbn. eapply ns_update_forall; [|..|exact E2].
    + eapply ns_update_forall; [|..|exact E1]; [constructor|exact K3].
    + apply Forall_cons; [|apply Forall_cons; [|apply Forall_cons; [|apply Forall_nil]]]; cbn [fst snd clean]; (split; [now apply lit_clean|]); [exact K1|exact K2|exact Logic.I].
  - unfold connect. destruct (scope_str w PACKAGE) as [pk|e]; [|exact I]. split; [exact A|]. split; [|split; [exact D|exact F]]. cbn. intros c H. injection H as <-. constructor; [|constructor]. cbn.
    destruct (dict_get str_eqb (w_saved w) pk) as [e|] eqn:G; [exact (dict_get_forall _ _ _ _ A G)|]. constructor.
  - now apply clean_save.
  - unfold update_scope. destruct (ns_update (w_scope w) l) as [s r] eqn:E. split; [exact A|]. split; [exact B|]. split; [|exact F]. cbn. eapply ns_update_forall; [|..|exact E]; [exact D|exact K].
  - unfold update_credentials. destruct (bind _ _) as [[p e]|e] eqn:E; [|exact I]. apply bindE in E as (p' & _ & E). apply bindE in E as (e' & E & E2). apply Ok_inj in E2. injection E2 as -> ->.
    apply clean_put; [exact I|]. unfold clean_entry. cbn. apply dict_update_forall; [exact (clean_db _ _ _ I E)|exact K].
  - unfold update_signing_key. destruct (bind _ _) as [[[p s] e]|e] eqn:E; [|exact I]. apply bindE in E as (k' & _ & E). apply bindE in E as (p' & _ & E). apply bindE in E as (s' & _ & E). apply bindE in E as (e' & E & E2). apply Ok_inj in E2. injection E2 as -> -> ->.
    apply clean_put; [exact I|]. exact (clean_db _ _ _ I E).
  - unfold add_file. destruct (ns_set (w_files w) name (hex (sha384 data))) as [f|e] eqn:E; [|exact I]. apply ns_set_ok in E as ->. split; [exact A|]. split; [exact B|]. split; [exact D|]. cbn.
    apply dict_set_forall; [exact F|]. split; [exact K|apply hex_clean].
  - unfold sign_package. destruct (bind _ _) as [[[[v s] p] e]|e] eqn:E; [|exact I]. apply bindE in E as (c' & _ & E). apply bindE in E as (v' & _ & E). apply bindE in E as (k' & _ & E). apply bindE in E as (s' & _ & E). apply bindE in E as (p' & _ & E). apply bindE in E as (e' & E & E2). apply Ok_inj in E2. injection E2 as -> -> -> ->.
    apply clean_save, clean_put; [exact I|]. exact (clean_db _ _ _ I E).
Qed.
Lemma clean_run ops : Forall (clean_op C) ops -> clean_world (run ops).
Proof.
  intros F. unfold run_sops. assert (clean_world empty_world) as I by (repeat split; cbn; try constructor; discriminate). revert I. generalize empty_world.
  induction F as [|p ops K F IH]; intros w I; [exact I|]. cbn. apply IH. now apply clean_do.
Qed.

(** ** Summaries *)
Lemma summary_inv w S : summary w = Ok S -> exists pk e k p, scope_str w PACKAGE = Ok pk /\ db_entry w pk = Ok e /\ signing_key w = Ok k /\ k_public k = Some p /\
  S = [(CHECKSUMS, JObj (as_strings (sort_items (w_files w)))); (PUBLIC_CREDENTIALS, JObj (sort_items (e_credentials e))); (SCOPE, JObj (sort_items (w_scope w))); (SIGNING_KEY, JStr (hex (raw_public C p)))].
Proof.
  intros H. unfold PackageModel.summary in H. apply bindE in H as (pk & P & H). apply bindE in H as (e & E & H). apply bindE in H as (k & K & H). apply bindE in H as (p & PB & H). apply Ok_inj in H as <-.
  unfold public_bytes in PB. destruct (k_public k) as [q|] eqn:KP; [|discriminate]. apply Ok_inj in PB as <-. exists pk, e, k, q. auto.
Qed.
Lemma clean_items_perm l l' : Permutation l l' -> clean_items l -> clean_items l'.
Proof. intros P. unfold clean_items. rewrite !Forall_forall. intros H x I. apply H. eapply Permutation_in; [symmetry; exact P|exact I]. Qed.
Lemma summary_clean w S : clean_world w -> summary w = Ok S -> clean (JObj S).
Proof.
  intros I H. destruct (summary_inv _ _ H) as (pk & e & k & p & P & E & K & KP & ->). apply clean_obj. pose proof I as (_ & _ & D & F).
  constructor; [|constructor; [|constructor; [|constructor; [|constructor]]]]; cbn [fst snd]; (split; [now apply lit_clean|]).
  - apply clean_obj. unfold as_strings. apply Forall_map. cbn. eapply Permutation_Forall; [symmetry; apply sort_perm|]. exact F.
  - apply clean_obj. eapply clean_items_perm; [symmetry; apply sort_perm|]. exact (clean_db _ _ _ I E).
  - apply clean_obj. eapply clean_items_perm; [symmetry; apply sort_perm|]. exact D.
  - apply hex_clean.
Qed.

(** ** Summaries of the signer verify *)
Lemma verify_files_ok read files : (forall name h, In (name, h) files -> exists data, read name = Ok data /\ h = JStr (hex (sha384 data))) ->
  verify_files sha384 read files = (map fst files, Ok tt).
Proof.
  induction files as [|[name h] files IH]; intros H; [reflexivity|]. cbn. destruct (H name h (or_introl eq_refl)) as (data & R & ->). cbn. rewrite fromhex_hex, R, bytes_eqb_refl. rewrite IH; [reflexivity|]. intros n h I. apply H. now right.
Qed.
Lemma summarize_inv w S : summarize w = Ok S -> exists B k p sg, summary w = Ok B /\ signing_key w = Ok k /\ k_public k = Some p /\ ed_verify C p sg (checksum_of sha384 B) = true /\
  signature w = Ok sg /\ S = (CHECKSUM, JStr (hex (checksum_of sha384 B))) :: B ++ [(SIGNATURE, JStr (hex sg))].
Proof.
  intros H. unfold PackageModel.summarize in H. apply bindE in H as (c & CK & H). apply bindE in H as (sg & SG & H). apply bindE in H as (k & K & H). apply bindE in H as (u & V & H). apply bindE in H as (B & SM & H). apply Ok_inj in H as <-.
  unfold checksum in CK. rewrite SM in CK. cbn in CK. apply Ok_inj in CK as <-. exists B, k. destruct (summary_inv _ _ SM) as (pk & e & k' & p & _ & _ & K' & KP & _).
  assert (k' = k) as -> by congruence. exists p, sg. repeat split; auto. unfold verify in V. rewrite KP in V. cbn in V. destruct (ed_verify C p sg _); [reflexivity|discriminate].
Qed.
Lemma summary_shape w S : summary w = Ok S -> dict_del str_eqb (S ++ [(SIGNATURE, JNull)]) SIGNATURE = S /\ forall v, dict_get str_eqb ((CHECKSUM, v) :: S ++ [(SIGNATURE, v)]) SIGNING_KEY = dict_get str_eqb S SIGNING_KEY.
Proof. intros H. destruct (summary_inv _ _ H) as (pk & e & k & p & _ & _ & _ & _ & ->). split; [|intros v]; reflexivity. Qed.

Theorem summarize_verifies w S v p : summarize w = Ok S -> (exists k, signing_key w = Ok k /\ k_public k = Some p) -> k_public (v_key C v) = Some p ->
  (forall read, v_read C v = Some read -> forall name h, In (name, h) (w_files w) -> exists data, read name = Ok data /\ hex (sha384 data) = h) ->
  exists reads, verify_summary C sha384 v S = (reads, Ok tt).
Proof.
  intros H (k0 & K0 & KP0) VK FL. destruct (summarize_inv _ _ H) as (B & k & q & sg & SM & K & KP & V & SG & ->).
  assert (k0 = k) as -> by congruence. assert (q = p) as -> by congruence. destruct (summary_inv _ _ SM) as (pk & e & k' & p' & _ & _ & K' & KP' & ->).
  assert (k' = k) as -> by congruence. assert (p' = p) as -> by congruence.
  set (FI := as_strings (sort_items (w_files w))) in *. set (c := checksum_of sha384 _) in *.
  unfold verify_summary. change (dict_get str_eqb _ SIGNING_KEY) with (Some (JStr (hex (raw_public C p)))). cbn [fromhex_json]. rewrite fromhex_hex. unfold public_bytes. rewrite VK. rewrite bytes_eqb_refl.
  assert (import_summary sha384 ((CHECKSUM, JStr (hex c)) :: [(CHECKSUMS, JObj FI); (PUBLIC_CREDENTIALS, JObj (sort_items (e_credentials e))); (SCOPE, JObj (sort_items (w_scope w))); (SIGNING_KEY, JStr (hex (raw_public C p)))] ++ [(SIGNATURE, JStr (hex sg))]) = Ok (c, sg)) as IM.
  { unfold import_summary. change (dict_get str_eqb _ CHECKSUM) with (Some (JStr (hex c))). cbn [fromhex_json]. rewrite fromhex_hex. cbn [bind].
    change (dict_get str_eqb _ SIGNATURE) with (Some (JStr (hex sg))). cbn [fromhex_json]. rewrite fromhex_hex. cbn [bind].
    change (dict_del str_eqb _ SIGNATURE) with [(CHECKSUMS, JObj FI); (PUBLIC_CREDENTIALS, JObj (sort_items (e_credentials e))); (SCOPE, JObj (sort_items (w_scope w))); (SIGNING_KEY, JStr (hex (raw_public C p)))].
    fold c. now rewrite bytes_eqb_refl. }
  rewrite IM. change (dict_get str_eqb _ CHECKSUMS) with (Some (JObj FI)). unfold verify. rewrite VK. cbn [bind]. rewrite V.
  destruct (v_read C v) as [read|]; [|eauto]. rewrite verify_files_ok; [eauto|]. intros name h J. unfold FI, as_strings in J. apply in_map_iff in J as ([n x] & E & J). cbn in E. injection E as <- <-.
  eapply Permutation_in in J; [|apply sort_perm]. destruct (FL read eq_refl _ _ J) as (data & R & <-). eauto.
Qed.

(** ** What verification proves *)
Lemma verify_files_sound read files reads : verify_files sha384 read files = (reads, Ok tt) -> reads = map fst files /\
  forall name h, In (name, h) files -> exists s data, h = JStr s /\ read name = Ok data /\ fromhex s = Ok (sha384 data).
Proof.
  revert reads. induction files as [|[name h] files IH]; intros reads H; cbn in H.
  - inversion H. split; [reflexivity|intros ? ? []].
  - destruct (fromhex_json h) as [pd|e] eqn:F; [|discriminate]. destruct (read name) as [data|e] eqn:R; [|discriminate]. destruct (bytes_eqb pd (sha384 data)) eqn:Q; [|discriminate].
    destruct (verify_files sha384 read files) as [rs r] eqn:V. inversion H; subst. destruct (IH _ eq_refl) as (-> & IH'). split; [reflexivity|]. intros n x [E|J]; [|auto]. injection E as <- <-.
    destruct h as [| | | |s| |]; try discriminate F. exists s, data. apply bytes_eqb_eq in Q as ->. auto.
Qed.
Theorem verify_sound v S reads : NoDup (map fst S) -> verify_summary C sha384 v S = (reads, Ok tt) -> exists p sg c,
  k_public (v_key C v) = Some p /\ hex_field S "signing_key" (raw_public C p) /\ hex_field S "checksum" c /\ hex_field S "signature" sg /\
  c = sha384 (dumps_bytes (JObj (body S))) /\ ed_verify C p sg c = true /\
  match v_read C v with
  | None => reads = []
  | Some read => exists files, field S "checksums" (JObj files) /\ reads = map fst files /\
      forall name h, In (name, h) files -> exists s data, h = JStr s /\ read name = Ok data /\ fromhex s = Ok (sha384 data)
  end.
Proof.
  intros N H. unfold verify_summary in H. destruct (dict_get str_eqb S SIGNING_KEY) as [kj|] eqn:GK; [|discriminate]. destruct (fromhex_json kj) as [pur|e] eqn:FK; [|discriminate].
  unfold public_bytes in H. destruct (k_public (v_key C v)) as [p|] eqn:KP; [|discriminate]. destruct (bytes_eqb pur (raw_public C p)) eqn:Q; [|discriminate]. apply bytes_eqb_eq in Q as ->.
  destruct (import_summary sha384 S) as [[c sg]|e] eqn:IM; [|discriminate]. exists p, sg, c.
  assert (hex_field S "signing_key" (raw_public C p)) as HK by (destruct kj as [| | | |s| |]; try discriminate FK; exists s; auto).
  unfold import_summary in IM. destruct (dict_get str_eqb S CHECKSUM) as [cj|] eqn:GC; [|discriminate]. apply bindE in IM as (c' & FC & IM).
  destruct (dict_get str_eqb (dict_del str_eqb S CHECKSUM) SIGNATURE) as [sj|] eqn:GS; [|discriminate]. apply bindE in IM as (sg' & FS & IM). rewrite body_del in IM by exact N.
  destruct (bytes_eqb (checksum_of sha384 (body S)) c') eqn:QC; [|discriminate]. apply Ok_inj in IM. injection IM as -> ->. apply bytes_eqb_eq in QC.
  rewrite (get_del _ str_eqb_eq) in GS by exact N. replace (str_eqb CHECKSUM SIGNATURE) with false in GS by reflexivity.
  split; [reflexivity|]. split; [exact HK|]. split; [destruct cj as [| | | |s| |]; try discriminate FC; exists s; auto|]. split; [destruct sj as [| | | |s| |]; try discriminate FS; exists s; auto|]. split; [symmetry; exact QC|].
  destruct (v_read C v) as [read|].
  - destruct (dict_get str_eqb S CHECKSUMS) as [fj|] eqn:GF; [|discriminate]. destruct fj as [| | | | | |files]; try discriminate H. destruct (verify_files sha384 read files) as [rs r] eqn:VF. destruct r as [[]|e]; [|discriminate].
    inversion H as [[E1 E2]]. subst rs. unfold verify in E2. rewrite KP in E2. cbn in E2. split; [destruct (ed_verify C p sg c); [reflexivity|discriminate]|]. exists files. split; [exact GF|]. now apply verify_files_sound.
  - inversion H as [[E1 E2]]. unfold verify in E2. rewrite KP in E2. cbn in E2. split; [destruct (ed_verify C p sg c); [reflexivity|discriminate]|reflexivity].
Qed.
Lemma signed_clean ops p S : Forall (clean_op C) ops -> signed ops p S -> clean (JObj S).
Proof.
  intros F (b & a & k & -> & _ & SM & _). apply Forall_app in F as (F & _). exact (summary_clean _ _ (clean_run _ F) SM).
Qed.

(** ** Signing *)
Lemma sign_inv w : snd (do w (SignPackage C)) = Ok tt -> exists B v k s pk e cache, summary w = Ok B /\ scope_str w VERSION = Ok v /\ signing_key w = Ok k /\ sign C k (checksum_of sha384 B) = Ok s /\
  scope_str w PACKAGE = Ok pk /\ db_entry w pk = Ok e /\ w_cache w = Some cache /\
  fst (do w (SignPackage C)) = fst (save (put_entry w pk {| e_key := e_key e; e_versions := dict_set str_eqb (e_versions e) v (hex s); e_credentials := e_credentials e |})).
Proof.
  cbn. unfold sign_package. destruct (bind _ _) as [[[[v s] p] e]|e] eqn:E; [|discriminate]. apply bindE in E as (c & CK & E). apply bindE in E as (v' & V & E). apply bindE in E as (k & K & E). apply bindE in E as (s' & SG & E). apply bindE in E as (p' & P & E). apply bindE in E as (e' & DE & E). apply Ok_inj in E. injection E as -> -> -> ->.
  intros _. unfold checksum in CK. apply bindE in CK as (B & SM & CK). apply Ok_inj in CK as <-. pose proof DE as DE'. unfold db_entry in DE'. destruct (w_cache w) as [cache|] eqn:W; [|discriminate].
  exists B, v, k, s, p, e, cache. repeat split; auto.
Qed.
Theorem signing_summarizes w : signs C -> (forall k, signing_key w = Ok k -> exists s, k_secret k = Some s /\ k_public k = Some (public_of C s)) ->
  snd (do w (SignPackage C)) = Ok tt -> exists S, summarize (fst (do w (SignPackage C))) = Ok S /\ summary w = Ok (body S).
Proof.
  intros SG KK H. destruct (sign_inv w H) as (B & v & k & s & pk & e & cache & SM & V & K & SN & P & DE & W & ->). destruct (KK k K) as (sec & KS & KP).
  unfold sign in SN. rewrite KS in SN. apply Ok_inj in SN as <-. set (e' := {| e_key := _; e_versions := _; e_credentials := _ |}).
  assert (forall w2, w_scope w2 = w_scope w -> w_files w2 = w_files w -> db_entry w2 pk = Ok e' -> exists S, summarize w2 = Ok S /\ summary w = Ok (body S)) as G.
  { intros w2 S2 F2 D2. assert (forall n, scope_str w2 n = scope_str w n) as SS by (intros n; unfold scope_str; now rewrite S2).
    assert (signing_key w2 = Ok k) as K2 by (unfold PackageModel.signing_key in *; rewrite SS, P in *; cbn in *; rewrite DE in K; rewrite D2; exact K).
    assert (summary w2 = Ok B) as SM2. { destruct (summary_inv _ _ SM) as (pk1 & e1 & k1 & p1 & A1 & A2 & A3 & A4 & ->). assert (pk1 = pk) as -> by congruence. assert (e1 = e) as -> by congruence. assert (k1 = k) as -> by congruence.
      unfold PackageModel.summary. rewrite SS, P. cbn [bind]. rewrite D2. cbn [bind]. rewrite K2. cbn [bind]. unfold public_bytes. rewrite A4. cbn [bind]. rewrite S2, F2. reflexivity. }
    unfold PackageModel.summarize, checksum, signature. rewrite SM2. cbn [bind]. rewrite SS, P. cbn [bind]. rewrite D2. cbn [bind]. rewrite SS, V. cbn [bind]. unfold e' at 1. cbn [e_versions]. rewrite (get_set _ str_eqb_eq), str_eqb_refl.
    rewrite fromhex_hex. cbn [bind]. rewrite K2. cbn [bind]. unfold verify. rewrite KP. cbn [bind]. rewrite SG. cbn [bind]. eexists. split; [reflexivity|]. rewrite SM. f_equal.
    destruct (summary_inv _ _ SM) as (pk1 & e1 & k1 & p1 & _ & _ & _ & _ & ->). reflexivity. }
  apply G; unfold put_entry, save; rewrite W; cbn; try reflexivity. unfold db_entry. cbn. now rewrite (get_set _ str_eqb_eq), str_eqb_refl.
Qed.
Lemma imported_key a k : import_secret_key C (new_key C) a = (k, Ok tt) -> exists s, process_secret C a = Ok s /\ k = pair_of s.
Proof. unfold import_secret_key. cbn. destruct (process_secret C a) as [s|e]; [|discriminate]. intros H. inversion H. exists s. auto. Qed.
Lemma signing_key_pair w k : signing_key w = Ok k -> exists s, k = pair_of s.
Proof.
  unfold PackageModel.signing_key. intros H. apply bindE in H as (pk & _ & H). apply bindE in H as (e & _ & H). destruct (e_key e); [discriminate|]. apply bindE in H as (b & _ & H).
  destruct (import_secret_key C (new_key C) (SBytes b)) as [k' [[]|x]] eqn:I; [|discriminate]. apply Ok_inj in H as <-. apply imported_key in I as (sec & _ & ->). eauto.
Qed.
Theorem stored_key w random k s : tokens_read make_token read_token -> secrets_import C -> match k with inl k => k = pair_of s | inr a => process_secret C a = Ok s end ->
  snd (do w (UpdateKey C random k)) = Ok tt -> signing_key (fst (do w (UpdateKey C random k))) = Ok (pair_of s).
Proof.
  intros TR SI KK. cbn. unfold update_signing_key. destruct (bind _ _) as [[[p b] e]|e] eqn:E; [|discriminate]. intros _. cbn [fst].
  apply bindE in E as (k' & IK & E). apply bindE in E as (p' & P & E). apply bindE in E as (b' & SB & E). apply bindE in E as (e' & DE & E). apply Ok_inj in E. injection E as -> -> ->.
  assert (k' = pair_of s) as ->.
  { destruct k as [k|a]; [apply Ok_inj in IK as <-; exact KK|]. destruct (import_secret_key C (new_key C) a) as [k2 [[]|x]] eqn:I; [|discriminate]. apply Ok_inj in IK as <-. apply imported_key in I as (s2 & PS & ->). congruence. }
  cbn in SB. apply Ok_inj in SB as <-. unfold PackageModel.signing_key, put_entry. unfold db_entry in DE. destruct (w_cache w) as [cache|] eqn:W; [|discriminate].
  change (scope_str (set_cache w _) PACKAGE) with (scope_str w PACKAGE). rewrite P. cbn [bind]. unfold db_entry. cbn [w_cache set_cache]. rewrite (get_set _ str_eqb_eq), str_eqb_refl. cbn [bind e_key].
  destruct (TR random (raw_secret C s) p) as (R & NE). destruct (make_token random (raw_secret C s) p) as [|t0 t] eqn:T; [contradiction|]. rewrite R. cbn [bind]. unfold import_secret_key. cbn. rewrite SI. reflexivity.
Qed.
End P.
