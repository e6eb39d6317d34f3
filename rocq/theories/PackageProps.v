(** * Package signatures: the theorems *)
From Coq Require Import Strings.String Lia ZifyBool ZifyNat ZifyN.
From Verif Require Import Base BaseFacts StrModel StrFacts JsonModel JsonSpec JsonProofs CurveModel CurveSpec PackageModel PackageSpec PackageProofs.
Local Open Scope N_scope.
Open Scope list_scope.

(** ** C55: signing and verification agree *)

(** A summary that the signer returns is accepted by every verifier with the public
    key of the package, if the files it reads are those that were added (or files
    are not verified). *)
Theorem C55_summaries_verify : forall C sha384 make_token read_token ops S k v,
  let w := run_sops C sha384 make_token read_token ops in
  summarize C sha384 read_token w = Ok S -> signing_key C read_token w = Ok k -> k_public (v_key C v) = k_public k ->
  (forall read, v_read C v = Some read -> forall name h, In (name, h) (w_files w) -> exists data, read name = Ok data /\ hex (sha384 data) = h) ->
  exists reads, verify_summary C sha384 v S = (reads, Ok tt).
Proof.
  intros C sha384 mk rd ops S k v w H K KP FL. destruct (signing_key_pair C rd w k K) as (s & ->).
  eapply (summarize_verifies C sha384 rd w S v (public_of C s)); [exact H|exists (pair_of s); auto|exact KP|exact FL].
Qed.
Print Assumptions C55_summaries_verify.

(** After a package was signed, the signer returns its summary. *)
Theorem C55_signed_packages_have_a_summary : forall C sha384 make_token read_token ops, signs C ->
  let w := run_sops C sha384 make_token read_token ops in
  let w' := run_sops C sha384 make_token read_token (ops ++ [SignPackage C]) in
  snd (do_sop C sha384 make_token read_token w (SignPackage C)) = Ok tt ->
  exists S, summarize C sha384 read_token w' = Ok S /\ summary C read_token w = Ok (body S).
Proof.
  intros C sha384 mk rd ops SG w w' H. unfold w', run_sops. rewrite fold_left_app. apply signing_summarizes; [exact SG| |exact H].
  intros k K. destruct (signing_key_pair C rd _ k K) as (s & ->). exists s. auto.
Qed.
Print Assumptions C55_signed_packages_have_a_summary.

(** The signing key of a package is the one that was last stored for it. *)
Theorem C55_stored_keys_are_used : forall C sha384 make_token read_token ops random a s,
  tokens_read make_token read_token -> secrets_import C -> process_secret C a = Ok s ->
  let w := run_sops C sha384 make_token read_token ops in
  snd (do_sop C sha384 make_token read_token w (UpdateKey C random (inr a))) = Ok tt ->
  signing_key C read_token (run_sops C sha384 make_token read_token (ops ++ [UpdateKey C random (inr a)])) = Ok (pair_of s).
Proof.
  intros C sha384 mk rd ops random a s TR SI PS w H. unfold run_sops. rewrite fold_left_app. now apply (stored_key C sha384 mk rd w random (inr a)).
Qed.
Print Assumptions C55_stored_keys_are_used.

(** Verification succeeds only if the key of the summary is the key of the verifier,
    the checksum is the hash of the rest of the summary, the signature is valid for
    the checksum, and all files listed are read and have the hash that is listed. *)
Theorem C55_verification_is_sound : forall C sha384 v S reads, NoDup (map fst S) -> verify_summary C sha384 v S = (reads, Ok tt) ->
  exists p sg c, k_public (v_key C v) = Some p /\ hex_field S "signing_key" (raw_public C p) /\ hex_field S "checksum" c /\ hex_field S "signature" sg /\
    c = sha384 (dumps_bytes (JObj (body S))) /\ ed_verify C p sg c = true /\
    match v_read C v with
    | None => reads = []
    | Some read => exists files, field S "checksums" (JObj files) /\ reads = map fst files /\
        forall name h, In (name, h) files -> exists s data, h = JStr s /\ read name = Ok data /\ fromhex s = Ok (sha384 data)
    end.
Proof. exact verify_sound. Qed.
Print Assumptions C55_verification_is_sound.

(** What verification is for: the summary that is accepted, without its checksum
    and signature, is a summary that the holder of the key signed, and not another
    one.  The signature is taken to be no forgery (the key signed what the signature
    is for, in the history [ops]), and SHA-384 not to collide on the two texts. *)
Theorem C55_verified_summaries_were_signed : forall C sha384 make_token read_token ops v p S reads,
  Forall (clean_op C) ops -> NoDup (map fst S) -> clean (JObj S) ->
  verify_summary C sha384 v S = (reads, Ok tt) -> k_public (v_key C v) = Some p ->
  (forall sg c, hex_field S "signature" sg -> hex_field S "checksum" c -> ed_verify C p sg c = true ->
     exists S0, signed C sha384 make_token read_token ops p S0 /\ sha384 (dumps_bytes (JObj S0)) = c) ->
  (forall S0, signed C sha384 make_token read_token ops p S0 -> sha384 (dumps_bytes (JObj S0)) = sha384 (dumps_bytes (JObj (body S))) ->
     dumps_bytes (JObj S0) = dumps_bytes (JObj (body S))) ->
  signed C sha384 make_token read_token ops p (body S).
Proof.
  intros C sha384 mk rd ops v p S reads CO N CS H KP GEN COL. destruct (verify_sound C sha384 v S reads N H) as (p' & sg & c & KP' & _ & HC & HS & EC & V & _).
  assert (p' = p) as -> by congruence. destruct (GEN sg c HS HC V) as (S0 & SG & E). rewrite EC in E. pose proof (COL S0 SG E) as D.
  apply dumps_bytes_inj in D; [|exact (signed_clean C sha384 mk rd ops p S0 CO SG)|].
  - injection D as <-. exact SG.
  - apply clean_obj. apply clean_obj in CS. unfold body. rewrite Forall_forall in *. intros kv I. apply filter_In in I as (I & _). auto.
Qed.
Print Assumptions C55_verified_summaries_were_signed.

(** Different JSON documents have different texts, and so different inputs to the
    hash function, if their strings contain no pairs of surrogates. *)
Theorem C55_json_texts_are_injective : forall v1 v2, clean v1 -> clean v2 -> dumps_bytes v1 = dumps_bytes v2 -> v1 = v2.
Proof. exact dumps_bytes_inj. Qed.
Print Assumptions C55_json_texts_are_injective.
(** With such pairs, they need not: a pair of surrogates has the same text as the
    character that it encodes.  Such strings do not come from [json.loads], but a
    signer or verifier given Python objects accepts them. *)
Theorem C55_surrogate_pairs_are_ambiguous_refuted : forall c, 65536 <= c < 1114112 ->
  exists h l, high h /\ low l /\ JStr [h; l] <> JStr [c] /\ dumps_bytes (JStr [h; l]) = dumps_bytes (JStr [c]).
Proof.
  intros c L. destruct (astral_units c L) as (h & l & U & H & LO & _). exists h, l. split; [exact H|]. split; [exact LO|]. split; [discriminate|].
  unfold dumps_bytes. cbn [dumps]. unfold dumps_str. cbn [flat_map]. rewrite U. unfold units. unfold high, low in *. replace (h <? 65536) with true by lia. replace (l <? 65536) with true by lia. reflexivity.
Qed.
Print Assumptions C55_surrogate_pairs_are_ambiguous_refuted.

(** Files are read before the signature is checked: anybody, without any key, can
    make a summary for which a verifier reads a file of their choice. *)
Theorem C55_files_are_read_before_the_signature_is_checked : forall C sha384 v p read, k_public (v_key C v) = Some p -> v_read C v = Some read ->
  forall name sg, exists S, hex_field S "signature" sg /\ In name (fst (verify_summary C sha384 v S)).
Proof.
  intros C sha384 v p read KP VR name sg. pose (B := [(CHECKSUMS, JObj [(name, JStr [])]); (SIGNING_KEY, JStr (hex (raw_public C p)))]).
  exists ((CHECKSUM, JStr (hex (checksum_of sha384 B))) :: B ++ [(SIGNATURE, JStr (hex sg))]). split; [exists (hex sg); split; [reflexivity|apply fromhex_hex]|].
  unfold verify_summary. change (dict_get str_eqb _ SIGNING_KEY) with (Some (JStr (hex (raw_public C p)))). cbn [fromhex_json]. rewrite fromhex_hex. unfold public_bytes. rewrite KP, bytes_eqb_refl.
  assert (import_summary sha384 ((CHECKSUM, JStr (hex (checksum_of sha384 B))) :: B ++ [(SIGNATURE, JStr (hex sg))]) = Ok (checksum_of sha384 B, sg)) as ->.
  { unfold import_summary. change (dict_get str_eqb _ CHECKSUM) with (Some (JStr (hex (checksum_of sha384 B)))). cbn [fromhex_json]. rewrite fromhex_hex. cbn [bind].
    change (dict_get str_eqb _ SIGNATURE) with (Some (JStr (hex sg))). cbn [fromhex_json]. rewrite fromhex_hex. cbn [bind]. change (dict_del str_eqb _ SIGNATURE) with B. now rewrite bytes_eqb_refl. }
  rewrite VR. change (dict_get str_eqb _ CHECKSUMS) with (Some (JObj [(name, JStr [])])). cbn [verify_files fromhex_json fromhex].
  destruct (read name) as [data|e]; [|left; reflexivity]. destruct (bytes_eqb [] (sha384 data)); left; reflexivity.
Qed.
Print Assumptions C55_files_are_read_before_the_signature_is_checked.

(** A summary that names another signing key than the verifier's is refused at once: no file is
    read. *)
Theorem C55_other_keys_are_refused : forall C sha384 v p S key, k_public (v_key C v) = Some p ->
  hex_field S "signing_key" key -> key <> raw_public C p ->
  verify_summary C sha384 v S = ([], Err ValueErr).
Proof.
  intros C sha384 v p S key KP (h & E & F) NE. unfold verify_summary. unfold SIGNING_KEY. rewrite E. cbn [fromhex_json]. rewrite F. unfold public_bytes. rewrite KP.
  destruct (bytes_eqb key (raw_public C p)) eqn:B; [apply bytes_eqb_eq in B; contradiction|reflexivity].
Qed.
Print Assumptions C55_other_keys_are_refused.

(** A verifier reads files if and only if it is asked to; it is then given the directory they
    are in, and not otherwise. *)
Theorem C55_verifiers : forall C k read check,
  (make_verifier C (inl k) (Some read) true = Ok {| v_key := k; v_read := Some read |}) /\
  (make_verifier C (inl k) None false = Ok {| v_key := k; v_read := None |}) /\
  (make_verifier C (inl k) None true = Err TypeErr) /\
  (make_verifier C (inl k) (Some read) false = Err ValueErr) /\
  (forall a path v, make_verifier C (inr a) path check = Ok v ->
     exists p, process_public C a = Ok p /\ k_public (v_key C v) = Some p /\ (v_read C v = None <-> check = false)).
Proof.
  intros C k read check. split; [reflexivity|]. split; [reflexivity|]. split; [reflexivity|]. split; [reflexivity|].
  intros a path v. unfold make_verifier, import_public_key. cbn [new_key has_public_key k_public is_some]. destruct (process_public C a) as [p|e] eqn:P; [|discriminate].
  intros E. exists p. split; [reflexivity|]. cbn [bind] in E. destruct check, path; try discriminate; apply Ok_inj in E as <-; cbn; (split; [reflexivity|]); split; congruence.
Qed.
Print Assumptions C55_verifiers.

(** Files with the name of a method of the namespace cannot be signed. *)
Theorem C55_some_file_names_are_refused : forall C sha384 make_token read_token w name data, In name RESTRICTED_NAMES ->
  do_sop C sha384 make_token read_token w (AddFile C name data) = (w, Err PermissionErr).
Proof.
  intros C sha384 mk rd w name data I. cbn. unfold add_file, ns_set. assert (existsb (str_eqb name) RESTRICTED_NAMES = true) as ->; [|reflexivity].
  apply existsb_exists. exists name. split; [exact I|apply str_eqb_refl].
Qed.
Print Assumptions C55_some_file_names_are_refused.

(** A signer that is connected to the database of one package and whose scope is then changed to
    another package neither signs nor summarizes. *)
Theorem C55_other_packages_are_refused : forall C sha384 make_token read_token w p q,
  scope_str w (lit "package") = Ok p -> q <> p ->
  let w' := fst (do_sop C sha384 make_token read_token (fst (do_sop C sha384 make_token read_token w (Connect C)))
                   (UpdateScope C [(lit "package", JStr q)])) in
  scope_str w' (lit "package") = Ok q /\ summarize C sha384 read_token w' = Err TypeErr /\
  do_sop C sha384 make_token read_token w' (SignPackage C) = (w', Err TypeErr).
Proof.
  intros C sha384 mk rd w p q SP NE w'. unfold w'. cbn [do_sop]. unfold connect. unfold PACKAGE. rewrite SP. cbn [fst].
  unfold update_scope. cbn [ns_update set_cache w_scope]. unfold ns_set.
  replace (existsb (str_eqb (lit "package")) RESTRICTED_NAMES) with false by reflexivity.
  replace (str_eqb (lit "package") (lit "__dict__") || str_eqb (lit "package") (lit "__class__"))%bool with false by reflexivity. cbn [ns_update fst].
  set (w1 := set_scope _ _). assert (S1 : scope_str w1 (lit "package") = Ok q).
  { unfold scope_str, w1. cbn [set_scope set_cache w_scope]. rewrite (get_set _ str_eqb_eq), str_eqb_refl. reflexivity. }
  assert (D1 : db_entry w1 q = Err TypeErr).
  { unfold db_entry, w1. cbn [set_scope set_cache w_cache dict_get]. destruct (str_eqb p q) eqn:E; [apply str_eqb_eq in E; congruence|reflexivity]. }
  assert (S2 : summary C rd w1 = Err TypeErr) by (unfold summary, PACKAGE; rewrite S1; cbn [bind]; rewrite D1; reflexivity).
  split; [exact S1|]. unfold summarize, sign_package, checksum. rewrite S2. split; reflexivity.
Qed.
Print Assumptions C55_other_packages_are_refused.

(** When something was changed after the package was signed, so that the signature is none of
    the checksum, there is no summary. *)
Theorem C55_stale_signatures_are_refused : forall C sha384 read_token w c s k p,
  checksum C sha384 read_token w = Ok c -> signature w = Ok s -> signing_key C read_token w = Ok k -> k_public k = Some p ->
  ed_verify C p s c = false -> summarize C sha384 read_token w = Err ValueErr.
Proof.
  intros C sha384 rd w c s k p E1 E2 E3 E4 E5. unfold summarize. rewrite E1, E2, E3. cbn [bind]. unfold verify. rewrite E4. cbn [bind].
  rewrite E5. reflexivity.
Qed.
Print Assumptions C55_stale_signatures_are_refused.

(** A text that is no JSON, or JSON but no object, is refused before any file is read. *)
Theorem C55_other_texts_are_refused : forall C sha384 loads v text,
  match loads text with
  | Err e => verify_text C sha384 loads v text = ([], Err e)
  | Ok (JObj s) => verify_text C sha384 loads v text = verify_summary C sha384 v s
  | Ok _ => verify_text C sha384 loads v text = ([], Err TypeErr)
  end.
Proof. intros C sha384 loads v text. unfold verify_text. destruct (loads text) as [[]|e]; reflexivity. Qed.
Print Assumptions C55_other_texts_are_refused.

(** ** Hexadecimal fields *)

Lemma nth_error_lt {A} (l : list A) k x : nth_error l k = Some x -> (k < length l)%nat.
Proof. intro E. apply nth_error_Some. congruence. Qed.

Lemma get_del_other (S : list (str * json)) k k' : k <> k' ->
  dict_get str_eqb (dict_del str_eqb S k) k' = dict_get str_eqb S k'.
Proof.
  intro N. induction S as [|[x j] S IH]; [reflexivity|]. cbn. destruct (str_eqb x k) eqn:E; cbn.
  - apply str_eqb_eq in E. subst x. destruct (str_eqb k k') eqn:F; [apply str_eqb_eq in F; contradiction|reflexivity].
  - destruct (str_eqb x k'); [reflexivity|exact IH].
Qed.

Lemma digit_is c n : hex_digit c = Some n <-> digit c n.
Proof.
  unfold hex_digit, digit. split.
  - intro E.
    assert (X : (48 <= c <= 57 /\ n = c - 48) \/ (97 <= c <= 102 /\ n = c - 87) \/ (65 <= c <= 70 /\ n = c - 55)).
    { destruct ((48 <=? c) && (c <=? 57)) eqn:A; [injection E as <-; left; lia|].
      destruct ((97 <=? c) && (c <=? 102)) eqn:B; [injection E as <-; right; left; lia|].
      destruct ((65 <=? c) && (c <=? 70)) eqn:D; [injection E as <-; right; right; lia|discriminate]. }
    destruct X as [(L & ->)|[(L & ->)|(L & ->)]].
    + assert (Y : c = 48 \/ c = 49 \/ c = 50 \/ c = 51 \/ c = 52 \/ c = 53 \/ c = 54 \/ c = 55 \/ c = 56 \/ c = 57) by lia.
      repeat destruct Y as [->|Y]; try subst c; left; reflexivity.
    + assert (Y : c = 97 \/ c = 98 \/ c = 99 \/ c = 100 \/ c = 101 \/ c = 102) by lia.
      repeat destruct Y as [->|Y]; try subst c; left; reflexivity.
    + assert (Y : c = 65 \/ c = 66 \/ c = 67 \/ c = 68 \/ c = 69 \/ c = 70) by lia.
      repeat destruct Y as [->|Y]; try subst c; right; reflexivity.
  - intro E.
    assert (L : (N.to_nat n < 16)%nat) by (destruct E as [E|E]; apply nth_error_lt in E; exact E).
    rewrite <- (N2Nat.id n) at 1. revert E L. generalize (N.to_nat n). intros k E L.
    do 16 (destruct k as [|k]; [destruct E as [E|E]; injection E as <-; reflexivity|]). lia.
Qed.

Lemma blank_is c : space c = true <-> blank c.
Proof.
  unfold space, blank. cbn [In]. split; [intro E|intro E; lia].
  assert (c = 32 \/ c = 9 \/ c = 10 \/ c = 11 \/ c = 12 \/ c = 13) by lia. intuition.
Qed.

Lemma digit_not_blank c n : digit c n -> space c = false.
Proof.
  intro D. apply digit_is in D. unfold hex_digit in D. unfold space.
  destruct ((48 <=? c) && (c <=? 57)) eqn:A; [lia|].
  destruct ((97 <=? c) && (c <=? 102)) eqn:B; [lia|].
  destruct ((65 <=? c) && (c <=? 70)) eqn:E; [lia|discriminate].
Qed.

Lemma digit_small c n : digit c n -> n < 16.
Proof. intros [D|D]; apply nth_error_lt in D; cbn in D; lia. Qed.

Lemma spells_is : forall s b, fromhex s = Ok b <-> spells s b.
Proof.
  intros s. remember (length s) as k. assert (K : (length s <= k)%nat) by lia. clear Heqk. revert s K.
  induction k as [|k IH]; intros s K b.
  - destruct s; [|cbn in K; lia]. cbn. split; [intro E; apply Ok_inj in E; subst; constructor|].
    inversion 1; reflexivity.
  - destruct s as [|x s]; cbn [fromhex].
    + split; [intro E; apply Ok_inj in E; subst; constructor|]. inversion 1; reflexivity.
    + cbn in K. destruct (space x) eqn:SP.
      * split; intro E.
        -- constructor; [now apply blank_is|]. apply IH; [lia|exact E].
        -- inversion E; subst; [apply IH; [lia|assumption]|].
           match goal with D : digit x _ |- _ => apply digit_not_blank in D; congruence end.
      * destruct s as [|y s]; [split; intro E; [discriminate|]|].
        { inversion E; subst. match goal with D : blank x |- _ => apply blank_is in D; congruence end. }
        cbn in K. split; intro E.
        -- destruct (hex_digit x) as [h|] eqn:HX; [|discriminate].
           destruct (hex_digit y) as [l|] eqn:HY; [|discriminate].
           destruct (fromhex s) as [r|] eqn:R; [|discriminate]. cbn [bind] in E. apply Ok_inj in E. subst b.
           apply digit_is in HX, HY. econstructor; [exact HX|exact HY| |apply IH; [lia|exact R]].
           apply digit_small in HX, HY. rewrite bval_byte_of. apply N.mod_small. lia.
        -- inversion E; subst.
           { match goal with D : blank x |- _ => apply blank_is in D; congruence end. }
           match goal with D : digit x _, D2 : digit y _ |- _ => apply digit_is in D, D2; rewrite D, D2 end.
           match goal with D : spells s _ |- _ => apply IH in D; [rewrite D|lia] end. cbn [bind].
           do 2 f_equal.
           match goal with D : bval _ = _ |- _ => rewrite <- D end. apply byte_of_bval.
Qed.

Lemma fromhex_fails : forall s e, fromhex s = Err e -> e = ValueErr.
Proof.
  intros s. remember (length s) as k. assert (K : (length s <= k)%nat) by lia. clear Heqk. revert s K.
  induction k as [|k IH]; intros s K e.
  - destruct s; [discriminate|cbn in K; lia].
  - destruct s as [|x s]; [discriminate|]. cbn in K. cbn [fromhex]. destruct (space x); [apply IH; lia|].
    destruct s as [|y s]; [congruence|]. cbn in K. destruct (hex_digit x), (hex_digit y); try congruence.
    destruct (fromhex s) as [r|e'] eqn:R; cbn [bind]; [discriminate|]. intro E. injection E as <-. apply (IH s); [lia|exact R].
Qed.

(** The fields of a summary are read as hexadecimal texts, in either case, with blanks between
    the bytes: exactly the texts that spell bytes are accepted. *)
Theorem C55_hexadecimal_fields : forall S name b, hex_field S name b <-> exists s, field S name (JStr s) /\ spells s b.
Proof.
  intros S name b. unfold hex_field. split; intros (s & F & E); exists s; (split; [exact F|]); now apply spells_is.
Qed.
Print Assumptions C55_hexadecimal_fields.

(** A summary whose field for the signing key, or for the checksum or the signature next to the
    verifier's own key, is absent (KeyError), no text (TypeError) or a text that spells no bytes
    (ValueError) is refused before any file is read. *)
Theorem C55_malformed_fields_are_refused : forall C sha384 v p S name, k_public (v_key C v) = Some p ->
  name = "signing_key"%string \/
    hex_field S "signing_key" (raw_public C p) /\
      (name = "checksum"%string \/ (exists c, hex_field S "checksum" c) /\ name = "signature"%string) ->
  (dict_get str_eqb S (lit name) = None -> verify_summary C sha384 v S = ([], Err KeyErr)) /\
  (forall j, field S name j -> (forall s, j <> JStr s) -> verify_summary C sha384 v S = ([], Err TypeErr)) /\
  (forall s, field S name (JStr s) -> (forall b, ~ spells s b) -> verify_summary C sha384 v S = ([], Err ValueErr)).
Proof.
  intros C sha384 v p S name KP W.
  assert (NS : forall s, (forall b, ~ spells s b) -> fromhex s = Err ValueErr).
  { intros s N. destruct (fromhex s) as [b|e] eqn:F; [apply spells_is in F; now apply N in F|]. now rewrite (fromhex_fails _ _ F). }
  assert (NJ : forall j, (forall s, j <> JStr s) -> fromhex_json j = Err TypeErr).
  { intros j N. destruct j; try reflexivity. now destruct (N s). }
  unfold field. destruct W as [->|((k & KE & KF) & W)].
  - unfold verify_summary, SIGNING_KEY. repeat split; [intros ->; reflexivity| |].
    + intros j -> N. now rewrite (NJ j N).
    + intros s -> N. cbn [fromhex_json]. now rewrite (NS s N).
  - assert (VS : forall e, import_summary sha384 S = Err e -> verify_summary C sha384 v S = ([], Err e)).
    { intros e IE. unfold verify_summary, SIGNING_KEY. rewrite KE. cbn [fromhex_json]. rewrite KF. unfold public_bytes.
      rewrite KP, bytes_eqb_refl, IE. reflexivity. }
    destruct W as [->|((c & s0 & CE & CF) & ->)].
    + repeat split.
      * intro E. apply VS. unfold import_summary, CHECKSUM. now rewrite E.
      * intros j E N. apply VS. unfold import_summary, CHECKSUM. rewrite E. now rewrite (NJ j N).
      * intros s E N. apply VS. unfold import_summary, CHECKSUM. rewrite E. cbn [fromhex_json]. now rewrite (NS s N).
    + assert (ND : dict_get str_eqb (dict_del str_eqb S CHECKSUM) SIGNATURE = dict_get str_eqb S SIGNATURE)
        by (apply get_del_other; discriminate).
      repeat split.
      * intro E. apply VS. unfold import_summary. unfold CHECKSUM at 1. rewrite CE. cbn [fromhex_json]. rewrite CF. cbn [bind].
        rewrite ND. unfold SIGNATURE at 1. now rewrite E.
      * intros j E N. apply VS. unfold import_summary. unfold CHECKSUM at 1. rewrite CE. cbn [fromhex_json]. rewrite CF. cbn [bind].
        rewrite ND. unfold SIGNATURE at 1. rewrite E. now rewrite (NJ j N).
      * intros s E N. apply VS. unfold import_summary. unfold CHECKSUM at 1. rewrite CE. cbn [fromhex_json]. rewrite CF. cbn [bind].
        rewrite ND. unfold SIGNATURE at 1. rewrite E. cbn [fromhex_json]. now rewrite (NS s N).
Qed.
Print Assumptions C55_malformed_fields_are_refused.
Example hexadecimal_case : spells (lit " 0aF0 9C") [x0a; xf0; x9c] /\
  (forall b, ~ spells (lit "0a f") b) /\ (forall b, ~ spells (lit "0 af") b) /\ (forall b, ~ spells (lit "0g") b).
Proof.
  split; [now apply spells_is|].
  repeat split; intros b E; apply spells_is in E; discriminate.
Qed.

(** ** Examples *)
Definition package_curve : curve := {|
  secret := bytes; public := bytes;
  from_private := fun b => Ok b; from_public := fun b => Ok b;
  public_of := fun s => x07 :: s; raw_secret := fun s => s; raw_public := fun p => p;
  dh := fun _ _ => Err ValueErr;
  ed_sign := fun s data => x07 :: s ++ data;
  ed_verify := fun p sig data => bytes_eqb sig (p ++ data);
|}.
Definition plain_make (r k : bytes) (p : str) : str := 7 :: map bval k.
Definition plain_read (t p : str) : result bytes := Ok (map byte_of (tl t)).
Definition a_release : list (sop package_curve) :=
  [NewSigner package_curve (lit "pkg") (lit "1.0") 19000 [(lit "license", JStr (lit "AGPL")); (lit "author", JStr [233; 128512])];
   Connect package_curve; UpdateKey package_curve [] (inr (SBytes [x01; x02])); AddFile package_curve (lit "setup.py") [x03]; AddFile package_curve (lit "a.py") [x04];
   UpdateCredentials package_curve [(lit "x", JArr [JInt (-5); JNull; JFloat (lit "1.5"); JBool true])]].
Definition a_state := run_sops package_curve (fun b => b) plain_make plain_read a_release.
Definition signed_state := run_sops package_curve (fun b => b) plain_make plain_read (a_release ++ [SignPackage package_curve]).
Definition read_file (name : str) : result bytes := if str_eqb name (lit "a.py") then Ok [x04] else if str_eqb name (lit "setup.py") then Ok [x03] else Err FileNotFoundErr.
Definition a_summary : list (str * json) := match summarize package_curve (fun b => b) plain_read signed_state with Ok sm => sm | Err _ => [] end.
Definition a_verifier (read : option (str -> result bytes)) : verifier package_curve := {| v_key := only_public package_curve [x07; x01; x02]; v_read := read |}.

Example package_laws : signs package_curve /\ tokens_read plain_make plain_read /\ secrets_import package_curve.
Proof.
  split; [|split].
  - intros s data. apply bytes_eqb_refl.
  - intros r k p. split; [|discriminate]. unfold plain_read, plain_make. cbn [tl]. f_equal. rewrite map_map. rewrite <- (map_id k) at 2. apply map_ext. apply byte_of_bval.
  - intros s. reflexivity.
Qed.
Example package_text : exists rest, dumps (JObj a_summary) = lit "{""checksum"": """ ++ rest.
Proof. eexists. vm_compute. reflexivity. Qed.
Example package_case : summarize package_curve (fun b => b) plain_read signed_state = Ok a_summary /\ summarize package_curve (fun b => b) plain_read a_state = Err AttributeErr /\
  signing_key package_curve plain_read signed_state = Ok (@pair_of package_curve [x01; x02]) /\
  verify_summary package_curve (fun b => b) (a_verifier (Some read_file)) a_summary = ([lit "a.py"; lit "setup.py"], Ok tt) /\
  verify_summary package_curve (fun b => b) (a_verifier (Some (fun _ => Ok [x09]))) a_summary = ([lit "a.py"], Err InvalidDigest) /\
  verify_summary package_curve (fun b => b) (a_verifier None) (dict_set str_eqb a_summary SIGNATURE (JStr (lit "00"))) = ([], Err InvalidSignature) /\
  verify_summary package_curve (fun b => b) (a_verifier None) (dict_set str_eqb a_summary SCOPE JNull) = ([], Err ValueErr).
Proof. vm_compute. repeat split. Qed.
Example package_signed : signed package_curve (fun b => b) plain_make plain_read (a_release ++ [SignPackage package_curve]) [x07; x01; x02] (body a_summary).
Proof.
  exists a_release, [], (@pair_of package_curve [x01; x02]). split; [reflexivity|]. vm_compute. repeat split.
Qed.
(** A file that is added after signing. *)
Example package_stale :
  let w := run_sops package_curve (fun b => b) plain_make plain_read (a_release ++ [SignPackage package_curve; AddFile package_curve (lit "b.py") [x05]]) in
  summarize package_curve (fun b => b) plain_read w = Err ValueErr /\
  (exists c s k p, checksum package_curve (fun b => b) plain_read w = Ok c /\ signature w = Ok s /\ signing_key package_curve plain_read w = Ok k /\
     k_public k = Some p /\ ed_verify package_curve p s c = false) /\
  exists p, scope_str w (lit "package") = Ok p /\ lit "other" <> p.
Proof.
  vm_compute. split; [reflexivity|]. split; [repeat eexists; reflexivity|]. eexists. split; [reflexivity|discriminate].
Qed.
(** The hypotheses of [C55_verified_summaries_were_signed] hold of this release. *)
Example package_hypotheses :
  Forall (clean_op package_curve) (a_release ++ [SignPackage package_curve]) /\ NoDup (map fst a_summary) /\ clean (JObj a_summary) /\
  (forall sg c, hex_field a_summary "signature" sg -> hex_field a_summary "checksum" c -> ed_verify package_curve [x07; x01; x02] sg c = true ->
     exists S0, signed package_curve (fun b => b) plain_make plain_read (a_release ++ [SignPackage package_curve]) [x07; x01; x02] S0 /\ dumps_bytes (JObj S0) = c).
Proof.
  assert (forall s, forallb (fun c => c <? 128) s = true -> clean_str s) as CL. { intros s H. apply ascii_clean, Forall_forall. intros c I. apply (proj1 (forallb_forall _ _) H) in I. lia. }
  assert (clean_str [233; 128512]) as CE. { split; [repeat constructor; reflexivity|]. cbn. unfold high. split; [lia|exact I]. }
  assert (float_text (lit "1.5")) as FT. { right. right. right. split; [repeat (apply Forall_cons; [cbn; lia|]); apply Forall_nil|left; vm_compute; auto]. }
  assert (Forall (clean_op package_curve) (a_release ++ [SignPackage package_curve])) as CO.
  { unfold a_release. cbn [app]. repeat apply Forall_cons; try apply Forall_nil; cbn [clean_op]; try exact I; try (now apply CL).
    - split; [now apply CL|]. split; [now apply CL|]. repeat apply Forall_cons; try apply Forall_nil; cbn [fst snd clean]; (split; [now apply CL|]); [now apply CL|exact CE].
    - cbn [fst snd clean]. split; [now apply CL|]. repeat split; exact FT. }
  assert (NoDup (map fst a_summary)) as ND.
  { replace (map fst a_summary) with (map lit ["checksum"; "checksums"; "public_credentials"; "scope"; "signing_key"; "signature"]%string) by (vm_compute; reflexivity).
    cbn [map]. repeat (apply NoDup_cons; [vm_compute; intuition discriminate|]). apply NoDup_nil. }
  split; [exact CO|]. split; [exact ND|split].
  - assert (clean (JObj (body a_summary))) as CB by (eapply signed_clean; [exact CO|exact package_signed]).
    apply (proj1 (clean_obj (body a_summary))) in CB. refine (proj2 (clean_obj a_summary) _). rewrite Forall_forall in CB. apply Forall_forall. intros kv I. destruct (str_eqb (fst kv) (lit "checksum")) eqn:E1; [|destruct (str_eqb (fst kv) (lit "signature")) eqn:E2].
    + apply str_eqb_eq in E1. assert (exists s, kv = (lit "checksum", JStr s) /\ forallb (fun c => c <? 128) s = true) as (s & -> & F).
      { destruct kv as [k v]. cbn in E1. subst k. apply (in_get _ str_eqb_eq) in I; [|exact ND]. vm_compute in I. injection I as <-. eexists. split; [reflexivity|]. reflexivity. }
      cbn [fst snd clean]. split; [apply CL; reflexivity|exact (CL s F)].
    + apply str_eqb_eq in E2. assert (exists s, kv = (lit "signature", JStr s) /\ forallb (fun c => c <? 128) s = true) as (s & -> & F).
      { destruct kv as [k v]. cbn in E2. subst k. apply (in_get _ str_eqb_eq) in I; [|exact ND]. vm_compute in I. injection I as <-. eexists. split; [reflexivity|]. reflexivity. }
      cbn [fst snd clean]. split; [apply CL; reflexivity|exact (CL s F)].
    + apply CB. unfold body. refine (proj2 (filter_In _ kv a_summary) (conj I _)). rewrite E1, E2. reflexivity.
  - intros sg c _ (s & F & H) _. exists (body a_summary). split; [exact package_signed|]. vm_compute in F. injection F as <-. vm_compute in H. injection H as <-. vm_compute. reflexivity.
Qed.
