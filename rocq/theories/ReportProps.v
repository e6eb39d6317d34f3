(** * ReportProps: claim C93.

    A report of a security issue can be read by its addressee, and the reporter
    keeps the keys of the last four reports. *)

From Verif Require Import Base BaseFacts CanonModel CanonSpec CanonProofs CanonProps TransformModel TransformProofs
  TransformProps ClockModel KdfModel KdfSpec KdfProofs KdfProps CurveModel CurveSpec CurveProofs CurveProps
  CipherModel CipherSpec CipherProofs CipherProps ReportModel ReportSpec ReportProofs.
Local Open Scope N_scope.

Section Claims.

Variable C : curve.
Variables shake_128 sha3_256 : hasher.
Variables KDF_DOMAIN salt USER SIV ENCRYPTION_KEY : bytes.
Variable seal : bytes -> bytes -> bytes -> bytes -> bytes.
Variable unseal : bytes -> bytes -> bytes -> bytes -> result bytes.
Variable c : cfg.
Variable normal : text -> text.
Variable parse_int : text -> option Z.
Variable encode : text -> result bytes.
Variable aiootp_public_key : bytes.
Variable refused : credentials -> option exn.
Variable make_token : credentials -> coins -> bytes -> result bytes.

Notation report_issue :=
  (report_security_issue C shake_128 sha3_256 KDF_DOMAIN salt USER SIV ENCRYPTION_KEY seal c normal parse_int
    encode aiootp_public_key refused make_token).
Notation read := (read_report C shake_128 sha3_256 KDF_DOMAIN salt USER SIV ENCRYPTION_KEY unseal c).

(** What is in the printed report: if the call ends with a report, then the user
    went through the dialogue, and the owner of the addressee's secret key reads in
    the report, at any later time, the email address and all that was typed. *)
Theorem C93_the_addressee_reads_the_report : forall answers lines s r r' st st' x sk now,
  lawful C -> like_sha3_256 sha3_256 -> opens seal unseal ->
  0 < padding_frame c <= 256 -> valid_coins c r ->
  aiootp_public_key = raw_public C (public_of C sk) ->
  report_issue answers lines s r r' st = (st', Ok (Some x)) ->
  exists email passphrase mb message,
    dialogue normal parse_int encode answers (email, passphrase, mb) /\
    typed encode lines message /\
    (blen email + blen message < 2 ^ 62 -> read sk now x = Ok [email; message]).
Proof.
  intros answers lines s r r' st st' x sk now (LP & LD & LL) LS OS PF VC -> E.
  unfold report_security_issue in E.
  destruct answers as [|want answers]; [discriminate|].
  destruct (starts normal letter_y want) eqn:W; cbn [negb] in E; [|discriminate].
  cbn [generate import_secret_key has_public_key new_key k_public is_some process_secret k_secret bind] in E.
  unfold exchange in E. cbn [process_public] in E. rewrite LP in E. cbn [bind k_secret] in E.
  destruct (dh C s (public_of C sk)) as [shared|e] eqn:D; [|discriminate].
  destruct answers as [|mb0 answers]; [discriminate|].
  destruct (choose_mb normal parse_int mb0 answers) as [[mb [|email0 [|pass0 unused]]]|e] eqn:M; try discriminate.
  destruct (encode email0) as [email|e] eqn:EE; cbn [bind] in E; [|discriminate].
  destruct (encode pass0) as [pass|e] eqn:EP; cbn [bind] in E; [|discriminate].
  destruct (refused (email, pass, mb)) eqn:RF; [discriminate|].
  cbn [secret_bytes k_secret bind] in E.
  destruct (make_token (email, pass, mb) r' (raw_secret C s)) as [token|e] eqn:TK; [|discriminate].
  injection E as _ E. cbn [public_bytes k_public bind] in E.
  apply bind_ok in E as (padded & EM & E). apply bind_ok in E as (x' & ER & E). injection E as <-.
  apply bind_ok in EM as (message & ET & EM). apply bind_ok in EM as (packed & EC & EM).
  apply typed_fold in ET. apply choose_mb_chosen in M.
  exists email, pass, mb, message. split.
  { exists want, (mb0 :: answers), mb, email0, pass0, unused, email, pass.
    split; [reflexivity|]. split.
    { unfold starts, letter_y in W. unfold begins. destruct (normal want) as [|a l]; [discriminate|].
      apply N.eqb_eq in W. subst a. eauto. }
    repeat split; assumption. }
  split; [exact ET|]. intros SZ.
  unfold make_report in ER.
  apply bind_ok in ER as (date & ED & ER). apply bind_ok in ER as (kdf & EK & ER).
  apply bind_ok in ER as (siv & ES & ER). apply bind_ok in ER as (key & EY & ER).
  injection ER as <-. unfold read_report. cbn [rp_date rp_public_key rp_siv rp_encrypted_message].
  rewrite !C10_urlsafe_roundtrip. cbn [bind].
  unfold exchange. cbn [process_public pair_of k_secret]. rewrite LP. cbn [bind].
  rewrite LD, D. cbn [bind]. rewrite EK. cbn [bind]. rewrite EY. cbn [bind].
  assert (blen siv = 32) as LSV by (eapply run_sha3_len; eassumption).
  assert (blen key = 32) as LKY by (eapply run_sha3_len; eassumption).
  rewrite OS; [|exact LKY|rewrite blen_take, LSV; reflexivity]. cbn [bind].
  rewrite ES. cbn [bind]. rewrite bytes_eqb_refl.
  destruct (C19_padding_roundtrip c r packed PF VC) as (padded' & P1 & _ & _ & P2).
  rewrite P1 in EM. injection EM as <-. rewrite P2. cbn [opened bind].
  apply (C01_canonical_roundtrip _ _ _ _ _ EC).
  unfold python_sized. rewrite (pack_two_len _ _ _ _ EC). lia.
Qed.

(** If the user consents, the key exchange works and the profile opens, the call
    ends with a report: nothing else can fail as long as sizes and clock are in
    range. *)
Theorem C93_reports_succeed : forall answers lines s r r' st email passphrase mb message public shared token,
  dialogue normal parse_int encode answers (email, passphrase, mb) ->
  typed encode lines message ->
  blen email + blen message < 2 ^ 60 ->
  from_public C aiootp_public_key = Ok public -> dh C s public = Ok shared ->
  shared ++ USER <> [] -> blen shared < 2 ^ 60 ->
  Forall (fun x => blen x < 2 ^ 60)
    [KDF_DOMAIN; USER; SIV; ENCRYPTION_KEY; aiootp_public_key; raw_public C (public_of C s)] ->
  refused (email, passphrase, mb) = None ->
  make_token (email, passphrase, mb) r' (raw_secret C s) = Ok token ->
  like_sha3_256 sha3_256 -> xof shake_128 -> h_block_size shake_128 = 168 ->
  0 < padding_frame c <= 256 -> valid_coins c r -> inner_header_bytes c < 2 ^ 60 ->
  (0 <= clock_time {| ck_unit := Days; ck_epoch := EPOCH_NS |} (r_now r) < 2 ^ 32)%Z ->
  exists st' x, report_issue answers lines s r r' st = (st', Ok (Some x)).
Proof.
  intros answers lines s r r' st email passphrase mb message public shared token
    (want & rest & mb' & email0 & pass0 & unused & e & p & -> & W & M & EE & EP & Q) ET SZ FP D NE LSH FA RF TK LS XS BS
    PF VC IH CK.
  injection Q as <- <- <-.
  destruct rest as [|mb0 answers]; [inversion M|]. apply choose_mb_chosen in M.
  unfold report_security_issue.
  assert (starts normal letter_y want = true) as ->.
  { destruct W as (l & W). unfold starts, letter_y. rewrite W. apply N.eqb_refl. }
  cbn [negb generate import_secret_key has_public_key new_key k_public is_some process_secret k_secret bind].
  unfold exchange. cbn [process_public]. rewrite FP. cbn [bind k_secret]. rewrite D, M, EE. cbn [bind].
  rewrite EP. cbn [bind]. rewrite RF. cbn [secret_bytes k_secret bind]. rewrite TK.
  cbn [public_bytes k_public bind]. unfold make_message.
  apply typed_fold in ET.
  match goal with |- context [@fold_right ?A ?B ?f ?a ?l] =>
    replace (@fold_right A B f a l) with (@Ok bytes message) by (symmetry; exact ET) end.
  cbn [bind].
  destruct (canonical_pack_total [email; message] 1 x00 INT_BYTES) as (packed & EC).
  { unfold fits. change (256 ^ INT_BYTES) with (2 ^ 64). split; [unfold INT_BYTES; lia|]. split; [lia|].
    split; [reflexivity|]. repeat constructor; lia. }
  match goal with |- context [canonical_pack ?l ?b ?q ?w] =>
    replace (canonical_pack l b q w) with (@Ok bytes packed) by (symmetry; exact EC) end.
  cbn [bind].
  destruct PF as [PF1 PF2].
  destruct (pad_ok c r packed PF1 VC) as (padded & ts & en & Hp & Ep & _ & _ & Hts & Lts & Lh & Le & Se).
  rewrite Hp. cbn [bind].
  assert (blen padded < 2 ^ 62) as LP.
  { rewrite Ep, blen_app, Lh, blen_app, Le, (pack_two_len _ _ _ _ EC).
    pose proof (padding_size_bounds c (blen packed) PF1). rewrite (pack_two_len _ _ _ _ EC) in *. lia. }
  unfold make_report, make_timestamp, z_to_bytes.
  destruct (Z.ltb_spec (clock_time {| ck_unit := Days; ck_epoch := EPOCH_NS |} (r_now r)) 0) as [|_]; [lia|].
  rewrite to_bytes_be_fit by (change (256 ^ 4) with (2 ^ 32); lia). cbn [bind].
  set (date := be_enc (N.to_nat 4) _).
  assert (blen date = 4) as LDT by (unfold date; rewrite blen_be_enc; reflexivity).
  rewrite !Forall_cons_iff in FA. destruct FA as (F1 & F2 & F3 & F4 & F5 & F6 & _).
  destruct (new_kdf_total shake_128 KDF_DOMAIN salt USER [date; raw_public C (public_of C s); aiootp_public_key] shared)
    as (kdf & ->); [exact XS|lia|exact NE|rewrite blen_app; lia| |reflexivity|].
  { repeat constructor; lia. }
  cbn [bind].
  destruct (run_sha3_total shake_128 sha3_256 kdf [padded] SIV LS XS) as (siv & ES);
    [repeat constructor; lia|reflexivity|].
  rewrite ES. cbn [bind].
  assert (blen siv = 32) as LSV by (eapply run_sha3_len; eassumption).
  destruct (run_sha3_total shake_128 sha3_256 kdf [siv] ENCRYPTION_KEY LS XS) as (key & ->);
    [repeat constructor; lia|reflexivity|].
  cbn [bind]. eauto.
Qed.

(** A user who does not say yes changes nothing and sends nothing. *)
Theorem C93_no_consent_no_report : forall want answers lines s r r' st,
  ~ begins normal 121 want -> report_issue (want :: answers) lines s r r' st = (st, Ok None).
Proof.
  intros want answers lines s r r' st N. unfold report_security_issue.
  assert (starts normal letter_y want = false) as ->; [|reflexivity].
  unfold starts, letter_y. unfold begins in N. destruct (normal want) as [|a l]; [reflexivity|].
  destruct (N.eqb_spec a 121) as [->|]; [|reflexivity]. elim N. eauto.
Qed.

(** Whatever happens, only the database of the credentials given changes. *)
Theorem C93_other_databases : forall answers lines s r r' st st' x cr,
  report_issue answers lines s r r' st = (st', x) ->
  st' cr <> st cr -> dialogue normal parse_int encode answers cr.
Proof.
  intros answers lines s r r' st st' x cr E NE. unfold report_security_issue in E.
  destruct answers as [|want answers]; [injection E as <- _; tauto|].
  destruct (starts normal letter_y want) eqn:W; cbn [negb] in E; [|injection E as <- _; tauto].
  cbn [generate import_secret_key has_public_key new_key k_public is_some process_secret k_secret bind] in E.
  destruct (exchange C _ _) as [shared|e]; [|injection E as <- _; tauto].
  destruct answers as [|mb0 answers]; [injection E as <- _; tauto|].
  destruct (choose_mb normal parse_int mb0 answers) as [[mb [|email0 [|pass0 unused]]]|e] eqn:M;
    try (injection E as <- _; tauto).
  destruct (encode email0) as [email|e] eqn:EE; cbn [bind] in E; [|injection E as <- _; tauto].
  destruct (encode pass0) as [pass|e] eqn:EP; cbn [bind] in E; [|injection E as <- _; tauto].
  destruct (refused (email, pass, mb)) eqn:RF; [injection E as <- _; tauto|].
  cbn [secret_bytes k_secret bind] in E.
  assert (same cr (email, pass, mb) = true) as SM.
  { destruct (same cr (email, pass, mb)) eqn:Q; [reflexivity|]. elim NE.
    destruct (make_token _ _ _); injection E as <- _; unfold put; now rewrite Q. }
  apply choose_mb_chosen in M. apply same_eq in SM. subst cr.
  exists want, (mb0 :: answers), mb, email0, pass0, unused, email, pass.
  split; [reflexivity|]. split.
  { unfold starts, letter_y in W. unfold begins. destruct (normal want) as [|a l]; [discriminate|].
    apply N.eqb_eq in W. subst a. eauto. }
  repeat split; assumption.
Qed.

(** The secret key of a report is saved before the report is shown, in the user's
    database: there is a token of it, after the last three of the tokens saved
    before. *)
Theorem C93_the_secret_key_is_saved : forall answers lines s r r' st st' x cr,
  dialogue normal parse_int encode answers cr ->
  report_issue answers lines s r r' st = (st', Ok (Some x)) ->
  exists token, make_token cr r' (raw_secret C s) = Ok token /\
    st' cr = Some (last_items 4 (match st cr with Some l => l | None => [] end ++ [token])) /\
    (forall cr', cr' <> cr -> st' cr' = st cr').
Proof.
  intros answers lines s r r' st st' x cr
    (want & rest & mb & email0 & pass0 & unused & e & p & -> & W & M & EE & EP & ->) E.
  destruct rest as [|mb0 answers]; [inversion M|]. apply choose_mb_chosen in M.
  unfold report_security_issue in E.
  assert (starts normal letter_y want = true) as SW.
  { destruct W as (l & W). unfold starts, letter_y. rewrite W. apply N.eqb_refl. }
  rewrite SW in E.
  cbn [negb generate import_secret_key has_public_key new_key k_public is_some process_secret k_secret bind] in E.
  destruct (exchange C _ _) as [shared|e']; [|discriminate].
  rewrite M, EE in E. cbn [bind] in E. rewrite EP in E. cbn [bind] in E.
  destruct (refused (e, p, mb)); [discriminate|]. cbn [secret_bytes k_secret bind] in E.
  destruct (make_token (e, p, mb) r' (raw_secret C s)) as [token|e'] eqn:TK; [|discriminate].
  injection E as <- _. exists token. split; [reflexivity|]. split.
  - unfold put. rewrite same_refl. now rewrite period_keys_last.
  - intros cr' N. unfold put. destruct (same cr' (e, p, mb)) eqn:Q; [|reflexivity]. now apply same_eq in Q.
Qed.

(** A session of reports, one after the other, each with its answers, lines, keys and
    random values. *)
Fixpoint reports (runs : list (list text * list text * secret C * coins * coins)) (st : store)
    : store * list (result (option report)) :=
  match runs with
  | [] => (st, [])
  | (answers, lines, s, r, r') :: runs =>
      let '(st, x) := report_issue answers lines s r r' st in
      let '(st, xs) := reports runs st in
      (st, x :: xs)
  end.

(** After any number of reports with the same credentials, the user's database holds
    the keys of the last four, oldest first. *)
Theorem C93_the_last_four_keys_are_kept : forall cr runs st st' xs,
  (forall answers lines s r r', In (answers, lines, s, r, r') runs -> dialogue normal parse_int encode answers cr) ->
  reports runs st = (st', xs) ->
  Forall (fun x => exists y, x = Ok (Some y)) xs ->
  exists tokens,
    Forall2 (fun run token => let '(_, _, s, _, r') := run in make_token cr r' (raw_secret C s) = Ok token) runs tokens /\
    (runs <> [] -> st' cr = Some (last_items 4 (match st cr with Some l => l | None => [] end ++ tokens))).
Proof.
  intros cr runs. induction runs as [|[[[[answers lines] s] r] r'] runs IH]; intros st st' xs DL E F.
  - exists []. split; [constructor|]. intros N. now elim N.
  - cbn [reports] in E. destruct (report_issue answers lines s r r' st) as [st1 x] eqn:E1.
    destruct (reports runs st1) as [st2 xs'] eqn:E2. injection E as <- <-.
    inversion F as [|? ? (y & ->) F']; subst.
    destruct (C93_the_secret_key_is_saved _ _ _ _ _ _ _ _ cr (DL _ _ _ _ _ (or_introl eq_refl)) E1) as (token & TK & S1 & _).
    destruct (IH st1 st2 xs') as (tokens & F2 & S2); [|exact E2|exact F'|].
    { intros. eapply DL. right. eassumption. }
    exists (token :: tokens). split; [now constructor|]. intros _.
    destruct runs as [|run runs].
    + inversion F2; subst. cbn in E2. injection E2 as <- <-. exact S1.
    + rewrite S2 by discriminate. rewrite S1. f_equal. rewrite last_items_more.
      now rewrite <- app_assoc.
Qed.

(** No two different reports are encrypted under one key, unless the hash functions
    collide. *)
Theorem C93_one_key_one_report : forall d1 p1 a1 k1 m1 siv1 d2 p2 a2 k2 m2 siv2 key,
  xof shake_128 -> h_block_size shake_128 < 2 ^ 56 -> like_sha3_256 sha3_256 ->
  blen k1 = blen k2 ->
  keys_of shake_128 sha3_256 KDF_DOMAIN salt USER SIV ENCRYPTION_KEY d1 p1 a1 k1 m1 siv1 key ->
  keys_of shake_128 sha3_256 KDF_DOMAIN salt USER SIV ENCRYPTION_KEY d2 p2 a2 k2 m2 siv2 key ->
  (d1 = d2 /\ p1 = p2 /\ a1 = a2 /\ k1 = k2 /\ m1 = m2 /\ siv1 = siv2) \/ hashes_collide shake_128 sha3_256.
Proof.
  intros d1 p1 a1 k1 m1 siv1 d2 p2 a2 k2 m2 siv2 key X B LS LK (f1 & N1 & S1 & K1) (f2 & N2 & S2 & K2).
  pose proof LS as (XS & DS & BS & _).
  assert (G : forall f data aad out, run_kdf shake_128 sha3_256 f data None aad = Ok out ->
    exists y, run_absorbed shake_128 sha3_256 f data None aad = Ok y /\ h_digest sha3_256 y 32 = out).
  { intros f data aad out E. apply C47_derived_bytes in E as (y & E & D). exists y. split; [exact E|].
    unfold run_size, call_digest in D. rewrite DS, XS in D. cbn in D. now injection D as <-. }
  apply G in S1 as (y1 & S1 & <-). apply G in S2 as (y2 & S2 & <-).
  apply G in K1 as (z1 & K1 & Z1). apply G in K2 as (z2 & K2 & Z2).
  destruct (bytes_dec z1 z2) as [<-|NZ].
  2: { right. right. exists z1, z2. split; [exact NZ|congruence]. }
  destruct (run_inj shake_128 X sha3_256 f1 f2 _ _ _ _ _ _ z1 ltac:(rewrite BS; reflexivity) K1 K2)
    as (_ & ED & _ & [<-|CF]).
  2: { right. left. do 3 eexists. exact CF. }
  injection ED as ED. destruct (bytes_dec y1 y2) as [<-|NY].
  2: { right. right. exists y1, y2. split; [exact NY|exact ED]. }
  destruct (run_inj shake_128 X sha3_256 f1 f1 _ _ _ _ _ _ y1 ltac:(rewrite BS; reflexivity) S1 S2)
    as (_ & EM & _ & _).
  injection EM as <-.
  destruct (C47_payload_determines_the_history_partial shake_128 KDF_DOMAIN salt USER [d1; p1; a1] k1 [] USER [d2; p2; a2] k2 [] f1)
    as (_ & [(_ & EX & EK)|(u1 & u2 & _ & _ & CU)]).
  { exact X. } { exact B. }
  { apply C47_separable. right. left. now split. }
  { now constructor. } { now constructor. }
  - injection EX as <- <- <-. left. repeat split; assumption.
  - right. left. do 3 eexists. exact CU.
Qed.

End Claims.

(** ** Cases *)

(** A digest function, an encryption that appends key, nonce and associated data, and
    text that is bytes already; numbers are texts of one digit. *)
Definition report_sha3 : hasher :=
  {| h_block_size := 136; h_digest_size := 32; h_is_xof := false;
     h_digest := fun x n => repeat (nth 200 x x07) (N.to_nat n) |}.
Definition report_seal (key nonce data aad : bytes) : bytes := data ++ key ++ nonce ++ aad.
Definition report_unseal (key nonce data aad : bytes) : result bytes :=
  let n := blen data - blen (key ++ nonce ++ aad) in
  if bytes_eqb (drop n data) (key ++ nonce ++ aad) then Ok (take n data) else Err InvalidSignature.
Definition report_int (t : text) : option Z :=
  match t with [d] => if (48 <=? d) && (d <=? 57) then Some (Z.of_N d - 48)%Z else None | _ => None end.
Definition report_encode (t : text) : result bytes := Ok (flat_map (fun x => be_enc 1 x) t).

(** Yes; a word; 7, taken back; 8, confirmed; an address and a passphrase. *)
Definition report_answers : list text := [[121]; [120]; [55]; [110]; [56]; [121]; [97; 64]; [112]].
Definition report_lines : list text := [[104; 105; 10]; [33]].
Definition a_report (c : cfg) (s : bytes) (st : store) : store * result (option report) :=
  report_security_issue toy_curve curve_shake report_sha3 (repeat x09 8) (repeat x05 8) [x55; x53; x52] [x53] [x45]
    report_seal c (fun t => t) report_int report_encode [x00; x05] (fun _ => None) (fun _ _ x => Ok x)
    report_answers report_lines s chunky_coins chunky_coins st.

(** Not every key is kept: the fifth report with the same credentials drops the key of
    the first. *)
Theorem C93_every_key_is_kept_refuted :
  exists c cr, chunky2048 [x61] 13 = Ok c /\ valid_coins c chunky_coins /\
    let st1 := fst (a_report c [x01] (fun _ => None)) in
    let st5 := fst (a_report c [x05] (fst (a_report c [x04] (fst (a_report c [x03] (fst (a_report c [x02] st1))))))) in
    (exists x, snd (a_report c [x01] (fun _ => None)) = Ok (Some x)) /\
    st1 cr = Some [[x01]] /\ st5 cr = Some [[x02]; [x03]; [x04]; [x05]].
Proof.
  destruct (chunky2048 [x61] 13) as [c|] eqn:E; [|vm_compute in E; discriminate].
  vm_compute in E. apply Ok_inj in E. subst c.
  eexists _, ([x61; x40], [x70], 8%Z). split; [reflexivity|].
  split; [constructor; vm_compute; try split; first [reflexivity|discriminate]|].
  cbv zeta. split; [eexists; vm_compute; reflexivity|]. split; vm_compute; reflexivity.
Qed.

Lemma report_laws : lawful toy_curve /\ like_sha3_256 report_sha3 /\ opens report_seal report_unseal /\ xof curve_shake.
Proof.
  destruct C52_case_laws as (L & _ & X & _). split; [exact L|]. split.
  { split; [reflexivity|]. split; [reflexivity|]. split; [reflexivity|]. intros x. cbn. unfold blen.
    rewrite repeat_length. reflexivity. }
  split; [|exact X]. intros key nonce data aad _ _. unfold report_unseal, report_seal.
  rewrite blen_app. replace (blen data + blen (key ++ nonce ++ aad) - blen (key ++ nonce ++ aad)) with (blen data) by lia.
  now rewrite drop_app, take_app, bytes_eqb_refl.
Qed.

Example C93_case :
  exists c st x, chunky2048 [x61] 13 = Ok c /\ valid_coins c chunky_coins /\ 0 < padding_frame c <= 256 /\
    a_report c [x02] (fun _ => None) = (st, Ok (Some x)) /\
    dialogue (fun t => t) report_int report_encode report_answers ([x61; x40], [x70], 8%Z) /\
    typed report_encode report_lines [x68; x69; x0a; x21] /\
    read_report toy_curve curve_shake report_sha3 (repeat x09 8) (repeat x05 8) [x55; x53; x52] [x53] [x45]
      report_unseal c [x05] 0%Z x = Ok [[x61; x40]; [x68; x69; x0a; x21]].
Proof.
  destruct (chunky2048 [x61] 13) as [c|] eqn:E; [|vm_compute in E; discriminate].
  vm_compute in E. apply Ok_inj in E. subst c.
  match goal with |- exists _ _ _, Ok ?c = _ /\ _ => destruct (a_report c [x02] (fun _ => None)) as [st r] eqn:Q;
    exists c, st end.
  pose proof (f_equal snd Q) as Q2. cbn [snd] in Q2.
  assert (exists x, r = Ok (Some x)) as (x & ->) by (rewrite <- Q2; eexists; vm_compute; reflexivity).
  exists x. split; [reflexivity|].
  split; [constructor; vm_compute; try split; first [reflexivity|discriminate]|].
  split; [vm_compute; split; [reflexivity|discriminate]|].
  split; [exact Q|]. split.
  { exists [121], [[120]; [55]; [110]; [56]; [121]; [97; 64]; [112]], 8%Z, [97; 64], [112], [], [x61; x40], [x70].
    split; [reflexivity|]. split; [now exists []|]. split.
    { apply not_a_number; [reflexivity|]. apply (taken_back _ _ _ 7%Z); [reflexivity|now exists []|].
      apply (agreed _ _ _ 8%Z); [reflexivity|]. intros (l & L). discriminate L. }
    repeat split; reflexivity. }
  split.
  { exists [[x68; x69; x0a]; [x21]]. split; [|reflexivity]. repeat constructor. }
  vm_compute in Q2. injection Q2 as <-. vm_compute. reflexivity.
Qed.

Print Assumptions C93_the_addressee_reads_the_report.
Print Assumptions C93_reports_succeed.
Print Assumptions C93_no_consent_no_report.
Print Assumptions C93_other_databases.
Print Assumptions C93_the_secret_key_is_saved.
Print Assumptions C93_the_last_four_keys_are_kept.
Print Assumptions C93_one_key_one_report.
Print Assumptions C93_every_key_is_kept_refuted.
