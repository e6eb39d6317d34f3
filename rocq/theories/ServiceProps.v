(** * C97: the signing service *)
From Coq Require Import Strings.String Permutation ZArith Lia.
From Verif Require Import Base BaseFacts CanonModel CanonSpec CanonProofs KdfModel ClockModel CipherModel CipherSpec ShippedProofs CipherProps StrModel StrFacts JsonModel JsonSpec LoadsModel LoadsSpec LoadsProofs CurveModel CurveSpec PackageModel PackageSpec PackageProofs PackageProps StoreModel ServiceModel ServiceSpec IndentProofs ServiceProofs.
Import ListNotations.
Open Scope list_scope.
Local Open Scope N_scope.

(** ** Channels *)

(** A message arrives whole however the network cuts the stream into pieces, and nothing that follows it is taken. If
    there is no whole message before the channel is closed or an exception is raised, that is what the call raises. *)
Theorem C97_messages_arrive_whole : forall l,
  match recv_message l with
  | (l', Got data) => exists framed, frame data framed /\ stream l = framed ++ stream l' /\ fate l' = fate l
  | (_, Fails p) => p = fate l /\ forall data framed rest, frame data framed -> stream l <> framed ++ rest
  end.
Proof. exact recv_message_what. Qed.
Print Assumptions C97_messages_arrive_whole.
Theorem C97_messages_are_found : forall l data framed rest, frame data framed -> stream l = framed ++ rest ->
  exists l', recv_message l = (l', Got data) /\ stream l' = rest /\ fate l' = fate l.
Proof. exact recv_message_framed. Qed.
Print Assumptions C97_messages_are_found.
(** What is sent is such a message. *)
Theorem C97_messages_are_framed : forall data net, blen data < 2 ^ 64 -> Forall (fun o => o = None) net ->
  exists framed, buffer_send data net = (framed, Got tt) /\ frame data framed.
Proof. exact buffer_send_framed. Qed.
Print Assumptions C97_messages_are_framed.

(** ** Signing *)

(** A request can be made of every scope and all files that JSON can carry. *)
Theorem C97_requests_are_made : forall H rate cfg ks r scope files,
  an_xof rate H -> valid_cfg H cfg -> valid_coins cfg r -> normal scope -> normal files ->
  blen (dumps_bytes scope) < 2 ^ 64 -> blen (dumps_bytes files) < 2 ^ 64 ->
  exists request, make_request H cfg ks r scope files = Ok request.
Proof. intros H rate cfg ks r scope files X V. apply (request_made H rate cfg X V). Qed.
Print Assumptions C97_requests_are_made.

(** A request that is made is sent as one message over a working channel, and what the client keeps for the response
    is the head of that request: its tag, salt and IV. If the channel fails at once, nothing is sent and that is what
    the call raises. *)
Theorem C97_requests_are_sent : forall H cfg ks r scope files request header net,
  make_request H cfg ks r scope files = Ok request -> python_sized request -> head cfg request header ->
  (Forall (fun o => o = None) net -> exists framed, send_request H cfg ks r scope files net = (framed, Got header) /\ frame request framed) /\
  (forall p net', net = Some p :: net' -> send_request H cfg ks r scope files net = ([], Fails p)).
Proof.
  intros H cfg ks r scope files request header net MR PS HD.
  assert (L : blen request < 2 ^ 64) by (unfold python_sized in PS; change (2 ^ 63) with 9223372036854775808 in PS; change (2 ^ 64) with 18446744073709551616; lia).
  unfold send_request. rewrite MR. split.
  - intros QU. destruct (buffer_send_framed request net L QU) as (framed & -> & FR). exists framed. now rewrite (head_take _ _ _ HD).
  - intros p net' ->. unfold buffer_send, to_bytes_be. change (256 ^ 8) with (2 ^ 64). rewrite (proj2 (N.ltb_lt _ _) L). reflexivity.
Qed.
Print Assumptions C97_requests_are_sent.

(** A request for the package of the service that arrives within two units of the clock is answered, whatever
    clients came before it: the client opens the response within two units and reads from it a summary of just the
    scope that it gave, dated, and just the files that it gave. The summary is accepted by every verifier with the
    public key of the package, if the files that it reads have the hashes given. The service remains ready. *)
Theorem C97_requests_are_signed : forall C sha384 read_token H rate cfg the_package ks key r scope files request header c w version s framed more,
  an_xof rate H -> valid_cfg H cfg -> c_shmac_bytes cfg + c_salt_bytes cfg + c_iv_bytes cfg < 2 ^ 16 -> signs C ->
  make_cipher H cfg key = Ok ks -> transmit_key c = Ok key ->
  good_scope the_package version scope -> good_files files -> ready C read_token the_package s w ->
  valid_coins cfg r -> make_request H cfg ks r (JObj scope) (file_object files) = Ok request -> python_sized request -> head cfg request header ->
  frame request framed -> stream (arrivals c) = framed ++ more -> in_time cfg (r_now r) (now c) ->
  valid_coins cfg (drawn c) -> Forall (fun o => o = None) (sendings c) ->
  exists w' text S signed_scope signed_files response,
    loads_bytes text = Ok (JObj S) /\
    field S "scope" (JObj signed_scope) /\ dated scope (today c) signed_scope /\
    field S "checksums" (file_object signed_files) /\ Permutation files signed_files /\
    (forall v, k_public (v_key C v) = Some (public_of C s) ->
      (forall read, v_read C v = Some read -> forall name h, In (name, h) files -> exists data, read name = Ok data /\ hex (sha384 data) = h) ->
      exists reads, verify_text C sha384 loads_bytes v text = (reads, Ok tt)) /\
    ready C read_token the_package s w' /\
    (python_sized response -> exists sent, frame response sent /\ serve C sha384 read_token H cfg the_package c w = (w', sent, Got tt) /\
      forall l more' salt now, stream l = sent ++ more' -> in_time cfg (r_now (drawn c)) now ->
        recv_response H cfg ks header salt now l = Got text).
Proof.
  intros C sha384 rd H rate cfg pk ks key r scope files request header c w version s framed more X V SM SG MK TK GS GF RD VR MR PS HD FR ST IT VD QU.
  destruct (exchange C sha384 rd H rate cfg pk X V SM ks key r scope files request c w version s framed more SG MK TK GS GF RD VR MR PS FR ST IT VD)
    as (w' & S & sc & sg & response & NS & DT & F1 & F2 & F3 & SI & RD' & VF & _ & LAST).
  pose proof (loads_bytes_dumps4 _ NS) as LD. rewrite (head_take _ _ _ HD) in LAST.
  exists w', (dumps4_bytes (JObj S)), S, (sort_items sc), (sort_items files), response. split; [exact LD|]. split; [exact F1|]. split; [now apply dated_sorted|].
  split; [exact F2|]. split; [symmetry; apply sort_perm|]. split; [|split; [exact RD'|exact (fun PZ => LAST PZ QU)]].
  intros v KP FL. unfold verify_text. rewrite LD. now apply VF.
Qed.
Print Assumptions C97_requests_are_signed.

(** ** Who is served *)

(** If anything changes, is sent or is reported as done, the client has sent a message that was made with the key of
    the service, as a request, at most two units of the clock ago, and the request is for the package of the service. *)
Theorem C97_only_authentic_requests_are_signed : forall C sha384 read_token H rate cfg the_package c w w' sent r,
  an_xof rate H -> valid_cfg H cfg ->
  serve C sha384 read_token H cfg the_package c w = (w', sent, r) -> w' <> w \/ sent <> [] \/ r = Got tt ->
  exists key ks request framed rest text scope_text files_text scope files salt iv padded,
    transmit_key c = Ok key /\ make_cipher H cfg key = Ok ks /\ frame request framed /\ stream (arrivals c) = framed ++ rest /\
    seal H cfg ks salt asking iv padded = Ok request /\ depad_plaintext cfg (now c) padded (Some 2%Z) = Ok text /\
    canonical_unpack text = Ok [scope_text; files_text] /\
    loads_bytes scope_text = Ok (JObj scope) /\ loads_bytes files_text = Ok files /\ dict_get str_eqb scope (lit "package") = Some (JStr the_package).
Proof.
  intros C sha384 rd H rate cfg pk c w w' sent r X V E NT. pose proof (serve_what C sha384 rd H cfg pk c w) as W. rewrite E in W. destruct W as [(-> & -> & p & ->)|W].
  { destruct NT as [Q|[Q|Q]]; [now destruct Q|now destruct Q|discriminate]. }
  destruct W as (key & ks & request & framed & rest & text & st & ft & scope & files & TK & MK & FR & ST & BD & CU & LS & LF & PK & _).
  destruct (C24_accepted_is_authentic H rate cfg ks _ _ request asking (Some 2%Z) text X V request_aad BD) as (salt & iv & body & x & padded & _ & _ & _ & _ & SE & DP).
  exists key, ks, request, framed, rest, text, st, ft, scope, files, salt, iv, padded. repeat (split; [assumption|]). assumption.
Qed.
Print Assumptions C97_only_authentic_requests_are_signed.

(** Without such a message, nothing is signed, stored or sent, the channel is closed, and the service goes on to the next
    clients as if this one had not come. *)
Theorem C97_others_are_turned_away : forall C sha384 read_token H rate cfg the_package c key ks vs w,
  an_xof rate H -> valid_cfg H cfg -> transmit_key c = Ok key -> make_cipher H cfg key = Ok ks ->
  In (fate (arrivals c)) [Aborted; Reset; TimedOut] ->
  (forall request framed rest text, frame request framed -> stream (arrivals c) = framed ++ rest ->
     bytes_decrypt H cfg ks (unused_salt c) (now c) request asking (Some 2%Z) <> Ok text) ->
  forall w' ds e, service_loop C sha384 read_token H cfg the_package vs w = (w', ds, e) ->
    service_loop C sha384 read_token H cfg the_package (Comes c :: vs) w = (w', Accepts :: Sends [] :: Closes :: ds, e).
Proof.
  intros C sha384 rd H rate cfg pk c key ks vs w X V TK MK FT NO w' ds e E.
  destruct (serve_refused C sha384 rd H cfg pk rate c w key ks X V TK MK FT NO) as (p & SV & RE).
  rewrite (loop_goes_on C sha384 rd H cfg pk c vs w w [] p SV RE), E. reflexivity.
Qed.
Print Assumptions C97_others_are_turned_away.

(** So is an authentic request for another package, or one whose scope is no object. *)
Theorem C97_other_packages_are_turned_away : forall C sha384 read_token H cfg the_package c key ks vs w request framed rest text scope_text files_text scope files,
  transmit_key c = Ok key -> make_cipher H cfg key = Ok ks -> frame request framed -> stream (arrivals c) = framed ++ rest ->
  bytes_decrypt H cfg ks (unused_salt c) (now c) request asking (Some 2%Z) = Ok text -> canonical_unpack text = Ok [scope_text; files_text] ->
  loads_bytes scope_text = Ok scope -> loads_bytes files_text = Ok files ->
  (forall l, scope = JObj l -> exists name, dict_get str_eqb l (lit "package") = Some name /\ name <> JStr the_package) ->
  forall w' ds e, service_loop C sha384 read_token H cfg the_package vs w = (w', ds, e) ->
    service_loop C sha384 read_token H cfg the_package (Comes c :: vs) w = (w', Accepts :: Sends [] :: Closes :: ds, e).
Proof.
  intros C sha384 rd H cfg pk c key ks vs w request framed rest text st ft scope files TK MK FR ST BD CU LS LF NO w' ds e E.
  assert (Q : exists p, serve C sha384 rd H cfg pk c w = (w, [], Fails p) /\ react p = GoOn).
  { unfold ServiceModel.serve. rewrite TK. cbn [bind]. rewrite MK. cbn [lift]. unfold get_and_parse_request.
    destruct (recv_message_framed _ _ _ _ FR ST) as (l & -> & _).
    change REQUEST_AAD with asking. change TTL with 2%Z. rewrite BD. cbn [bind]. rewrite CU. cbn [bind]. rewrite LS. cbn [bind].
    rewrite LF. cbn [bind lift]. unfold right_package.
    destruct scope as [| | | | | |o]; try (eexists; split; reflexivity).
    destruct (NO o eq_refl) as (name & G & NE). change PACKAGE with (lit "package"). rewrite G.
    destruct name; try (eexists; split; reflexivity).
    destruct (str_eqb s pk) eqn:SE; [apply str_eqb_eq in SE; congruence|]. eexists; split; reflexivity. }
  destruct Q as (p & SV & RE). rewrite (loop_goes_on C sha384 rd H cfg pk c vs w w [] p SV RE), E. reflexivity.
Qed.
Print Assumptions C97_other_packages_are_turned_away.

(** Every channel is closed before the next is accepted, whatever the clients do. *)
Theorem C97_channels_are_closed : forall C sha384 read_token H cfg the_package vs w w' ds e,
  service_loop C sha384 read_token H cfg the_package vs w = (w', ds, e) ->
  exists sents, ds = flat_map (fun b => [Accepts; Sends b; Closes]) sents.
Proof. intros C sha384 rd H cfg pk vs w w' ds e E. destruct (loop_deeds C sha384 rd H cfg pk vs w) as (sents & Q). rewrite E in Q. eauto. Qed.
Print Assumptions C97_channels_are_closed.

(** ** What is kept *)

(** What a client gets and what is stored depend on its request and on the database, not on the scope and the files of
    clients before it. *)
Theorem C97_requests_are_independent : forall C sha384 read_token H cfg the_package c w1 w2 w1' sent1 r1 w2' sent2 r2,
  database w1 = database w2 ->
  serve C sha384 read_token H cfg the_package c w1 = (w1', sent1, r1) -> serve C sha384 read_token H cfg the_package c w2 = (w2', sent2, r2) ->
  sent1 = sent2 /\ r1 = r2 /\ database w1' = database w2'.
Proof.
  intros C sha384 rd H cfg pk c w1 w2 w1' sent1 r1 w2' sent2 r2 D E1 E2. pose proof (serve_independent C sha384 rd H cfg pk c w1 w2 D) as Q. rewrite E1, E2 in Q. exact Q.
Qed.
Print Assumptions C97_requests_are_independent.

(** A client changes nothing in the database, or the signature of one version of the package of the service: signatures
    of other packages and versions stay, and so do keys and credentials. What is in memory is then saved. *)
Theorem C97_one_version_is_stored : forall C sha384 read_token H cfg the_package c w w' sent r,
  serve C sha384 read_token H cfg the_package c w = (w', sent, r) ->
  database w' = database w \/
  exists cache cache' version signature, w_cache w = Some cache /\ w_cache w' = Some cache' /\ w_saved w' = dict_update str_eqb (w_saved w) cache' /\
    stored cache' the_package version = Some signature /\
    (forall p v, (p, v) <> (the_package, version) -> stored cache' p v = stored cache p v) /\
    forall p, match dict_get str_eqb cache' p, dict_get str_eqb cache p with
              | Some e', Some e => e_key e' = e_key e /\ e_credentials e' = e_credentials e
              | None, None => True
              | _, _ => False
              end.
Proof.
  intros C sha384 rd H cfg pk c w w' sent r E. pose proof (serve_what C sha384 rd H cfg pk c w) as W. rewrite E in W. destruct W as [(-> & _)|W]; [now left|].
  destruct W as (key & ks & request & framed & rest & text & st & ft & scope & files & _ & _ & _ & _ & _ & _ & _ & _ & PK & -> & _).
  destruct (produce_what C sha384 rd pk scope files (today c) w PK) as [D|(version & sg & cache & e & WC & G & WC' & WS')]; [now left|right].
  set (e' := {| e_key := e_key e; e_versions := dict_set str_eqb (e_versions e) version (hex sg); e_credentials := e_credentials e |}) in *.
  exists cache, (dict_set str_eqb cache pk e'), version, (hex sg). split; [exact WC|]. split; [exact WC'|]. split; [exact WS'|].
  unfold stored. split; [rewrite (get_set _ str_eqb_eq), str_eqb_refl; cbn [e' e_versions]; now rewrite (get_set _ str_eqb_eq), str_eqb_refl|]. split.
  - intros p v NE. rewrite (get_set _ str_eqb_eq). destruct (str_eqb pk p) eqn:Q; [|reflexivity]. apply str_eqb_eq in Q as <-. rewrite G. cbn [e' e_versions]. rewrite (get_set _ str_eqb_eq).
    destruct (str_eqb version v) eqn:Q; [apply str_eqb_eq in Q as <-; now destruct NE|reflexivity].
  - intros p. rewrite (get_set _ str_eqb_eq). destruct (str_eqb pk p) eqn:Q; [apply str_eqb_eq in Q as <-; rewrite G; split; reflexivity|]. destruct (dict_get str_eqb cache p); auto.
Qed.
Print Assumptions C97_one_version_is_stored.

(** ** Responses *)

(** A response is for one request: if a client takes the same bytes for a response to requests with two different
    headers, two different inputs of the hash with one tag are known. *)
Theorem C97_responses_are_bound : forall H rate cfg key ks h1 h2 s1 s2 t1 t2 l1 l2 response framed1 rest1 framed2 rest2 text1 text2,
  an_xof rate H -> valid_cfg H cfg -> make_cipher H cfg key = Ok ks -> blen h1 < 2 ^ 16 -> blen h2 < 2 ^ 16 -> h1 <> h2 ->
  frame response framed1 -> frame response framed2 -> stream l1 = framed1 ++ rest1 -> stream l2 = framed2 ++ rest2 ->
  recv_response H cfg ks h1 s1 t1 l1 = Got text1 -> recv_response H cfg ks h2 s2 t2 l2 = Got text2 ->
  exists x y aad1 aad2 tag salt iv body, x <> y /\ tag_of H cfg x = tag /\ tag_of H cfg y = tag /\ response = tag ++ salt ++ iv ++ body /\
    answering h1 aad1 /\ answering h2 aad2 /\ absorbed H cfg ks salt aad1 iv body = Ok x /\ absorbed H cfg ks salt aad2 iv body = Ok y.
Proof.
  intros H rate cfg key ks h1 h2 s1 s2 t1 t2 l1 l2 response f1 r1 f2 r2 x1 x2 X V MK L1 L2 NE F1 F2 S1 S2 R1 R2.
  destruct (response_taken H cfg ks h1 s1 t1 l1 response f1 r1 x1 F1 S1 R1 L1) as (aad1 & P1 & A1 & D1).
  destruct (response_taken H cfg ks h2 s2 t2 l2 response f2 r2 x2 F2 S2 R2 L2) as (aad2 & P2 & A2 & D2).
  assert (NA : (key, aad1) <> (key, aad2)).
  { intros Q. apply NE. assert (aad1 = aad2) as <- by congruence. destruct (canonical_pack_inj _ _ _ _ _ _ _ _ _ P1 P2) as (Q' & _). injection Q' as Q'. exact Q'. }
  destruct (C25_two_openings_collide H rate cfg key ks key ks aad1 aad2 response _ _ _ _ _ _ _ _ X V MK MK (or_introl eq_refl) A1 A2 D1 D2 NA) as (tag & salt & iv & body & x & y & EQ & B1 & B2 & XY & T1 & T2).
  exists x, y, aad1, aad2, tag, salt, iv, body. unfold answering. auto 12.
Qed.
Print Assumptions C97_responses_are_bound.

(** No request is taken for a response, or a collision is known. *)
Theorem C97_requests_are_not_responses : forall H rate cfg key ks header s1 s2 t1 t2 l message framed rest text1 text2 limit,
  an_xof rate H -> valid_cfg H cfg -> make_cipher H cfg key = Ok ks -> blen header < 2 ^ 16 ->
  bytes_decrypt H cfg ks s1 t1 message asking limit = Ok text1 ->
  frame message framed -> stream l = framed ++ rest -> recv_response H cfg ks header s2 t2 l = Got text2 ->
  exists x y aad tag salt iv body, x <> y /\ tag_of H cfg x = tag /\ tag_of H cfg y = tag /\ message = tag ++ salt ++ iv ++ body /\
    answering header aad /\ absorbed H cfg ks salt asking iv body = Ok x /\ absorbed H cfg ks salt aad iv body = Ok y.
Proof.
  intros H rate cfg key ks h s1 s2 t1 t2 l message framed rest x1 x2 limit X V MK L1 D1 F S R.
  destruct (response_taken H cfg ks h s2 t2 l message framed rest x2 F S R L1) as (aad & P & A & D2).
  assert (NA : (key, asking) <> (key, aad)).
  { intros Q. assert (aad = asking) as -> by congruence. apply canonical_pack_layout in P as (p & k & blob & _ & _ & (b & count & body & B8 & _ & _ & _ & Q') & _).
    unfold asking in Q'. vm_compute in Q'. injection Q' as <- _. vm_compute in B8. discriminate. }
  destruct (C25_two_openings_collide H rate cfg key ks key ks asking aad message _ _ _ _ _ _ _ _ X V MK MK (or_introl eq_refl) request_aad A D1 D2 NA) as (tag & salt & iv & body & x & z & EQ & B1 & B2 & XY & T1 & T2).
  exists x, z, aad, tag, salt, iv, body. unfold answering. auto 12.
Qed.
Print Assumptions C97_requests_are_not_responses.

(** ** What ends the service *)

(** The service does not survive all holders of its key: a request without a package ends it. *)
Theorem C97_nameless_requests_end_the_service : forall C sha384 read_token H cfg the_package c vs w key ks request framed rest text scope_text files_text scope files,
  transmit_key c = Ok key -> make_cipher H cfg key = Ok ks -> frame request framed -> stream (arrivals c) = framed ++ rest ->
  bytes_decrypt H cfg ks (unused_salt c) (now c) request asking (Some 2%Z) = Ok text -> canonical_unpack text = Ok [scope_text; files_text] ->
  loads_bytes scope_text = Ok (JObj scope) -> loads_bytes files_text = Ok files -> dict_get str_eqb scope (lit "package") = None ->
  service_loop C sha384 read_token H cfg the_package (Comes c :: vs) w = (w, [Accepts; Sends []; Closes], Died (Raised KeyErr)).
Proof.
  intros. eapply loop_dies; [eapply serve_nameless; eassumption|reflexivity].
Qed.
Print Assumptions C97_nameless_requests_end_the_service.

(** And a client that leaves before it is answered ends it after its request was signed and stored. *)
Theorem C97_clients_that_leave_end_the_service : forall C sha384 read_token H rate cfg the_package ks key r scope files request c vs w version s framed more net,
  an_xof rate H -> valid_cfg H cfg -> c_shmac_bytes cfg + c_salt_bytes cfg + c_iv_bytes cfg < 2 ^ 16 -> signs C ->
  make_cipher H cfg key = Ok ks -> transmit_key c = Ok key ->
  good_scope the_package version scope -> good_files files -> ready C read_token the_package s w ->
  valid_coins cfg r -> make_request H cfg ks r (JObj scope) (file_object files) = Ok request -> python_sized request ->
  frame request framed -> stream (arrivals c) = framed ++ more -> in_time cfg (r_now r) (now c) ->
  valid_coins cfg (drawn c) -> sendings c = Some BrokenPipe :: net ->
  exists w' response signature cache', python_sized response ->
    service_loop C sha384 read_token H cfg the_package (Comes c :: vs) w = (w', [Accepts; Sends []; Closes], Died BrokenPipe) /\
    w_cache w' = Some cache' /\ stored cache' the_package version = Some signature.
Proof.
  intros C sha384 rd H rate cfg pk ks key r scope files request c vs w version s framed more net X V SM SG MK TK GS GF RD VR MR PS FR ST IT VD EN.
  destruct (exchange C sha384 rd H rate cfg pk X V SM ks key r scope files request c w version s framed more SG MK TK GS GF RD VR MR PS FR ST IT VD)
    as (w' & S & sc & sg & response & NS & DT & F1 & F2 & F3 & (cache & e & WC & G & WC' & _) & RD' & VF & BP & _).
  exists w', response, (hex sg), (dict_set str_eqb cache pk {| e_key := e_key e; e_versions := dict_set str_eqb (e_versions e) version (hex sg); e_credentials := e_credentials e |}).
  intros PZ. split; [eapply loop_dies; [now apply (BP PZ _ net)|reflexivity]|]. split; [exact WC'|]. unfold stored. rewrite (get_set _ str_eqb_eq), str_eqb_refl. cbn [e_versions]. now rewrite (get_set _ str_eqb_eq), str_eqb_refl.
Qed.
Print Assumptions C97_clients_that_leave_end_the_service.

(** A request is not used up: who has heard it can have it signed again in its time, although not open the response. *)
Theorem C97_replays_are_signed_again : forall C sha384 read_token H rate cfg the_package ks key r scope files request c1 c2 w version s framed more1 more2,
  an_xof rate H -> valid_cfg H cfg -> c_shmac_bytes cfg + c_salt_bytes cfg + c_iv_bytes cfg < 2 ^ 16 -> signs C ->
  make_cipher H cfg key = Ok ks -> good_scope the_package version scope -> good_files files -> ready C read_token the_package s w ->
  valid_coins cfg r -> make_request H cfg ks r (JObj scope) (file_object files) = Ok request -> python_sized request -> frame request framed ->
  transmit_key c1 = Ok key -> stream (arrivals c1) = framed ++ more1 -> in_time cfg (r_now r) (now c1) -> valid_coins cfg (drawn c1) -> Forall (fun o => o = None) (sendings c1) ->
  transmit_key c2 = Ok key -> stream (arrivals c2) = framed ++ more2 -> in_time cfg (r_now r) (now c2) -> valid_coins cfg (drawn c2) -> Forall (fun o => o = None) (sendings c2) ->
  exists response1 response2, python_sized response1 -> python_sized response2 ->
    exists w' sent1 sent2, frame response1 sent1 /\ frame response2 sent2 /\
      service_loop C sha384 read_token H cfg the_package [Comes c1; Comes c2] w = (w', [Accepts; Sends sent1; Closes; Accepts; Sends sent2; Closes], Waiting).
Proof.
  intros C sha384 rd H rate cfg pk ks key r scope files request c1 c2 w version s framed more1 more2 X V SM SG MK GS GF RD VR MR PS FR TK1 ST1 IT1 VD1 Q1 TK2 ST2 IT2 VD2 Q2.
  destruct (exchange C sha384 rd H rate cfg pk X V SM ks key r scope files request c1 w version s framed more1 SG MK TK1 GS GF RD VR MR PS FR ST1 IT1 VD1)
    as (w1 & S1 & sc1 & sg1 & response1 & _ & _ & _ & _ & _ & _ & RD1 & _ & _ & L1).
  destruct (exchange C sha384 rd H rate cfg pk X V SM ks key r scope files request c2 w1 version s framed more2 SG MK TK2 GS GF RD1 VR MR PS FR ST2 IT2 VD2)
    as (w2 & S2 & sc2 & sg2 & response2 & _ & _ & _ & _ & _ & _ & _ & _ & _ & L2).
  exists response1, response2. intros P1 P2. destruct (L1 P1 Q1) as (sent1 & F1 & E1 & _). destruct (L2 P2 Q2) as (sent2 & F2 & E2 & _).
  exists w2, sent1, sent2. split; [exact F1|]. split; [exact F2|].
  rewrite (loop_served _ _ _ _ _ _ _ _ _ _ _ E1), (loop_served _ _ _ _ _ _ _ _ _ _ _ E2). reflexivity.
Qed.
Print Assumptions C97_replays_are_signed_again.

(** ** The files of a package *)

(** The names that are listed are determined by the text that git prints. *)
Theorem C97_listings_are_unique : forall tree names1 names2, listed tree names1 -> listed tree names2 -> names1 = names2.
Proof. intros tree n1 n2 L1 L2. rewrite (listed_is _ _ L1). symmetry. exact (listed_is _ _ L2). Qed.
Print Assumptions C97_listings_are_unique.

(** The manifest has a line for every listed file that is not in an excluded directory. All listed files are hashed,
    except for the two that change: the signature is left out, and the manifest counts as it will be written. *)
Theorem C97_all_files_are_listed : forall sha384 read tree manifest files, discover_file_inventory sha384 read tree = Ok (manifest, files) ->
  exists names text, listed tree names /\ manifest_of names text /\ manifest = utf8 text /\ NoDup (map fst files) /\
    forall name h, In (name, h) files <->
      (name = lit "MANIFEST.in" /\ h = hex (sha384 manifest)) \/
      (In name names /\ name <> lit "MANIFEST.in" /\ name <> lit "SIGNATURE.txt" /\ exists data, read name = Ok data /\ h = hex (sha384 data)).
Proof.
  intros sha384 read tree manifest files E. unfold discover_file_inventory in E. pose proof (inventory_what sha384 read (split_lines tree) [] []) as W.
  destruct (take_inventory sha384 read (split_lines tree) [] []) as [[m fs]|e]; [|discriminate]. cbn [bind] in E. injection E as <- <-.
  destruct W as ((text & MO & ->) & RD & ND & G). cbn [app] in *. eexists. exists text. split; [apply listed_lines|]. split; [exact MO|]. split; [reflexivity|].
  assert (N : NoDup (map fst (dict_set str_eqb fs MANIFEST_FILENAME (hex (sha384 (utf8 text)))))) by (apply (nodup_set _ str_eqb_eq), ND; constructor). split; [exact N|].
  intros name h. assert (IG : In (name, h) (dict_set str_eqb fs MANIFEST_FILENAME (hex (sha384 (utf8 text)))) <-> dict_get str_eqb (dict_set str_eqb fs MANIFEST_FILENAME (hex (sha384 (utf8 text)))) name = Some h).
  { split; [now apply (in_get _ str_eqb_eq)|apply (get_in _ str_eqb_eq)]. }
  rewrite IG, (get_set _ str_eqb_eq), G. clear IG. unfold MANIFEST_FILENAME. destruct (str_eqb (lit "MANIFEST.in") name) eqn:EM.
  { apply str_eqb_eq in EM as <-. split; [intros Q; left; split; [reflexivity|congruence]|]. intros [(_ & ->)|(_ & Q & _)]; [reflexivity|now destruct Q]. }
  assert (NM : name <> lit "MANIFEST.in") by (intros ->; now rewrite str_eqb_refl in EM). unfold dynamic, MANIFEST_FILENAME, SIGNATURE_FILENAME. cbn [existsb]. rewrite (proj2 (str_eqb_neq name (lit "MANIFEST.in")) NM). cbn [orb].
  destruct (str_eqb name (lit "SIGNATURE.txt")) eqn:ES; cbn [orb negb]; rewrite ?andb_false_r, ?andb_true_r.
  { apply str_eqb_eq in ES. split; [discriminate|]. intros [(Q & _)|(_ & _ & Q & _)]; now destruct Q. }
  apply str_eqb_neq in ES. set (names := filter (fun n => negb (str_eqb n [])) (map strip (split_lines tree))) in *. destruct (existsb (str_eqb name) names) eqn:EX.
  - apply existsb_exists in EX as (x & I & Q). apply str_eqb_eq in Q as <-. split.
    + destruct (read name) as [data|]; [|discriminate]. intros Q. right. repeat (split; [assumption|]). exists data. split; [reflexivity|congruence].
    + intros [(Q & _)|(_ & _ & _ & data & -> & ->)]; [now destruct NM|reflexivity].
  - split; [discriminate|]. intros [(Q & _)|(I & _)]; [now destruct NM|]. exfalso. apply not_true_iff_false in EX. apply EX, existsb_exists. exists name. split; [exact I|apply str_eqb_refl].
Qed.
Print Assumptions C97_all_files_are_listed.

(** It fails only if a listed file cannot be read. *)
Theorem C97_unreadable_files_are_reported : forall sha384 read tree e, discover_file_inventory sha384 read tree = Err e <->
  exists names name before after, listed tree names /\ names = before ++ name :: after /\ name <> lit "MANIFEST.in" /\ name <> lit "SIGNATURE.txt" /\ read name = Err e /\
    forall n, In n before -> n <> lit "MANIFEST.in" -> n <> lit "SIGNATURE.txt" -> exists data, read n = Ok data.
Proof.
  intros sha384 read tree e. unfold discover_file_inventory. pose proof (inventory_what sha384 read (split_lines tree) [] []) as W. split.
  - intros E. destruct (take_inventory sha384 read (split_lines tree) [] []) as [[m fs]|x]; [discriminate|]. cbn [bind] in E. injection E as ->.
    destruct W as (before & name & after & EQ & D & R & B). eexists. exists name, before, after. split; [apply listed_lines|]. split; [exact EQ|].
    apply dynamic_what in D as (D1 & D2). split; [exact D1|]. split; [exact D2|]. split; [exact R|]. intros n I N1 N2. apply B; [exact I|now apply dynamic_what].
  - intros (names & name & before & after & L & EQ & N1 & N2 & R & B). rewrite (listed_is _ _ L) in EQ. assert (D : dynamic name = false) by now apply dynamic_what.
    destruct (take_inventory sha384 read (split_lines tree) [] []) as [[m fs]|x].
    + destruct W as (_ & RD & _). destruct (RD name) as (data & Q); [rewrite EQ; apply in_elt|exact D|congruence].
    + cbn [bind]. f_equal. destruct W as (b2 & n2 & a2 & EQ2 & D2 & R2 & B2). rewrite EQ in EQ2. symmetry.
      apply (first_failing read before name after b2 n2 a2); auto. intros n I Q. apply dynamic_what in Q as (Q1 & Q2). now apply B.
Qed.
Print Assumptions C97_unreadable_files_are_reported.

(** So the directory that was inventoried, with its new manifest, has the hashes that are sent to the service. *)
Theorem C97_inventories_hold : forall sha384 read tree manifest files, discover_file_inventory sha384 read tree = Ok (manifest, files) ->
  let read' name := if str_eqb name (lit "MANIFEST.in") then Ok manifest else read name in
  forall name h, In (name, h) files -> exists data, read' name = Ok data /\ hex (sha384 data) = h.
Proof.
  intros sha384 read tree manifest files E read' name h I. destruct (C97_all_files_are_listed _ _ _ _ _ E) as (names & text & _ & _ & _ & _ & W). apply (W name h) in I. destruct I as [(-> & ->)|(_ & NM & _ & data & R & ->)]; unfold read'.
  - rewrite str_eqb_refl. eauto.
  - rewrite (proj2 (str_eqb_neq _ _) NM). eauto.
Qed.
Print Assumptions C97_inventories_hold.

(** ** Examples *)
Definition a_signer : world :=
  {| w_saved := []; w_cache := Some [(lit "q", {| e_key := [7; 9]; e_versions := []; e_credentials := [] |}); (lit "p", {| e_key := [7; 1; 2]; e_versions := [(lit "0", lit "ab")]; e_credentials := [] |})];
     w_scope := [(lit "package", JStr (lit "q"))]; w_files := [(lit "old", lit "00")] |}.
Definition a_scope : list (str * json) := [(lit "package", JStr (lit "p")); (lit "version", JStr (lit "1")); (lit "n", JInt 5)].
Definition some_files : list (str * str) := [(lit "b", lit "03"); (lit "a", lit "04")].
Definition a_client (l : list arrival) : client :=
  {| arrivals := l; sendings := []; transmit_key := Ok a_key; now := later 0; unused_salt := []; today := 20000; drawn := slick_coins |}.

Example service_hypotheses : good_scope (lit "p") (lit "1") a_scope /\ good_files some_files /\ ready package_curve plain_read (lit "p") [x01; x02] a_signer.
Proof.
  assert (CL : forall s, forallb (fun c => c <? 128) s = true -> clean_str s) by (intros s H; apply ascii_clean, Forall_forall; intros c I; apply (proj1 (forallb_forall _ _) H) in I; lia).
  assert (US : forall s, existsb (str_eqb s) (map lit ["keys"; "values"; "items"; "update"; "clear"; "__dict__"; "__class__"]%string) = false -> usable s).
  { intros s E I. apply not_true_iff_false in E. apply E, existsb_exists. exists s. split; [exact I|apply str_eqb_refl]. }
  split; [|split].
  - constructor; try reflexivity.
    + apply normal_obj. split; [repeat constructor; cbn [In]; intros Q; repeat (destruct Q as [Q|Q]; [discriminate Q|]); exact Q|].
      repeat (constructor; [split; [now apply CL|cbn [snd normal]; try exact I; now apply CL]|]). constructor.
    + repeat (constructor; [now apply US|]). constructor.
  - constructor.
    + repeat constructor; cbn [In]; intros Q; repeat (destruct Q as [Q|Q]; [discriminate Q|]); exact Q.
    + repeat (constructor; [split; now apply CL|]). constructor.
    + repeat (constructor; [now apply US|]). constructor.
  - eexists _, _, _. split; [reflexivity|]. split; [reflexivity|]. split; [discriminate|]. split; [reflexivity|]. split; [reflexivity|]. apply normal_obj. split; constructor.
Qed.

(** A request in two pieces is signed and answered; fewer bytes of it are not; a request without a package
    ends the service. *)
Definition some_visits : result (got json * (world * list deed * ending) * (world * list deed * ending)) :=
  cfg <- slick256 [x61] 13 ;;
  ks <- make_cipher toy cfg a_key ;;
  request <- make_request toy cfg ks slick_coins (JObj a_scope) (file_object some_files) ;;
  nameless <- make_request toy cfg ks slick_coins (JObj []) (file_object []) ;;
  let '(framed, kept) := send_request toy cfg ks slick_coins (JObj a_scope) (file_object some_files) [] in
  let header := match kept with Got h => h | Fails _ => [] end in
  let loop := service_loop package_curve (fun b => [byte_of (blen b mod 256)]) plain_read toy cfg (lit "p") in
  let '(w, ds, e) := loop [Comes (a_client [Piece (take 5 framed); Piece (drop 5 framed ++ [x00]); Trouble Reset]); Comes (a_client [Piece (take 20 framed)]); NoOne TimedOut] a_signer in
  Ok (match ds with
      | _ :: Sends sent :: _ => match recv_response toy cfg ks header [] (later 0) [Piece sent] with Got text => lift (loads_bytes text) | Fails p => Fails p end
      | _ => Fails Aborted
      end, (w, ds, e),
      loop [Comes (a_client [Piece (fst (buffer_send (take 100 request) []))]); Comes (a_client [Piece (fst (buffer_send nameless []))]); Comes (a_client [Piece framed])] a_signer).
Example service_case : exists S w' sent, some_visits = Ok (Got (JObj S), (w', [Accepts; Sends sent; Closes; Accepts; Sends []; Closes], Left),
    (a_signer, [Accepts; Sends []; Closes; Accepts; Sends []; Closes], Died (Raised KeyErr))) /\
  field S "checksums" (file_object [(lit "a", lit "04"); (lit "b", lit "03")]) /\ blen sent < 2 ^ 63.
Proof. eexists _, _, _. split; [vm_compute; reflexivity|]. split; vm_compute; reflexivity. Qed.
(** The hypotheses about the cipher hold of the cipher that is used. *)
Example service_cipher : exists cfg ks, chunky2048 [x61] 13 = Ok cfg /\ valid_cfg toy cfg /\ make_cipher toy cfg a_key = Ok ks /\ valid_coins cfg chunky_coins /\
  c_shmac_bytes cfg + c_salt_bytes cfg + c_iv_bytes cfg < 2 ^ 16 /\ in_time cfg (later 0) (later 2) /\ ~ in_time cfg (later 0) (later 3).
Proof.
  destruct (chunky2048 [x61] 13) as [c|] eqn:E; [|vm_compute in E; discriminate]. pose proof (chunky2048_valid _ [x61] _ _ toy_xof (eq_refl : blen [x61] < 2 ^ 63) E) as V.
  vm_compute in E. apply Ok_inj in E. subst c. eexists _, _. split; [reflexivity|]. split; [exact V|]. split; [vm_compute; reflexivity|].
  split; [constructor; try reflexivity; split; vm_compute; congruence|]. split; [vm_compute; reflexivity|]. split; [vm_compute; congruence|]. vm_compute. congruence.
Qed.
(** An inventory. *)
Definition a_disk (name : str) : result bytes := if str_eqb name (lit "gone") then Err FileNotFoundErr else Ok (ascii_encode name).
Example inventory_case : discover_file_inventory (fun b => b) a_disk (lit "a.py" ++ [10] ++ lit " .github/x " ++ [10; 10] ++ lit "SIGNATURE.txt" ++ [10] ++ lit "MANIFEST.in") =
    Ok (ascii_encode (lit "include a.py" ++ [10] ++ lit "include SIGNATURE.txt" ++ [10] ++ lit "include MANIFEST.in" ++ [10]),
        [(lit "a.py", hex (ascii_encode (lit "a.py"))); (lit ".github/x", hex (ascii_encode (lit ".github/x")));
         (lit "MANIFEST.in", hex (ascii_encode (lit "include a.py" ++ [10] ++ lit "include SIGNATURE.txt" ++ [10] ++ lit "include MANIFEST.in" ++ [10])))]) /\
  discover_file_inventory (fun b => b) a_disk (lit "a.py" ++ [10] ++ lit "gone") = Err FileNotFoundErr.
Proof. split; vm_compute; reflexivity. Qed.
(** Pieces of a stream. *)
Example channel_case : frame [x61; x62] [x00; x00; x00; x00; x00; x00; x00; x02; x61; x62] /\
  recv_message [Piece [x00; x00; x00]; Piece [x00; x00; x00; x00]; Piece [x02; x61]; Piece [x62; x63]; Trouble Reset] = ([Piece [x63]; Trouble Reset], Got [x61; x62]) /\
  recv_message [Piece [x00; x00; x00; x00; x00; x00; x00; x02; x61]; Trouble Reset] = ([], Fails Reset) /\
  recv_message [Piece [x00; x00; x00; x00; x00; x00; x00; x02; x61]] = ([], Fails Aborted).
Proof. split; [exists [x00; x00; x00; x00; x00; x00; x00; x02]; repeat split|]. vm_compute. repeat split. Qed.
