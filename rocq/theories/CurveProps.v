(** * C52, C53, C64, C65: curve keys, key exchanges and signatures *)
From Coq Require Import Lia.
From Verif Require Import Base BaseFacts CanonModel CanonSpec CanonProofs KdfModel KdfSpec KdfProofs CurveModel CurveSpec CurveProofs.
Local Open Scope N_scope.

(** ** C53: key objects are set once *)

(** Whatever calls are made on a key object: it is empty, or holds a secret key
    with its own public key, or a public key alone. *)
Theorem C53_keys_match : forall C os,
  let k := do_kops C (new_key C) os in
  k = new_key C \/ (exists s, k = pair_of s) \/ (exists p, k = only_public C p).
Proof. intros C os k. apply (do_kops_ok C os). now left. Qed.
Print Assumptions C53_keys_match.

(** Once it holds a public key every further attempt is refused and changes
    nothing. *)
Theorem C53_set_once : forall C os1 os2 o,
  let k := do_kops C (new_key C) os1 in
  has_public_key k = true -> do_kops C (new_key C) (os1 ++ os2) = k /\ do_kop C k o = (k, Err PermissionErr).
Proof.
  intros C os1 os2 o k Hk. split; [|exact (do_kop_locked C k o Hk)].
  unfold do_kops. rewrite fold_left_app. apply (do_kops_locked C os2 k Hk).
Qed.
Print Assumptions C53_set_once.

(** Before that, a refused call leaves the object empty, and an accepted one
    stores the key it was given. *)
Theorem C53_first_key : forall C os o,
  let k := do_kops C (new_key C) os in
  has_public_key k = false ->
  k = new_key C /\
  (fst (do_kop C k o) = new_key C /\ (exists e, snd (do_kop C k o) = Err e) \/
   snd (do_kop C k o) = Ok tt /\
    ((exists s, fst (do_kop C k o) = pair_of s /\
        (o = Generate s \/ exists a, o = ImportSecret a /\ process_secret C a = Ok s)) \/
     (exists p a, fst (do_kop C k o) = only_public C p /\ o = ImportPublic a /\ process_public C a = Ok p))).
Proof.
  intros C os o k Hk. assert (k = new_key C) as E.
  { destruct (C53_keys_match C os) as [E|[(s & E)|(p & E)]]; [exact E| |]; fold k in E; rewrite E in Hk; discriminate. }
  split; [exact E|]. rewrite E. apply do_kop_new.
Qed.
Print Assumptions C53_first_key.

(** Objects that are neither bytes nor keys are refused with a TypeError, as imports and as the
    other party of an exchange; the object stays empty. *)
Theorem C53_other_objects_are_refused : forall C k,
  import_secret_key C (new_key C) SOther = (new_key C, Err TypeErr) /\
  import_public_key C (new_key C) POther = (new_key C, Err TypeErr) /\
  exchange C k POther = Err TypeErr.
Proof. repeat split. Qed.
Print Assumptions C53_other_objects_are_refused.

(** Under operating system threads this fails: the check and the two assignments
    are separate statements.  Both threads are told that they succeeded, and the
    object ends up with the secret key of one and the public key of the other. *)
Theorem C53_set_once_in_threads_refuted : forall C s q,
  exists sched, threads C sched (new_key C) (A115 C (SKey s)) (B143 C (PKey q)) =
    ({| k_secret := Some s; k_public := Some q |}, Finished C (Ok tt), Finished C (Ok tt)).
Proof. intros C s q. exists [false; true; true; false; false; true]. reflexivity. Qed.
Print Assumptions C53_set_once_in_threads_refuted.

(** ** C52: key exchanges agree *)

(** The diagrams of the documentation: a client with drawn secret key [a], a
    server with identity [s] and drawn secret key [b], passing public keys as
    bytes.  If the shared keys exist both sides end with the same object. *)
Theorem C52_2dh_run : forall C H KDF_DOMAIN salt DH2 s a b ad cd,
  lawful C -> xof H -> h_block_size H = 168 -> blen KDF_DOMAIN = 8 -> blen DH2 = 8 ->
  (forall p, blen (raw_public C p) < 2 ^ 64) ->
  dh C a (public_of C s) = Ok ad -> dh C a (public_of C b) = Ok cd ->
  exists x1 x2 y1 kdf,
    c2_send C a (PBytes (raw_public C (public_of C s))) (new_xch C) = (x1, Ok [raw_public C (public_of C a)]) /\
    s2_receive C H KDF_DOMAIN salt DH2 (pair_of s) b (PBytes (raw_public C (public_of C a))) (new_xch C) = (y1, Ok kdf) /\
    server_send C y1 = (y1, Ok [raw_public C (public_of C b)]) /\
    c2_receive C H KDF_DOMAIN salt DH2 (PBytes (raw_public C (public_of C b))) x1 = (x2, Ok kdf).
Proof.
  intros C H KD salt D2 s a b ad cd (R & Comm & L32) X B Lk Ld Lr E1 E2.
  pose proof (L32 _ _ _ E1) as L1. pose proof (L32 _ _ _ E2) as L2.
  destruct (new_kdf_total H KD salt D2 [raw_public C (public_of C a); raw_public C (public_of C s); raw_public C (public_of C b)] (ad ++ cd) X) as (p & Ep).
  - rewrite B. split; reflexivity.
  - intros E. apply (f_equal blen) in E. rewrite !blen_app, L1, L2, Ld in E. discriminate.
  - rewrite !blen_app, L1, L2, Ld. reflexivity.
  - repeat constructor; auto; [rewrite Lk|rewrite Ld]; reflexivity.
  - reflexivity.
  - eexists _, _, _, p. unfold c2_send, s2_receive, server_send, c2_receive, bindM, lift, ret, get, fresh_key, kdf, exchange_with, set_my_eph, set_peer_id, set_peer_eph.
    cbn -[new_kdf]. rewrite !R. cbn -[new_kdf]. split; [reflexivity|].
    unfold exchange. cbn -[new_kdf]. rewrite (Comm s a), (Comm b a), E1, E2. cbn -[new_kdf]. rewrite Ep. auto.
Qed.
Print Assumptions C52_2dh_run.

Theorem C52_3dh_run : forall C H KDF_DOMAIN salt DH3 c s a b ad bc cd,
  lawful C -> xof H -> h_block_size H = 168 -> blen KDF_DOMAIN = 8 -> blen DH3 = 8 ->
  (forall p, blen (raw_public C p) < 2 ^ 64) ->
  dh C a (public_of C s) = Ok ad -> dh C c (public_of C b) = Ok bc -> dh C a (public_of C b) = Ok cd ->
  exists x1 x2 y1 kdf,
    c3_send C (pair_of c) a (PBytes (raw_public C (public_of C s))) (new_xch C) =
      (x1, Ok [raw_public C (public_of C c); raw_public C (public_of C a)]) /\
    s3_receive C H KDF_DOMAIN salt DH3 (pair_of s) b (PBytes (raw_public C (public_of C c)))
      (PBytes (raw_public C (public_of C a))) (new_xch C) = (y1, Ok kdf) /\
    server_send C y1 = (y1, Ok [raw_public C (public_of C b)]) /\
    c3_receive C H KDF_DOMAIN salt DH3 (pair_of c) (PBytes (raw_public C (public_of C b))) x1 = (x2, Ok kdf).
Proof.
  intros C H KD salt D3 c s a b ad bc cd (R & Comm & L32) X B Lk Ld Lr E1 E2 E3.
  pose proof (L32 _ _ _ E1) as L1. pose proof (L32 _ _ _ E2) as L2. pose proof (L32 _ _ _ E3) as L3.
  destruct (new_kdf_total H KD salt D3 [raw_public C (public_of C c); raw_public C (public_of C a); raw_public C (public_of C s); raw_public C (public_of C b)] (ad ++ bc ++ cd) X) as (p & Ep).
  - rewrite B. split; reflexivity.
  - intros E. apply (f_equal blen) in E. rewrite !blen_app, L1, L2, L3, Ld in E. discriminate.
  - rewrite !blen_app, L1, L2, L3, Ld. reflexivity.
  - repeat constructor; auto; [rewrite Lk|rewrite Ld]; reflexivity.
  - reflexivity.
  - eexists _, _, _, p. unfold c3_send, s3_receive, server_send, c3_receive, bindM, lift, ret, get, fresh_key, kdf, exchange_with, set_my_eph, set_peer_id, set_peer_eph.
    cbn -[new_kdf]. rewrite !R. cbn -[new_kdf]. split; [reflexivity|].
    unfold exchange. cbn -[new_kdf]. rewrite (Comm s a), (Comm b c), (Comm b a), E1, E2, E3. cbn -[new_kdf]. rewrite Ep. auto.
Qed.
Print Assumptions C52_3dh_run.

(** In general.  Take any history of a client object and any history of a server
    object of the same protocol: synchronous calls, interleaved coroutines, failed
    attempts, and keys from anywhere.  If the sessions they ended up in have the
    same public keys in the same roles, the two key derivation objects they
    returned are the same. *)
Theorem C52_same_session_same_kdf : forall C H KDF_DOMAIN salt DH2 DH3 r1 r2 es1 es2 p1 p2,
  lawful C -> opposite r1 r2 ->
  let w1 := do_events C H KDF_DOMAIN salt DH2 DH3 r1 (new_world C (new_key C)) es1 in
  let w2 := do_events C H KDF_DOMAIN salt DH2 DH3 r2 (new_world C (new_key C)) es2 in
  In (Ok (Kdf p1)) (w_results w1) -> In (Ok (Kdf p2)) (w_results w2) ->
  session_of C r1 w1 = session_of C r2 w2 -> p1 = p2.
Proof.
  intros C H KD salt D2 D3 r1 r2 es1 es2 p1 p2 L Op w1 w2 I1 I2 ES.
  pose proof (history_inv C H KD salt D2 D3 r1 es1) as J1. pose proof (history_inv C H KD salt D2 D3 r2 es2) as J2.
  exact (opposite_agree C H KD salt D2 D3 r1 r2 w1 w2 p1 p2 _ _ L Op J1 J2 (i_results _ _ _ _ _ _ _ _ _ J1 _ I1) (i_results _ _ _ _ _ _ _ _ _ J2 _ I2) ES).
Qed.
Print Assumptions C52_same_session_same_kdf.

(** Conversely, whatever their roles and protocols: if two objects returned the
    same key derivation object, they took part in the same session - protocol and
    public keys in their roles - or the hash function collides on their first
    inputs. *)
Theorem C52_same_kdf_same_session : forall C H KDF_DOMAIN salt DH2 DH3 r1 r2 es1 es2 p,
  lawful C -> xof H -> h_block_size H = 168 -> blen DH2 = 8 -> blen DH3 = 8 -> DH2 <> DH3 ->
  let w1 := do_events C H KDF_DOMAIN salt DH2 DH3 r1 (new_world C (new_key C)) es1 in
  let w2 := do_events C H KDF_DOMAIN salt DH2 DH3 r2 (new_world C (new_key C)) es2 in
  In (Ok (Kdf p)) (w_results w1) -> In (Ok (Kdf p)) (w_results w2) ->
  exists s1 s2, session_of C r1 w1 = Some s1 /\ session_of C r2 w2 = Some s2 /\
    (s1 = s2 \/ exists k1 k2 y1 y2,
      first_input H KDF_DOMAIN (session_domain DH2 DH3 s1) (public_inputs s1) k1 y1 /\
      first_input H KDF_DOMAIN (session_domain DH2 DH3 s2) (public_inputs s2) k2 y2 /\
      KdfSpec.collision H (h_block_size H) y1 y2).
Proof.
  intros C H KD salt D2 D3 r1 r2 es1 es2 p L X B L2 L3 ND w1 w2 I1 I2.
  pose proof (history_inv C H KD salt D2 D3 r1 es1) as J1. pose proof (history_inv C H KD salt D2 D3 r2 es2) as J2.
  exact (same_kdf_same_session C H KD salt D2 D3 r1 r2 w1 w2 p L X B L2 L3 ND (i_results _ _ _ _ _ _ _ _ _ J1 _ I1) (i_results _ _ _ _ _ _ _ _ _ J2 _ I2)).
Qed.
Print Assumptions C52_same_kdf_same_session.

(** The session is what was exchanged: all messages an object ever returned are
    the public keys it has in the session, its ephemeral key was drawn by one of
    its calls, and the keys of the peer are those given to one of its calls. *)
Theorem C52_session_is_what_was_exchanged : forall C H KDF_DOMAIN salt DH2 DH3 r es,
  let w := do_events C H KDF_DOMAIN salt DH2 DH3 r (new_world C (new_key C)) es in
  (forall l, In (Ok (Messages l)) (w_results w) -> messages C r w = Some l) /\
  (forall k, my_eph (w_obj w) = Some k -> exists s c, In c (calls_of C es) /\ draws C c s /\ k = pair_of s) /\
  (forall p, peer_eph (w_obj w) = Some p -> exists s a1 a2, In (Receive s a1 a2) (calls_of C es) /\ process_public C a2 = Ok p) /\
  (forall p, peer_id (w_obj w) = Some p ->
     (client r /\ exists s a, In (Send s a) (calls_of C es) /\ process_public C a = Ok p) \/
     (r = Server3 /\ exists s a1 a2, In (Receive s a1 a2) (calls_of C es) /\ process_public C a1 = Ok p)).
Proof.
  intros C H KD salt D2 D3 r es w. destruct (history_inv C H KD salt D2 D3 r es) as [J1 (O1 & O2 & O3 & _) J3 J4 J5].
  split; [|auto]. intros l I. eapply messages_said, J4, I.
Qed.
Print Assumptions C52_session_is_what_was_exchanged.

(** ** C64: an exchange object is used for one exchange *)

(** In every history at most one key derivation object is returned. *)
Theorem C64_at_most_one_kdf : forall C H KDF_DOMAIN salt DH2 DH3 r es,
  (length (kdfs C (do_events C H KDF_DOMAIN salt DH2 DH3 r (new_world C (new_key C)) es)) <= 1)%nat.
Proof.
  intros C H KD salt D2 D3 r es. destruct (history_inv C H KD salt D2 D3 r es) as [_ _ _ _ J5].
  rewrite kdfs_total. unfold some_peer in J5. destruct (peer_eph _) in J5; lia.
Qed.
Print Assumptions C64_at_most_one_kdf.

(** Its secret keys are combined with no public key but those of the one session it
    takes part in, even in attempts that failed. *)
Theorem C64_secrets_meet_one_peer : forall C H KDF_DOMAIN salt DH2 DH3 r es s p,
  let w := do_events C H KDF_DOMAIN salt DH2 DH3 r (new_world C (new_key C)) es in
  In (s, p) (x_log (w_obj w)) ->
  (my_eph (w_obj w) = Some (pair_of s) \/ k_secret (w_id w) = Some s) /\
  (peer_id (w_obj w) = Some p \/ peer_eph (w_obj w) = Some p).
Proof.
  intros C H KD salt D2 D3 r es s p w. destruct (history_inv C H KD salt D2 D3 r es) as [_ (_ & _ & _ & O) _ _ _]. apply O.
Qed.
Print Assumptions C64_secrets_meet_one_peer.

(** A key of the session never changes: what is known at some point of a history is
    still so at the end. *)
Theorem C64_session_never_changes : forall C H KDF_DOMAIN salt DH2 DH3 r es1 es2 s,
  let w1 := do_events C H KDF_DOMAIN salt DH2 DH3 r (new_world C (new_key C)) es1 in
  let w2 := do_events C H KDF_DOMAIN salt DH2 DH3 r (new_world C (new_key C)) (es1 ++ es2) in
  session_of C r w1 = Some s -> session_of C r w2 = Some s.
Proof. exact session_stays. Qed.
Print Assumptions C64_session_never_changes.

(** A synchronous call has the effect of its asynchronous counterpart run without
    interruption. *)
Theorem C64_synchronous_calls : forall C H KDF_DOMAIN salt DH2 DH3 r w c,
  do_event C H KDF_DOMAIN salt DH2 DH3 r w (Sync c) =
  do_events C H KDF_DOMAIN salt DH2 DH3 r w (Start c :: repeat (Resume (length (w_tasks w))) 4).
Proof. exact sync_is_async. Qed.
Print Assumptions C64_synchronous_calls.

(** A server object is spent by its first call of [receive], even if that fails
    because of what the client sent... *)
Theorem C64_server_spent_by_any_receive : forall C H KDF_DOMAIN salt DH2 DH3 r id x s1 a1 a2 id' s2 b1 b2,
  r = Server2 \/ r = Server3 ->
  let x' := fst (call_sync C H KDF_DOMAIN salt DH2 DH3 r id (Receive s1 a1 a2) x) in
  call_sync C H KDF_DOMAIN salt DH2 DH3 r id' (Receive s2 b1 b2) x' = (x', Err PermissionErr).
Proof. exact server_spent. Qed.
Print Assumptions C64_server_spent_by_any_receive.

(** ... whereas a client that received bytes which are no key is as before. *)
Theorem C64_client_survives_malformed_keys : forall C H KDF_DOMAIN salt DH2 DH3 r id x s a1 a2 e,
  client r -> process_public C a2 = Err e ->
  exists e', call_sync C H KDF_DOMAIN salt DH2 DH3 r id (Receive s a1 a2) x = (x, Err e').
Proof. exact client_survives. Qed.
Print Assumptions C64_client_survives_malformed_keys.

(** ** C65: signatures *)

(** What one object signs is accepted by every object that holds its public key,
    and by any object given that key, as bytes or as a key. *)
Theorem C65_signatures_verify : forall C os s data sig k,
  signs C -> (forall p, from_public C (raw_public C p) = Ok p) ->
  do_kops C (new_key C) os = pair_of s -> sign C (pair_of s) data = Ok sig ->
  verify C (pair_of s) sig data None = Ok tt /\
  verify C (only_public C (public_of C s)) sig data None = Ok tt /\
  verify C k sig data (Some (PKey (public_of C s))) = Ok tt /\
  verify C k sig data (Some (PBytes (raw_public C (public_of C s)))) = Ok tt.
Proof.
  intros C os s data sig k S R _ E. cbn in E. injection E as <-. unfold verify. cbn. rewrite R. cbn. rewrite !S. auto.
Qed.
Print Assumptions C65_signatures_verify.

(** [verify] returns only if the signature is valid for the key given, or else for
    the key of the object; objects without the key needed raise AttributeError. *)
Theorem C65_verify_accepts_only_valid : forall C k sig data a,
  verify C k sig data a = Ok tt <->
  exists p, match a with Some a => process_public C a = Ok p | None => k_public k = Some p end /\ ed_verify C p sig data = true.
Proof.
  intros C k sig data a. unfold verify. split.
  - intros E. apply bind_ok in E as (p & Ep & E). exists p. split.
    + destruct a; [exact Ep|]. destruct (k_public k); [|discriminate]. now injection Ep as ->.
    + destruct (ed_verify C p sig data); [reflexivity|discriminate].
  - intros (p & Ep & E). destruct a as [a|]; [rewrite Ep|rewrite Ep]; cbn; now rewrite E.
Qed.
Print Assumptions C65_verify_accepts_only_valid.

Theorem C65_keys_needed : forall C k data sig,
  (k_secret k = None -> sign C k data = Err AttributeErr) /\
  (k_public k = None -> verify C k sig data None = Err AttributeErr).
Proof. intros C k data sig. unfold sign, verify. split; intros ->; reflexivity. Qed.
Print Assumptions C65_keys_needed.

(** ** Concrete cases *)

(** A toy curve: keys are byte strings, shared keys are products. *)
Definition toy_curve : curve := {|
  secret := bytes;
  public := bytes;
  from_private := fun b => if blen b =? 3 then Ok b else Err ValueErr;
  from_public := fun b => match b with x00 :: p => Ok p | _ => Err ValueErr end;
  public_of := fun s => s;
  raw_secret := fun s => s;
  raw_public := fun p => x00 :: p;
  dh := fun s p => if be_int s * be_int p =? 0 then Err ValueErr else Ok (be_enc 32 (be_int s * be_int p));
  ed_sign := fun s data => s ++ data;
  ed_verify := fun p sig data => bytes_eqb sig (p ++ data);
|}.
Definition curve_shake : hasher := shake_128_like (fun x n => repeat (nth 3 x x00) (N.to_nat n)).
Definition toy_run r es := do_events toy_curve curve_shake (repeat x09 8) (repeat x05 8) (repeat x02 8) (repeat x03 8) r (new_world toy_curve (new_key toy_curve)) es.
(** A client and a server, the server asynchronous with a refused second call in
    between. *)
Definition toy_client := toy_run Client2 [Sync ((@Send toy_curve) [x02] ((@PBytes toy_curve) [x00; x05])); Sync ((@Receive toy_curve) [] (@POther toy_curve) ((@PBytes toy_curve) [])); Sync ((@Receive toy_curve) [] (@POther toy_curve) ((@PBytes toy_curve) [x00; x07]))].
Definition toy_server := toy_run Server2 [Ident ((@Generate toy_curve) [x05]); Start ((@Receive toy_curve) [x07] (@POther toy_curve) ((@PBytes toy_curve) [x00; x02])); Start ((@Receive toy_curve) [x08] (@POther toy_curve) ((@PBytes toy_curve) [x00; x06]));
  Resume 0; Resume 0; Resume 0; Resume 0; Sync (@SendBack toy_curve)].
Definition toy_client3 := toy_run Client3 [Ident ((@ImportSecret toy_curve) ((@SBytes toy_curve) [x03; x03; x03])); Start ((@Send toy_curve) [x02] ((@PKey toy_curve) [x05])); Resume 0; Sync ((@Receive toy_curve) [] (@POther toy_curve) ((@PBytes toy_curve) [x00; x07]))].
Definition toy_server3 := toy_run Server3 [Ident ((@Generate toy_curve) [x05]); Sync ((@Receive toy_curve) [x07] ((@PBytes toy_curve) [x00; x03; x03; x03]) ((@PBytes toy_curve) [x00; x02]))].

Example C52_case_laws : lawful toy_curve /\ signs toy_curve /\ xof curve_shake /\ h_block_size curve_shake = 168.
Proof.
  split; [|split; [|split]].
  - split; [reflexivity|]. split.
    + intros a b. cbn. now rewrite (N.mul_comm (be_int b)).
    + intros s p b. cbn. destruct (_ =? 0); [discriminate|]. intros E. injection E as <-. apply blen_be_enc.
  - intros s data. cbn. apply bytes_eqb_refl.
  - split; [reflexivity|]. split; [reflexivity|]. intros x n. unfold blen. cbn. rewrite repeat_length. lia.
  - reflexivity.
Qed.
Example C52_case : exists p q,
  kdfs toy_curve toy_client = [p] /\ kdfs toy_curve toy_server = [p] /\ kdfs toy_curve toy_client3 = [q] /\ kdfs toy_curve toy_server3 = [q] /\
  map is_ok (w_results toy_client) = [true; false; true] /\ map is_ok (w_results toy_server) = [false; true; true] /\
  session_of toy_curve Client2 toy_client = session_of toy_curve Server2 toy_server /\
  session_of toy_curve Client3 toy_client3 = session_of toy_curve Server3 toy_server3 /\
  session_of toy_curve Client3 toy_client3 <> None /\ session_of toy_curve Client2 toy_client <> None /\
  messages toy_curve Client2 toy_client = Some [[x00; x02]] /\
  x_log (w_obj toy_client3) = [([x02], [x05]); ([x03; x03; x03], [x07]); ([x02], [x07])].
Proof. eexists. eexists. vm_compute. repeat split; discriminate. Qed.
Example C52_case_runs : exists ad bc cd, dh toy_curve [x02] (public_of toy_curve [x05]) = Ok ad /\
  dh toy_curve [x03] (public_of toy_curve [x07]) = Ok bc /\ dh toy_curve [x02] (public_of toy_curve [x07]) = Ok cd.
Proof. do 3 eexists. vm_compute. auto. Qed.
(** A refused import, then a secret key, then refusals. *)
Example C53_case :
  let os := [(@ImportSecret toy_curve) ((@SBytes toy_curve) []); (@ImportPublic toy_curve) (@POther toy_curve); (@ImportSecret toy_curve) ((@SBytes toy_curve) [x01; x02; x03])] in
  has_public_key (do_kops toy_curve (new_key toy_curve) (firstn 2 os)) = false /\
  has_public_key (do_kops toy_curve (new_key toy_curve) os) = true /\
  do_kops toy_curve (new_key toy_curve) (os ++ [(@Generate toy_curve) [x07]; (@ImportPublic toy_curve) ((@PKey toy_curve) [])]) = (@pair_of toy_curve) [x01; x02; x03].
Proof. vm_compute. auto. Qed.
Example C65_case : sign toy_curve ((@pair_of toy_curve) [x01]) [x02] = Ok [x01; x02] /\
  verify toy_curve (new_key toy_curve) [x01; x02] [x02] (Some ((@PBytes toy_curve) [x00; x01])) = Ok tt /\
  verify toy_curve (new_key toy_curve) [x01; x02] [x03] (Some ((@PBytes toy_curve) [x00; x01])) = Err InvalidSignature.
Proof. vm_compute. auto. Qed.
Example C64_case : process_public toy_curve ((@PBytes toy_curve) []) = Err ValueErr.
Proof. reflexivity. Qed.
