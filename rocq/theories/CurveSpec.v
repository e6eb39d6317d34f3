(** * Curve keys and exchanges: vocabulary of the specification *)
From Verif Require Import Base CanonModel KdfModel KdfSpec CurveModel.
Local Open Scope N_scope.

Section Spec.
Variable C : curve.

(** What is assumed of the cryptography package: public keys survive the round
    trip through bytes, both ends of an exchange obtain the same result, and
    shared keys have 32 bytes. *)
Definition lawful : Prop :=
  (forall p, from_public C (raw_public C p) = Ok p) /\
  (forall a b, dh C a (public_of C b) = dh C b (public_of C a)) /\
  (forall s p b, dh C s p = Ok b -> blen b = 32).

(** A signature made with a secret key is accepted for its public key. *)
Definition signs : Prop := forall s data, ed_verify C (public_of C s) (ed_sign C s data) data = true.

(** The object holding a secret key and its public key. *)
Definition pair_of (s : secret C) : key C := {| k_secret := Some s; k_public := Some (public_of C s) |}.
Definition only_public (p : public C) : key C := {| k_secret := None; k_public := Some p |}.

(** A session as both ends see it: which protocol, and the public keys of client
    and server.  2DH clients have no identity key. *)
Record session := {
  s_protocol : N;
  s_client_id : option bytes;
  s_client_eph : bytes;
  s_server_id : bytes;
  s_server_eph : bytes;
}.

Definition raw_of (k : key C) : option bytes := option_map (raw_public C) (k_public k).

(** The session an exchange object takes part in, once all keys are known. *)
Definition session_of (r : role) (w : world C) : option session :=
  match my_eph (w_obj w) with
  | None => None
  | Some eph =>
    let mine := raw_of eph in
    let id := raw_of (w_id w) in
    let pid := option_map (raw_public C) (peer_id (w_obj w)) in
    let peph := option_map (raw_public C) (peer_eph (w_obj w)) in
    match r with
    | Client2 =>
      match mine, pid, peph with
      | Some e, Some p, Some q => Some {| s_protocol := 2; s_client_id := None; s_client_eph := e; s_server_id := p; s_server_eph := q |}
      | _, _, _ => None
      end
    | Server2 =>
      match peph, id, mine with
      | Some q, Some i, Some e => Some {| s_protocol := 2; s_client_id := None; s_client_eph := q; s_server_id := i; s_server_eph := e |}
      | _, _, _ => None
      end
    | Client3 =>
      match id, mine, pid, peph with
      | Some i, Some e, Some p, Some q => Some {| s_protocol := 3; s_client_id := Some i; s_client_eph := e; s_server_id := p; s_server_eph := q |}
      | _, _, _, _ => None
      end
    | Server3 =>
      match pid, peph, id, mine with
      | Some p, Some q, Some i, Some e => Some {| s_protocol := 3; s_client_id := Some p; s_client_eph := q; s_server_id := i; s_server_eph := e |}
      | _, _, _, _ => None
      end
    end
  end.

Definition client (r : role) : Prop := r = Client2 \/ r = Client3.
Definition opposite (r1 r2 : role) : Prop :=
  (r1 = Client2 /\ r2 = Server2) \/ (r1 = Client3 /\ r2 = Server3).

(** What a session contributes to the hash input, in order. *)
Definition public_inputs (s : session) : list bytes :=
  match s_client_id s with
  | None => [s_client_eph s; s_server_id s; s_server_eph s]
  | Some i => [i; s_client_eph s; s_server_id s; s_server_eph s]
  end.
Definition session_domain (DH2 DH3 : bytes) (s : session) : bytes :=
  if s_protocol s =? 2 then DH2 else DH3.

(** What an object sends to its peer. *)
Definition messages (r : role) (w : world C) : option (list bytes) :=
  match my_eph (w_obj w) with
  | None => None
  | Some eph =>
    match r, raw_of eph, raw_of (w_id w) with
    | Client3, Some e, Some i => Some [i; e]
    | Client3, _, _ => None
    | _, Some e, _ => Some [e]
    | _, _, _ => None
    end
  end.

(** The calls made in a history. *)
Definition calls_of (es : list (event C)) : list (xcall C) :=
  flat_map (fun e => match e with Sync c | Start c => [c] | _ => [] end) es.

(** The secret key drawn by a call. *)
Definition draws (c : xcall C) (s : secret C) : Prop :=
  (exists a, c = Send s a) \/ (exists a1 a2, c = Receive s a1 a2).

(** The key derivation objects a history returned. *)
Definition kdfs (w : world C) : list payload :=
  flat_map (fun r => match r with Ok (Kdf p) => [p] | _ => [] end) (w_results w).

End Spec.
Arguments pair_of {C} s.
