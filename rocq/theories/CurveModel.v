(** * Model of aiootp/keygens/curve_25519: key objects, exchanges, signatures.

    The elliptic curve operations of the cryptography package are parameters.
    The Python attributes of an object are optional values: [None] stands for an
    unset slot, whose reading raises AttributeError. *)
From Verif Require Import Base CanonModel KdfModel.
Local Open Scope N_scope.

(** ** The cryptography package *)

(** X25519PrivateKey / Ed25519PrivateKey and the public key classes:
    [from_private_bytes], [from_public_bytes] (ValueError for a wrong length),
    [public_key()], [public_bytes_raw()], [private_bytes_raw()], [exchange]
    (ValueError for a degenerate shared key), [sign] and [verify]. *)
Record curve := {
  secret : Type;
  public : Type;
  from_private : bytes -> result secret;
  from_public : bytes -> result public;
  public_of : secret -> public;
  raw_secret : secret -> bytes;
  raw_public : public -> bytes;
  dh : secret -> public -> result bytes;
  ed_sign : secret -> bytes -> bytes;
  ed_verify : public -> bytes -> bytes -> bool;
}.

Section Curve.
Variable C : curve.

(** What a caller can pass for a key: bytes, a key of the right class, or an object of any other
    class. The argument of shared_interface.py 56-73. *)
Inductive sarg := SBytes (b : bytes) | SKey (s : secret C) | SOther.
(** The argument of shared_interface.py 75-92. *)
Inductive parg := PBytes (b : bytes) | PKey (p : public C) | POther.

(** ** Key objects *)

(** shared_interface.py 42: the slots [_secret_key] and [_public_key], both set to
    the value None by [__init__] (47-54). *)
Record key := { k_secret : option (secret C); k_public : option (public C) }.
(** shared_interface.py 47-54 [__init__]. *)
Definition new_key : key := {| k_secret := None; k_public := None |}.

(** shared_interface.py 56-73 [_process_secret_key], 75-92 [_process_public_key]. *)
Definition process_secret (a : sarg) : result (secret C) :=
  match a with
  | SBytes b => from_private C b
  | SKey s => Ok s
  | SOther => Err TypeErr
  end.
(** shared_interface.py 75-92 [_process_public_key]. *)
Definition process_public (a : parg) : result (public C) :=
  match a with
  | PBytes b => from_public C b
  | PKey p => Ok p
  | POther => Err TypeErr
  end.

(** shared_interface.py 190-200. *)
Definition is_some {A} (o : option A) : bool := match o with Some _ => true | None => false end.
(** shared_interface.py 190-194 [has_secret_key]. *)
Definition has_secret_key (k : key) : bool := is_some (k_secret k).
(** shared_interface.py 196-200 [has_public_key]. *)
Definition has_public_key (k : key) : bool := is_some (k_public k).

(** shared_interface.py 106-120 [import_secret_key]: the state after the call and
    the exception, if any.  94-104 [aimport_secret_key] sleeps and then makes this
    call, without further suspension. *)
Definition import_secret_key (k : key) (a : sarg) : key * result unit :=
  if has_public_key k then (k, Err PermissionErr)
  else
    match process_secret a with
    | Err e => (k, Err e)
    | Ok s =>
      let k1 := {| k_secret := Some s; k_public := k_public k |} in
      match k_secret k1 with
      | None => (k1, Err AttributeErr)
      | Some s' => ({| k_secret := k_secret k1; k_public := Some (public_of C s') |}, Ok tt)
      end
    end.

(** shared_interface.py 134-148 [import_public_key], 122-132 [aimport_public_key]. *)
Definition import_public_key (k : key) (a : parg) : key * result unit :=
  if has_public_key k then (k, Err PermissionErr)
  else
    let k1 := {| k_secret := None; k_public := k_public k |} in
    match process_public a with
    | Err e => (k1, Err e)
    | Ok p => ({| k_secret := k_secret k1; k_public := Some p |}, Ok tt)
    end.

(** shared_interface.py 156-160 [generate], 150-154 [agenerate]; [s] is what
    [SecretKey.generate()] returns. *)
Definition generate (k : key) (s : secret C) : key * result unit := import_secret_key k (SKey s).

(** shared_interface.py 162-188. *)
Definition secret_bytes (k : key) : result bytes :=
  match k_secret k with Some s => Ok (raw_secret C s) | None => Err AttributeErr end.
(** shared_interface.py 183-188 [public_bytes]. *)
Definition public_bytes (k : key) : result bytes :=
  match k_public k with Some p => Ok (raw_public C p) | None => Err AttributeErr end.

(** x25519.py 93-101 [exchange], 78-91 [aexchange].  An argument which is neither
    bytes nor a public key is refused by the cryptography package. *)
Definition exchange (k : key) (a : parg) : result bytes :=
  p <- process_public a ;;
  match k_secret k with
  | Some s => dh C s p
  | None => Err AttributeErr
  end.

(** ed25519.py 85-89 [sign], 78-83 [asign]. *)
Definition sign (k : key) (data : bytes) : result bytes :=
  match k_secret k with Some s => Ok (ed_sign C s data) | None => Err AttributeErr end.

(** ed25519.py 108-126 [verify], 91-106 [averify]: returns, or raises
    InvalidSignature. *)
Definition verify (k : key) (signature data : bytes) (public_key : option parg) : result unit :=
  p <- (match public_key with
        | None => match k_public k with Some p => Ok p | None => Err AttributeErr end
        | Some a => process_public a
        end) ;;
  if ed_verify C p signature data then Ok tt else Err InvalidSignature.

(** All calls that can change a key object.  Assigning or deleting an attribute is
    refused by instances.py 67-79: both slots have a value since [__init__]. *)
Inductive kop :=
| ImportSecret (a : sarg)
| ImportPublic (a : parg)
| Generate (s : secret C)
| SetAttr
| DelAttr.
(** shared_interface.py 106-160: one call. *)
Definition do_kop (k : key) (o : kop) : key * result unit :=
  match o with
  | ImportSecret a => import_secret_key k a
  | ImportPublic a => import_public_key k a
  | Generate s => generate k s
  | SetAttr => (k, Err PermissionErr)
  | DelAttr => (k, Err PermissionErr)
  end.
(** No counterpart: calls one after another. *)
Definition do_kops (k : key) (os : list kop) : key := fold_left (fun k o => fst (do_kop k o)) os k.

(** Two operating system threads can be interleaved between any two statements of
    lines 115-119 and 143-147.  [A..] are the program points of
    [import_secret_key], [B..] those of [import_public_key]. *)
Inductive point :=
| A115 (a : sarg) | A118 (a : sarg) | A119
| B143 (a : parg) | B146 (a : parg) | B147 (a : parg)
| Finished (r : result unit).
(** shared_interface.py 115-119, 143-147: one statement. *)
Definition thread_step (k : key) (p : point) : key * point :=
  match p with
  | A115 a => if has_public_key k then (k, Finished (Err PermissionErr)) else (k, A118 a)
  | A118 a =>
    match process_secret a with
    | Err e => (k, Finished (Err e))
    | Ok s => ({| k_secret := Some s; k_public := k_public k |}, A119)
    end
  | A119 =>
    match k_secret k with
    | None => (k, Finished (Err AttributeErr))
    | Some s => ({| k_secret := k_secret k; k_public := Some (public_of C s) |}, Finished (Ok tt))
    end
  | B143 a => if has_public_key k then (k, Finished (Err PermissionErr)) else (k, B146 a)
  | B146 a => ({| k_secret := None; k_public := k_public k |}, B147 a)
  | B147 a =>
    match process_public a with
    | Err e => (k, Finished (Err e))
    | Ok q => ({| k_secret := k_secret k; k_public := Some q |}, Finished (Ok tt))
    end
  | Finished r => (k, Finished r)
  end.
(** [false] runs a statement of the first thread, [true] one of the second. No counterpart: the
    operating system interleaves shared_interface.py 106-148. *)
Fixpoint threads (sched : list bool) (k : key) (p q : point) : key * point * point :=
  match sched with
  | [] => (k, p, q)
  | false :: sched => let (k, p) := thread_step k p in threads sched k p q
  | true :: sched => let (k, q) := thread_step k q in threads sched k p q
  end.

(** ** Diffie-Hellman exchange objects *)

(** double_/triple_diffie_hellman_client/server.py [__slots__]. [x_log] is not an attribute: it
    collects the calls of the cryptography package's [exchange] made on behalf of the object.
    The identity key is an object shared with the caller, so it is an argument of every step
    instead. double_diffie_hellman_client.py 59-66, double_diffie_hellman_server.py 59-66,
    triple_diffie_hellman_client.py 61-69, triple_diffie_hellman_server.py 61-69. *)
Record xch := {
  my_eph : option key;
  peer_id : option (public C);
  peer_eph : option (public C);
  x_log : list (secret C * public C);
}.
(** double_diffie_hellman_client.py 68-85 and the same methods of the other three classes. *)
Definition new_xch : xch := {| my_eph := None; peer_id := None; peer_eph := None; x_log := [] |}.

(** Python statements acting on such an object: new state, and a value or an exception. No
    counterpart: the meaning of statements. *)
Definition M A := xch -> xch * result A.
(** No counterpart: a value. *)
Definition ret {A} (a : A) : M A := fun x => (x, Ok a).
(** No counterpart: an expression that does not change the object. *)
Definition lift {A} (r : result A) : M A := fun x => (x, r).
(** No counterpart: one statement after another; an exception ends the method. *)
Definition bindM {A B} (m : M A) (k : A -> M B) : M B := fun x =>
  match m x with
  | (x, Ok a) => k a x
  | (x, Err e) => (x, Err e)
  end.
Local Notation "x <~ e ; k" := (bindM e (fun x => k)) (at level 61, e at next level, right associativity).

(** No counterpart: reading a slot, an AttributeError if it is unset. *)
Definition get {A} (slot : xch -> option A) : M A := fun x =>
  (x, match slot x with Some a => Ok a | None => Err AttributeErr end).
(** instances.py 67-73 [__setattr__]: an attribute which has a value is refused. *)
Definition set_my_eph (k : key) : M unit := fun x =>
  match my_eph x with
  | Some _ => (x, Err PermissionErr)
  | None => ({| my_eph := Some k; peer_id := peer_id x; peer_eph := peer_eph x; x_log := x_log x |}, Ok tt)
  end.
(** instances.py 67-73, for [_peer_identity_key]. *)
Definition set_peer_id (p : public C) : M unit := fun x =>
  match peer_id x with
  | Some _ => (x, Err PermissionErr)
  | None => ({| my_eph := my_eph x; peer_id := Some p; peer_eph := peer_eph x; x_log := x_log x |}, Ok tt)
  end.
(** instances.py 67-73, for [_peer_ephemeral_key]. *)
Definition set_peer_eph (p : public C) : M unit := fun x =>
  match peer_eph x with
  | Some _ => (x, Err PermissionErr)
  | None => ({| my_eph := my_eph x; peer_id := peer_id x; peer_eph := Some p; x_log := x_log x |}, Ok tt)
  end.
(** [exchange] above with a public key, recording the call. x25519.py 93-101. *)
Definition exchange_with (k : key) (p : public C) : M bytes := fun x =>
  ({| my_eph := my_eph x; peer_id := peer_id x; peer_eph := peer_eph x;
      x_log := match k_secret k with Some s => x_log x ++ [(s, p)] | None => x_log x end |},
   exchange k (PKey p)).

(** [self._key_exchange_type().generate()]: a new object; [s] is the secret key drawn by the
    cryptography package. shared_interface.py 156-160, as in double_diffie_hellman_client.py
    100-107. *)
Definition fresh_key (s : secret C) : M key :=
  let (k, r) := generate new_key s in u <~ lift r ; ret k.

(** The key derivation function and its domain constants. *)
Variable shake_128 : hasher.
Variables KDF_DOMAIN salt : bytes.
Variables DH2 DH3 : bytes.
(** double_diffie_hellman_client.py 151-157, double_diffie_hellman_server.py 134-140,
    triple_diffie_hellman_client.py 172-179, triple_diffie_hellman_server.py 148-155: the key
    derivation function returned. *)
Definition kdf (domain : bytes) (data : list bytes) (key : bytes) : result payload :=
  new_kdf shake_128 KDF_DOMAIN salt domain data key.

(** double_diffie_hellman_client.py 100-107. *)
Definition c2_send (s : secret C) (a : parg) : M (list bytes) :=
  p <~ lift (process_public a) ;
  u <~ set_peer_id p ;
  k <~ fresh_key s ;
  u <~ set_my_eph k ;
  k <~ get my_eph ;
  b <~ lift (public_bytes k) ;
  ret [b].

(** double_diffie_hellman_client.py 134-157. *)
Definition c2_receive (a : parg) : M payload :=
  my_ephemeral_key <~ get my_eph ;
  peer_identity_key <~ get peer_id ;
  peer_ephemeral_key <~ lift (process_public a) ;
  u <~ set_peer_eph peer_ephemeral_key ;
  ad <~ exchange_with my_ephemeral_key peer_identity_key ;
  cd <~ exchange_with my_ephemeral_key peer_ephemeral_key ;
  b <~ lift (public_bytes my_ephemeral_key) ;
  pid <~ get peer_id ;
  peph <~ get peer_eph ;
  lift (kdf DH2 [b; raw_public C pid; raw_public C peph] (ad ++ cd)).

(** double_diffie_hellman_server.py 115-140. *)
Definition s2_receive (my_identity_key : key) (s : secret C) (a : parg) : M payload :=
  my_ephemeral_key <~ fresh_key s ;
  u <~ set_my_eph my_ephemeral_key ;
  peer_ephemeral_key <~ lift (process_public a) ;
  u <~ set_peer_eph peer_ephemeral_key ;
  ad <~ exchange_with my_identity_key peer_ephemeral_key ;
  cd <~ exchange_with my_ephemeral_key peer_ephemeral_key ;
  i <~ lift (public_bytes my_identity_key) ;
  e <~ lift (public_bytes my_ephemeral_key) ;
  lift (kdf DH2 [raw_public C peer_ephemeral_key; i; e] (ad ++ cd)).

(** double_diffie_hellman_server.py 142-154, triple_diffie_hellman_server.py
    157-169. *)
Definition server_send : M (list bytes) :=
  k <~ get my_eph ;
  b <~ lift (public_bytes k) ;
  ret [b].

(** triple_diffie_hellman_client.py 108-123. *)
Definition c3_send (my_identity_key : key) (s : secret C) (a : parg) : M (list bytes) :=
  p <~ lift (process_public a) ;
  u <~ set_peer_id p ;
  k <~ fresh_key s ;
  u <~ set_my_eph k ;
  i <~ lift (public_bytes my_identity_key) ;
  k <~ get my_eph ;
  b <~ lift (public_bytes k) ;
  ret [i; b].

(** triple_diffie_hellman_client.py 153-179. *)
Definition c3_receive (my_identity_key : key) (a : parg) : M payload :=
  my_ephemeral_key <~ get my_eph ;
  peer_identity_key <~ get peer_id ;
  peer_ephemeral_key <~ lift (process_public a) ;
  u <~ set_peer_eph peer_ephemeral_key ;
  ad <~ exchange_with my_ephemeral_key peer_identity_key ;
  bc <~ exchange_with my_identity_key peer_ephemeral_key ;
  cd <~ exchange_with my_ephemeral_key peer_ephemeral_key ;
  i <~ lift (public_bytes my_identity_key) ;
  e <~ lift (public_bytes my_ephemeral_key) ;
  lift (kdf DH3 [i; e; raw_public C peer_identity_key; raw_public C peer_ephemeral_key] (ad ++ bc ++ cd)).

(** triple_diffie_hellman_server.py 124-155. *)
Definition s3_receive (my_identity_key : key) (s : secret C) (a1 a2 : parg) : M payload :=
  my_ephemeral_key <~ fresh_key s ;
  u <~ set_my_eph my_ephemeral_key ;
  peer_identity_key <~ lift (process_public a1) ;
  u <~ set_peer_id peer_identity_key ;
  peer_ephemeral_key <~ lift (process_public a2) ;
  u <~ set_peer_eph peer_ephemeral_key ;
  ad <~ exchange_with my_identity_key peer_ephemeral_key ;
  bc <~ exchange_with my_ephemeral_key peer_identity_key ;
  cd <~ exchange_with my_ephemeral_key peer_ephemeral_key ;
  i <~ lift (public_bytes my_identity_key) ;
  e <~ lift (public_bytes my_ephemeral_key) ;
  lift (kdf DH3 [raw_public C peer_identity_key; raw_public C peer_ephemeral_key; i; e] (ad ++ bc ++ cd)).

(** ** The asynchronous methods

    A coroutine runs without interruption up to its next [await] of a sleep.  The
    sleeps are those in [agenerate] (shared_interface.py 103: after the secret key
    was drawn, before it is imported) and at the start of every [aexchange]
    (x25519.py 88).  A task records where it is suspended and its local
    variables. *)
Inductive role := Client2 | Server2 | Client3 | Server3.

(** No counterpart: which of its own keys a coroutine is using. *)
Inductive who := Identity | Ephemeral.
(** No counterpart: a suspended coroutine of one of the methods above. *)
Inductive task :=
| SendGen (s : secret C)
| RecvGen (s : secret C) (a1 a2 : parg)
| Exchanging (todo : list (who * public C)) (shared : bytes) (eph : key) (pid : option (public C)) (peph : public C).

(** No counterpart: what the methods return. *)
Inductive value := Messages (l : list bytes) | Kdf (p : payload).
(** No counterpart: a coroutine has ended or is suspended. *)
Inductive outcome := Done (v : value) | Suspended (t : task).

(** The calls: [Send] and [Receive] of a client, or [Receive] and [SendBack] of a
    server.  [s] is the secret key that will be drawn.  A 2DH server ignores the
    first argument of [Receive]. *)
Inductive xcall :=
| Send (s : secret C) (a : parg)
| Receive (s : secret C) (a1 a2 : parg)
| SendBack.

(** No counterpart: a client has no [send] of a server and so on. *)
Definition no_method {A} : M A := lift (Err AttributeErr).

(** The rest of a method after its exchanges. double_diffie_hellman_client.py 126-132,
    double_diffie_hellman_server.py 107-113, triple_diffie_hellman_client.py 144-151,
    triple_diffie_hellman_server.py 115-122. *)
Definition finish (r : role) (id eph : key) (pid : option (public C)) (peph : public C) (shared : bytes) : M outcome :=
  match r with
  | Client2 =>
    (* double_diffie_hellman_client.py 126-132 *)
    b <~ lift (public_bytes eph) ;
    p <~ get peer_id ;
    q <~ get peer_eph ;
    k <~ lift (kdf DH2 [b; raw_public C p; raw_public C q] shared) ;
    ret (Done (Kdf k))
  | Server2 =>
    (* double_diffie_hellman_server.py 107-113 *)
    i <~ lift (public_bytes id) ;
    e <~ lift (public_bytes eph) ;
    k <~ lift (kdf DH2 [raw_public C peph; i; e] shared) ;
    ret (Done (Kdf k))
  | Client3 =>
    (* triple_diffie_hellman_client.py 144-151 *)
    i <~ lift (public_bytes id) ;
    e <~ lift (public_bytes eph) ;
    p <~ lift (match pid with Some p => Ok p | None => Err AttributeErr end) ;
    k <~ lift (kdf DH3 [i; e; raw_public C p; raw_public C peph] shared) ;
    ret (Done (Kdf k))
  | Server3 =>
    (* triple_diffie_hellman_server.py 115-122 *)
    p <~ lift (match pid with Some p => Ok p | None => Err AttributeErr end) ;
    i <~ lift (public_bytes id) ;
    e <~ lift (public_bytes eph) ;
    k <~ lift (kdf DH3 [raw_public C p; raw_public C peph; i; e] shared) ;
    ret (Done (Kdf k))
  end.

(** The part of a coroutine from its call to the first sleep. double_diffie_hellman_client.py
    87-132, double_diffie_hellman_server.py 88-113, 142-147, triple_diffie_hellman_client.py
    91-151, triple_diffie_hellman_server.py 91-122, 157-162. *)
Definition start (r : role) (id : key) (c : xcall) : M outcome :=
  match r, c with
  | (Client2 | Client3), Send s a =>
    (* double_diffie_hellman_client.py 96-97, triple_diffie_hellman_client.py 101-102 *)
    p <~ lift (process_public a) ;
    u <~ set_peer_id p ;
    ret (Suspended (SendGen s))
  | Client2, Receive _ _ a =>
    (* double_diffie_hellman_client.py 119-124 *)
    eph <~ get my_eph ;
    pid <~ get peer_id ;
    peph <~ lift (process_public a) ;
    u <~ set_peer_eph peph ;
    ret (Suspended (Exchanging [(Ephemeral, pid); (Ephemeral, peph)] [] eph (Some pid) peph))
  | Client3, Receive _ _ a =>
    (* triple_diffie_hellman_client.py 135-141 *)
    eph <~ get my_eph ;
    pid <~ get peer_id ;
    peph <~ lift (process_public a) ;
    u <~ set_peer_eph peph ;
    ret (Suspended (Exchanging [(Ephemeral, pid); (Identity, peph); (Ephemeral, peph)] [] eph (Some pid) peph))
  | (Server2 | Server3), Receive s a1 a2 => ret (Suspended (RecvGen s a1 a2))
  | (Server2 | Server3), SendBack => l <~ server_send ; ret (Done (Messages l))
  | _, _ => no_method
  end.

(** The part of a coroutine from a sleep to the next one, or to its end. The same lines. *)
Definition resume (r : role) (id : key) (t : task) : M outcome :=
  match t with
  | SendGen s =>
    k <~ fresh_key s ;
    u <~ set_my_eph k ;
    match r with
    | Client3 =>
      i <~ lift (public_bytes id) ;
      k <~ get my_eph ;
      b <~ lift (public_bytes k) ;
      ret (Done (Messages [i; b]))
    | _ =>
      k <~ get my_eph ;
      b <~ lift (public_bytes k) ;
      ret (Done (Messages [b]))
    end
  | RecvGen s a1 a2 =>
    eph <~ fresh_key s ;
    u <~ set_my_eph eph ;
    match r with
    | Server3 =>
      pid <~ lift (process_public a1) ;
      u <~ set_peer_id pid ;
      peph <~ lift (process_public a2) ;
      u <~ set_peer_eph peph ;
      ret (Suspended (Exchanging [(Identity, peph); (Ephemeral, pid); (Ephemeral, peph)] [] eph (Some pid) peph))
    | _ =>
      peph <~ lift (process_public a2) ;
      u <~ set_peer_eph peph ;
      ret (Suspended (Exchanging [(Identity, peph); (Ephemeral, peph)] [] eph None peph))
    end
  | Exchanging [] shared eph pid peph => finish r id eph pid peph shared
  | Exchanging ((w, p) :: todo) shared eph pid peph =>
    b <~ exchange_with (match w with Identity => id | Ephemeral => eph end) p ;
    match todo with
    | [] => finish r id eph pid peph (shared ++ b)
    | _ => ret (Suspended (Exchanging todo (shared ++ b) eph pid peph))
    end
  end.

(** The synchronous methods, by role. double_diffie_hellman_client.py 100-107, 134-157,
    double_diffie_hellman_server.py 115-140, 149-154, triple_diffie_hellman_client.py 108-123,
    153-179, triple_diffie_hellman_server.py 124-155, 164-169. *)
Definition call_sync (r : role) (id : key) (c : xcall) : M value :=
  match r, c with
  | Client2, Send s a => l <~ c2_send s a ; ret (Messages l)
  | Client2, Receive _ _ a => p <~ c2_receive a ; ret (Kdf p)
  | Server2, Receive s _ a => p <~ s2_receive id s a ; ret (Kdf p)
  | Client3, Send s a => l <~ c3_send id s a ; ret (Messages l)
  | Client3, Receive _ _ a => p <~ c3_receive id a ; ret (Kdf p)
  | Server3, Receive s a1 a2 => p <~ s3_receive id s a1 a2 ; ret (Kdf p)
  | (Server2 | Server3), SendBack => l <~ server_send ; ret (Messages l)
  | _, _ => no_method
  end.

(** A program using one exchange object and the identity key object behind it: synchronous
    calls, coroutines started at any time and resumed in any order (or never: cancelled), and
    calls on the identity key. No counterpart: what a program does. *)
Inductive event :=
| Sync (c : xcall)
| Start (c : xcall)
| Resume (i : nat)
| Ident (o : kop).
(** No counterpart: the objects of such a program. *)
Record world := {
  w_id : key;
  w_obj : xch;
  w_tasks : list task;
  w_results : list (result value);
}.
(** No counterpart: a coroutine that has ended is gone. *)
Definition remove_nth {A} (i : nat) (l : list A) : list A := firstn i l ++ skipn (S i) l.
(** No counterpart: the result of a coroutine is kept. *)
Definition settle (w : world) (tasks : list task) (p : xch * result outcome) : world :=
  match p with
  | (x, Ok (Suspended t)) => {| w_id := w_id w; w_obj := x; w_tasks := tasks ++ [t]; w_results := w_results w |}
  | (x, Ok (Done v)) => {| w_id := w_id w; w_obj := x; w_tasks := tasks; w_results := w_results w ++ [Ok v] |}
  | (x, Err e) => {| w_id := w_id w; w_obj := x; w_tasks := tasks; w_results := w_results w ++ [Err e] |}
  end.
(** No counterpart: one step of such a program. *)
Definition do_event (r : role) (w : world) (e : event) : world :=
  match e with
  | Sync c =>
    let (x, v) := call_sync r (w_id w) c (w_obj w) in
    {| w_id := w_id w; w_obj := x; w_tasks := w_tasks w; w_results := w_results w ++ [v] |}
  | Start c => settle w (w_tasks w) (start r (w_id w) c (w_obj w))
  | Resume i =>
    match nth_error (w_tasks w) i with
    | None => w
    | Some t => settle w (remove_nth i (w_tasks w)) (resume r (w_id w) t (w_obj w))
    end
  | Ident o => {| w_id := fst (do_kop (w_id w) o); w_obj := w_obj w; w_tasks := w_tasks w; w_results := w_results w |}
  end.
(** No counterpart: the steps of such a program. *)
Definition do_events (r : role) (w : world) (es : list event) : world := fold_left (do_event r) es w.
(** No counterpart: before its first step. *)
Definition new_world (id : key) : world := {| w_id := id; w_obj := new_xch; w_tasks := []; w_results := [] |}.

End Curve.

Arguments SBytes {C} b. Arguments SKey {C} s. Arguments SOther {C}.
Arguments PBytes {C} b. Arguments PKey {C} p. Arguments POther {C}.
Arguments k_secret {C}. Arguments k_public {C}. Arguments has_secret_key {C}. Arguments has_public_key {C}.
Arguments my_eph {C}. Arguments peer_id {C}. Arguments peer_eph {C}. Arguments x_log {C}.
Arguments w_id {C}. Arguments w_obj {C}. Arguments w_tasks {C}. Arguments w_results {C}.
Arguments ImportSecret {C}. Arguments ImportPublic {C}. Arguments Generate {C}. Arguments SetAttr {C}. Arguments DelAttr {C}.
Arguments Send {C}. Arguments Receive {C}. Arguments SendBack {C}.
Arguments Sync {C}. Arguments Start {C}. Arguments Resume {C}. Arguments Ident {C}.
Arguments SendGen {C}. Arguments RecvGen {C}. Arguments Exchanging {C}.
Arguments Done {C}. Arguments Suspended {C}.
