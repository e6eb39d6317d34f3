(** * One authenticator shared by asyncio tasks: the asynchronous methods of
      stream_hmac.py, stream_junction.py and shake_permute_cipher.py

    AuthModel.v has the objects and what each call does when nothing comes in
    between.  Here calls of several tasks overlap: a task may be suspended, or
    cancelled, inside a call.  Of the two ciphers only the one of
    shake_permute_cipher.py (Slick256) is modelled.  Where a method is suspended
    several times in a row without using the objects in between, it is suspended
    once. *)
From Coq Require Import ZArith.
From Verif Require Import Base CanonModel TransformModel PermModel ClockModel IdModel CipherModel AuthModel.
Local Open Scope N_scope.

(** Where a task is suspended: shake_permute_cipher.py 117-142, 173-198 with stream_hmac.py 168-180;
    stream_hmac.py 223-258, 349-374; stream_hmac.py 296-305, 317-331. *)
Inductive pending :=
| Feeding (g : nat) (block out hashed : bytes)  (* has read the digests; about to update the hash *)
| Asking (k : call)                             (* BlockId or TestBlockId: nothing done yet *)
| Finalizing (i : nat).                         (* has set _is_finalized; about to make the tag *)

(** The objects, [_is_finalized] of each StreamHMAC, whether an asynchronous generator is being
    pulled, and the tasks. stream_hmac.py 39-54, 317-331. *)
Record shared := {
  s_world : world;
  s_claimed : nat -> bool;
  s_running : nat -> bool;
  s_tasks : nat -> option pending;
}.

(** What happens: a task makes a call, of the asynchronous method or of the synchronous one; a
    suspended task goes on; it is cancelled. No counterpart: the event loop and the callers. *)
Inductive action :=
| Make (t : nat) (k : call) (asynchronous : bool)
| Resume (t : nat)
| Cancel (t : nat).

(** No counterpart: the objects change. *)
Definition set_world (s : shared) (w : world) : shared :=
  {| s_world := w; s_claimed := s_claimed s; s_running := s_running s; s_tasks := s_tasks s |}.
(** stream_hmac.py 326, 342: [_is_finalized] is set. *)
Definition claim (s : shared) (i : nat) : shared :=
  {| s_world := s_world s; s_claimed := fun j => if Nat.eqb j i then true else s_claimed s j;
     s_running := s_running s; s_tasks := s_tasks s |}.
(** No counterpart: CPython's flag of an asynchronous generator. *)
Definition set_running (s : shared) (g : nat) (r : bool) : shared :=
  {| s_world := s_world s; s_claimed := s_claimed s;
     s_running := fun j => if Nat.eqb j g then r else s_running s j; s_tasks := s_tasks s |}.
(** No counterpart: a task is suspended or goes on. *)
Definition set_task (s : shared) (t : nat) (p : option pending) : shared :=
  {| s_world := s_world s; s_claimed := s_claimed s; s_running := s_running s;
     s_tasks := fun j => if Nat.eqb j t then p else s_tasks s j |}.

(** No counterpart: a generator which has raised is over. *)
Definition close (g : nat) (w : world) : world :=
  match nth_error (w_gens w) g with
  | None => w
  | Some x => set_gen w g {| g_shmac := g_shmac x; g_mode := g_mode x; g_first := false; g_live := false |}
  end.

Section Await.
Variable H : hasher.
Variable c : cfg.

(** shake_permute_cipher.py 117-142 [_aencipher_then_hash], 173-198 [_ahash_then_decipher]: up to
    the update of the hash; what is returned and what will be hashed. *)
Definition half (m : cipher_mode) (s : shmac) (block : bytes) : result (bytes * bytes) :=
  if s_finalized s then Err AttributeErr
  else
    let bs := c_blocksize c in
    let digest := slice (2 * bs) (rate H) (s_cur s) in
    let in_key := be_z (slice 0 bs (s_cur s)) in
    let out_key := be_z (slice bs (2 * bs) (s_cur s)) in
    match m with
    | Encryption =>
      x <- chain_uncapped_permute (s_perm s) (Z.lxor in_key (be_z block)) ;;
      ciphertext <- z_to_bytes bs BigEndian (Z.lxor out_key x) ;;
      Ok (ciphertext, block ++ ciphertext ++ digest)
    | Decryption =>
      x <- chain_uncapped_invert (s_perm s) (Z.lxor out_key (be_z block)) ;;
      plaintext <- z_to_bytes bs BigEndian (Z.lxor in_key x) ;;
      Ok (plaintext, plaintext ++ block ++ digest)
    end.

(** shake_permute_cipher.py 117-142, 173-198, in the generators of 234-251 [acombine_streams]: the first
    part.  A block that cannot be transformed ends the call at once (in the code some suspensions
    later, before the hash is used). *)
Definition begin_feed (t g : nat) (block : bytes) (s : shared) : list (call * reply) * shared :=
  match nth_error (w_gens (s_world s)) g with
  | None => ([(Feed g block, NoSuchObject)], s)
  | Some x =>
    if s_running s g then ([(Feed g block, Raised RuntimeErr)], s)
    else if negb (g_live x) then ([(Feed g block, Raised StopIter)], s)
    else
      match nth_error (w_shmacs (s_world s)) (g_shmac x) with
      | None => ([(Feed g block, NoSuchObject)], s)
      | Some h =>
        match half (g_mode x) h block with
        | Err e => ([(Feed g block, Raised e)], set_world s (close g (s_world s)))
        | Ok (out, hashed) => ([], set_running (set_task s t (Some (Feeding g block out hashed))) g true)
        end
      end
  end.

(** stream_hmac.py 168-180 [_aupdate_mac] after its [asleep], and the yield of the generator. *)
Definition end_feed (g : nat) (block out hashed : bytes) (s : shared) : list (call * reply) * shared :=
  let s := set_running s g false in
  match nth_error (w_gens (s_world s)) g with
  | None => ([(Feed g block, NoSuchObject)], s)
  | Some x =>
    match nth_error (w_shmacs (s_world s)) (g_shmac x) with
    | None => ([(Feed g block, NoSuchObject)], s)
    | Some h =>
      if s_finalized h then ([(Feed g block, Raised AttributeErr)], set_world s (close g (s_world s)))
      else
        let '(b', h') := update_mac H (w_bundle (s_world s), h) hashed in
        ([(Feed g block, Got out)],
         set_world s
           (set_gen (set_shmac (set_bundle (s_world s) b') (g_shmac x) h') g
              {| g_shmac := g_shmac x; g_mode := g_mode x; g_first := false; g_live := true |}))
    end
  end.

(** No counterpart: a call of AuthModel.v without a suspension in it. *)
Definition at_once (k : call) (s : shared) : list (call * reply) * shared :=
  let '(r, w) := step H c (s_world s) k in ([(k, r)], set_world s w).

(** stream_hmac.py 317-331 [afinalize], 333-347 [finalize]: up to the suspension. *)
Definition begin_finalize (t i : nat) (asynchronous : bool) (s : shared) : list (call * reply) * shared :=
  match nth_error (w_shmacs (s_world s)) i with
  | None => ([(Finalize i, NoSuchObject)], s)
  | Some _ =>
    if s_claimed s i then ([(Finalize i, Raised PermissionErr)], s)
    else if asynchronous then ([], set_task (claim s i) t (Some (Finalizing i)))
    else at_once (Finalize i) (claim s i)
  end.

(** A call. A task makes one call at a time.  Which generators there are depends on the bundle's
    run mode: stream_junction.py 37-148; stream_hmac.py 223-374. *)
Definition make (t : nat) (k : call) (asynchronous : bool) (s : shared) : list (call * reply) * shared :=
  match s_tasks s t with
  | Some _ => ([], s)
  | None =>
    match k with
    | Feed g block =>
      match b_mode (w_bundle (s_world s)) with
      | Some Async => begin_feed t g block s
      | _ => at_once k s
      end
    | BlockId _ _ _ _ | TestBlockId _ _ _ _ =>
      if asynchronous then ([], set_task s t (Some (Asking k))) else at_once k s
    | Finalize i => begin_finalize t i asynchronous s
    | _ => at_once k s
    end
  end.

(** The rest of a call: stream_hmac.py 168-180, 244-258, 304-305, 328-331. *)
Definition resume (t : nat) (s : shared) : list (call * reply) * shared :=
  match s_tasks s t with
  | None => ([], s)
  | Some p =>
    let s := set_task s t None in
    match p with
    | Feeding g block out hashed => end_feed g block out hashed s
    | Asking k => at_once k s
    | Finalizing i => at_once (Finalize i) s
    end
  end.

(** CancelledError in a suspended task: nothing is undone; a generator in which it is raised is
    over. stream_hmac.py 168-180, 223-258, 296-331. *)
Definition cancel (t : nat) (s : shared) : shared :=
  match s_tasks s t with
  | None => s
  | Some p =>
    let s := set_task s t None in
    match p with
    | Feeding g _ _ _ => set_running (set_world s (close g (s_world s))) g false
    | _ => s
    end
  end.

(** No counterpart: one action. *)
Definition act (a : action) (s : shared) : list (call * reply) * shared :=
  match a with
  | Make t k asynchronous => make t k asynchronous s
  | Resume t => resume t s
  | Cancel t => ([], cancel t s)
  end.

(** No counterpart: actions one after another, and the calls that ended, with their replies. *)
Fixpoint run (l : list action) (s : shared) : list (call * reply) * shared :=
  match l with
  | [] => ([], s)
  | a :: l =>
    let '(e1, s1) := act a s in
    let '(e2, s2) := run l s1 in
    (e1 ++ e2, s2)
  end.
End Await.
