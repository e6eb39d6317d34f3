(** * Authenticators and key bundles as objects shared by their callers:
      stream_hmac.py, key_bundle.py, stream_junction.py

    One key bundle, every StreamHMAC made from it and every generator returned
    by [bytes_encipher] / [bytes_decipher].  The StreamHMACs hold a reference to
    the bundle's hash object, so there is one such object.  A call is atomic:
    the synchronous methods under one thread. *)
From Coq Require Import ZArith.
From Verif Require Import Base CanonModel TransformModel PermModel ClockModel IdModel CipherModel.
Local Open Scope N_scope.

(** A generator returned by the junction: the StreamHMAC it was made for, its direction, whether
    nothing has been pulled through it yet, whether it is still usable (a Python generator which
    has raised is over). stream_junction.py 67-96, 124-148, and the generators of
    [combine_streams], shake_permute_cipher.py 253-268, dual_output_shake_cipher.py 582-600. *)
Record generator := {
  g_shmac : nat;
  g_mode : cipher_mode;
  g_first : bool;
  g_live : bool;
}.

(** The objects: key_bundle.py 173-180, stream_hmac.py 39-54 and the generators above. *)
Record world := {
  w_bundle : bundle;
  w_shmacs : list shmac;
  w_gens : list generator;
}.

(** The calls. Objects are named by the order in which they were made. key_bundle.py 148-158,
    stream_hmac.py 59-150, 260-294, 333-347, 376-423, stream_junction.py 67-148. *)
Inductive call :=
| DeclareRun (r : run_mode)                               (* bundle.sync_mode / async_mode *)
| NewShmac                                                (* StreamHMAC(bundle) *)
| DeclareMode (i : nat) (m : cipher_mode)                 (* _for_encryption / _for_decryption *)
| Start (i : nat) (m : cipher_mode) (r : run_mode)        (* (a)bytes_encipher / (a)bytes_decipher *)
| Feed (g : nat) (block : bytes)                          (* next() with this block of data *)
| BlockId (i : nat) (block : bytes) (size : option N) (aad : bytes)
| TestBlockId (i : nat) (untrusted block aad : bytes)
| Finalize (i : nat)
| Result (i : nat)
| TestShmac (i : nat) (untrusted : bytes).

(** What the caller sees. No counterpart: the value or exception of a call. *)
Inductive reply :=
| Done
| Made (n : nat)
| Got (b : bytes)
| Raised (e : exn)
| NoSuchObject.            (* not a call: the object does not exist yet *)

(** No counterpart: an object changes its attributes. *)
Fixpoint replace_nth {A} (i : nat) (x : A) (l : list A) : list A :=
  match i, l with
  | _, [] => []
  | O, _ :: l' => x :: l'
  | S i', y :: l' => y :: replace_nth i' x l'
  end.

(** No counterpart: assignments to attributes of the bundle. *)
Definition set_bundle (w : world) (b : bundle) : world :=
  {| w_bundle := b; w_shmacs := w_shmacs w; w_gens := w_gens w |}.
(** No counterpart: assignments to attributes of a StreamHMAC. *)
Definition set_shmac (w : world) (i : nat) (s : shmac) : world :=
  {| w_bundle := w_bundle w; w_shmacs := replace_nth i s (w_shmacs w); w_gens := w_gens w |}.
(** No counterpart: a generator keeps its place. *)
Definition set_gen (w : world) (g : nat) (x : generator) : world :=
  {| w_bundle := w_bundle w; w_shmacs := w_shmacs w; w_gens := replace_nth g x (w_gens w) |}.

(** No counterpart: what a caller sees of a call without a value. *)
Definition done (r : result unit) : reply :=
  match r with Ok _ => Done | Err e => Raised e end.
(** No counterpart: what a caller sees of a call with a value. *)
Definition got (r : result bytes) : reply :=
  match r with Ok b => Got b | Err e => Raised e end.

Section Auth.
Variable H : hasher.
Variable c : cfg.

(** What an exception during a block's transformation leaves behind:
    shake_permute_cipher.py 145-170, 201-226 raise before the hash is updated;
    dual_output_shake_cipher.py 444-474, 512-542 may raise after the header was
    hashed and a key drawn, 583-600 and 252-276 after a key was drawn, 303-326
    after the block was hashed too. *)
Definition left_behind (m : cipher_mode) (first : bool) (st : session) (block : bytes) : session :=
  let '(b, s) := st in
  if s_finalized s then st
  else
    match c_type c with
    | ShakePermute => st
    | DualOutput =>
      if first then
        let seen := take (inner_header_bytes c) block in
        match (x <- match m with
                    | Encryption => chain_permute (s_perm s) (be_z seen)
                    | Decryption => chain_invert (s_perm s) (be_z seen)
                    end ;; z_to_bytes (inner_header_bytes c) BigEndian x) with
        | Err _ => st
        | Ok made =>
          let hashed := match m with
                        | Encryption => seen ++ made
                        | Decryption => made ++ seen
                        end in
          let mac := b_mac b ++ hashed ++ drop (2 * inner_header_bytes c) (s_cur s) in
          (snd (keystream_send H (set_mac b mac) (h_digest H mac (2 * rate H))), s)
        end
      else
        let '(key, b) := keystream_send H b (s_cur s ++ s_prev s) in
        match m with
        | Encryption => (b, s)
        | Decryption =>
          update_mac H (b, s) (left_capacity H c key ++ block ++ right_capacity H c key)
        end
    end.

(** One call: key_bundle.py 148-158 and 235-243, stream_hmac.py 59-150, 260-294, 333-347,
    376-423, stream_junction.py 67-96, 124-148. *)
Definition step (w : world) (k : call) : reply * world :=
  match k with
  | DeclareRun r =>
    match set_run_mode r (w_bundle w) with
    | Ok b => (Done, set_bundle w b)
    | Err e => (Raised e, w)
    end
  | NewShmac =>
    match make_shmac H c (w_bundle w) with
    | Ok s => (Made (length (w_shmacs w)),
               {| w_bundle := w_bundle w; w_shmacs := w_shmacs w ++ [s]; w_gens := w_gens w |})
    | Err e => (Raised e, w)
    end
  | DeclareMode i m =>
    match nth_error (w_shmacs w) i with
    | None => (NoSuchObject, w)
    | Some s =>
      match (match m with
             | Encryption => for_encryption (w_bundle w) s
             | Decryption => for_decryption (w_bundle w) s
             end) with
      | Ok s' => (Done, set_shmac w i s')
      | Err e => (Raised e, w)
      end
    end
  (* stream_junction.py: the registration is not undone if a check fails *)
  | Start i m r =>
    match nth_error (w_shmacs w) i with
    | None => (NoSuchObject, w)
    | Some s =>
      match register_shmac (w_bundle w) with
      | Err e => (Raised e, w)
      | Ok b =>
        match check_modes m r (b, s) with
        | Err e => (Raised e, set_bundle w b)
        | Ok _ => (Made (length (w_gens w)),
                   {| w_bundle := b; w_shmacs := w_shmacs w;
                      w_gens := w_gens w ++ [{| g_shmac := i; g_mode := m;
                                                g_first := true; g_live := true |}] |})
        end
      end
    end
  (* StopIteration once the generator is over *)
  | Feed g block =>
    match nth_error (w_gens w) g with
    | None => (NoSuchObject, w)
    | Some x =>
      if negb (g_live x) then (Raised StopIter, w)
      else
        match nth_error (w_shmacs w) (g_shmac x) with
        | None => (NoSuchObject, w)
        | Some s =>
          match transform H c (g_mode x) (g_first x) (w_bundle w, s) block with
          | Ok (out, (b', s')) =>
            (Got out,
             set_gen (set_shmac (set_bundle w b') (g_shmac x) s') g
               {| g_shmac := g_shmac x; g_mode := g_mode x; g_first := false; g_live := true |})
          | Err e =>
            let '(b', s') := left_behind (g_mode x) (g_first x) (w_bundle w, s) block in
            (Raised e,
             set_gen (set_shmac (set_bundle w b') (g_shmac x) s') g
               {| g_shmac := g_shmac x; g_mode := g_mode x; g_first := false; g_live := false |})
          end
        end
    end
  | BlockId i block size aad =>
    match nth_error (w_shmacs w) i with
    | None => (NoSuchObject, w)
    | Some s => (got (next_block_id H c s block size aad), w)
    end
  | TestBlockId i untrusted block aad =>
    match nth_error (w_shmacs w) i with
    | None => (NoSuchObject, w)
    | Some s => (done (test_next_block_id H c s untrusted block aad), w)
    end
  | Finalize i =>
    match nth_error (w_shmacs w) i with
    | None => (NoSuchObject, w)
    | Some s =>
      match finalize H c (w_bundle w) s with
      | Ok (t, s') => (Got t, set_shmac w i s')
      | Err e => (Raised e, w)
      end
    end
  | Result i =>
    match nth_error (w_shmacs w) i with
    | None => (NoSuchObject, w)
    | Some s => (got (result_of s), w)
    end
  | TestShmac i untrusted =>
    match nth_error (w_shmacs w) i with
    | None => (NoSuchObject, w)
    | Some s => (done (test_shmac s untrusted), w)
    end
  end.

End Auth.
