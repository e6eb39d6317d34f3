(** * Keyed permutations and GUID makers shared by asyncio tasks: the asynchronous
      methods of affine_xor_chain.py, guid.py and raw_guid.py

    PermModel.v and IdModel.v have the objects and what a call does when nothing
    comes in between.  Here calls of several tasks overlap: a task may be
    suspended inside a call, at each [await asleep()] it reaches, or cancelled
    there. *)
From Coq Require Import ZArith.
From Verif Require Import Base PermModel ClockModel IdModel.
Local Open Scope Z_scope.

(** ** A permutation under way *)

(** Where a task is suspended: in the component permutation it awaits, which has been given [v].
    [forward] tells permuting from inverting, [capped] the methods which mask the ends.
    affine_xor_chain.py 256-297, 316-353; affine_permutation.py 96-103, 120-127. *)
Inductive stage :=
| InFirst (forward capped : bool) (v : Z)
| InSecond (forward capped : bool) (v : Z)
| InThird (forward capped : bool) (v : Z).

(** What a task does until it is next suspended. No counterpart: the event loop's view of a task. *)
Inductive progress (A : Type) :=
| Waits (p : A)
| Returns (r : result Z).
Arguments Waits {A} p.
Arguments Returns {A} r.

(** Up to the first suspension: the masking of the argument. affine_xor_chain.py 262-267 [auncapped_permute],
    288-297 [apermute], 321-326 [auncapped_invert], 344-353 [ainvert]. *)
Definition begin_map (s : chain) (forward capped : bool) (value : Z) : stage :=
  InFirst forward capped
    (if capped then Z.lxor value (if forward then ch_in_key s else ch_out_key s) else value).

(** From one suspension to the next; an exception ends the call. affine_xor_chain.py 262-267, 288-297,
    321-326, 344-353. *)
Definition go_on (s : chain) (p : stage) : progress stage :=
  match p with
  | InFirst true c v =>
    match aff_permute (ch_aff_in s) v with
    | Ok x => Waits (InSecond true c (Z.lxor x (ch_in_mid_key s)))
    | Err e => Returns (Err e)
    end
  | InSecond true c v =>
    match aff_permute (ch_aff_mid s) v with
    | Ok y => Waits (InThird true c (Z.lxor y (ch_out_mid_key s)))
    | Err e => Returns (Err e)
    end
  | InThird true c v =>
    Returns (z <- aff_permute (ch_aff_out s) v ;; Ok (if c then Z.lxor z (ch_out_key s) else z))
  | InFirst false c v =>
    match aff_invert (ch_aff_out s) v with
    | Ok x => Waits (InSecond false c (Z.lxor x (ch_out_mid_key s)))
    | Err e => Returns (Err e)
    end
  | InSecond false c v =>
    match aff_invert (ch_aff_mid s) v with
    | Ok y => Waits (InThird false c (Z.lxor y (ch_in_mid_key s)))
    | Err e => Returns (Err e)
    end
  | InThird false c v =>
    Returns (z <- aff_invert (ch_aff_in s) v ;; Ok (if c then Z.lxor z (ch_in_key s) else z))
  end.

(** ** One permutation, many tasks *)

(** The methods of a permutation. affine_xor_chain.py 219-368. *)
Inductive job :=
| Permute (v : Z) | Invert (v : Z) | UncappedPermute (v : Z) | UncappedInvert (v : Z)
| Step | UpdateIncrement (v : Z).

(** What a method returns. affine_xor_chain.py 219-368: an int, or None. *)
Inductive answer := Number (v : Z) | Nothing.

(** The synchronous methods: the answer, and the permutation afterwards. affine_xor_chain.py 226-234,
    246-254, 269-280, 299-314, 328-338, 355-368. *)
Definition call_now (s : chain) (k : job) : result answer * chain :=
  match k with
  | Permute v => (x <- chain_permute s v ;; Ok (Number x), s)
  | Invert v => (x <- chain_invert s v ;; Ok (Number x), s)
  | UncappedPermute v => (x <- chain_uncapped_permute s v ;; Ok (Number x), s)
  | UncappedInvert v => (x <- chain_uncapped_invert s v ;; Ok (Number x), s)
  | Step => (Ok Nothing, chain_step s)
  | UpdateIncrement v =>
    match chain_update_increment s v with
    | Ok s' => (Ok Nothing, s')
    | Err e => (Err e, s)
    end
  end.

(** Where a task is suspended in a call. affine_xor_chain.py 219-224, 236-244, 256-297, 316-353. *)
Inductive pending := Mapping (p : stage) | Asleep.

(** Up to the first suspension. affine_xor_chain.py 219-224 [aupdate_increment], 236-244 [astep]: nothing
    is done before [asleep]; 256-297, 316-353 for the others. *)
Definition begin_job (s : chain) (k : job) : pending :=
  match k with
  | Permute v => Mapping (begin_map s true true v)
  | Invert v => Mapping (begin_map s false true v)
  | UncappedPermute v => Mapping (begin_map s true false v)
  | UncappedInvert v => Mapping (begin_map s false false v)
  | Step | UpdateIncrement _ => Asleep
  end.

(** The permutation, and the call each task is suspended in. No counterpart: the objects the tasks share. *)
Record shared := { sh_chain : chain; sh_tasks : nat -> option (job * pending) }.

(** What happens: a task calls the asynchronous method; a task calls the synchronous one; a suspended
    task goes on; it is cancelled. No counterpart: the event loop and the callers. *)
Inductive action :=
| Make (t : nat) (k : job)
| CallNow (t : nat) (k : job)
| Resume (t : nat)
| Cancel (t : nat).

(** A call has ended: whose, which, and the answer. No counterpart: what the callers see. *)
Definition event := (nat * job * result answer)%type.

(** No counterpart: a task is suspended or goes on. *)
Definition set_task (s : shared) (t : nat) (p : option (job * pending)) : shared :=
  {| sh_chain := sh_chain s; sh_tasks := fun j => if Nat.eqb j t then p else sh_tasks s j |}.
(** No counterpart: the permutation changes. *)
Definition set_chain (s : shared) (c : chain) : shared := {| sh_chain := c; sh_tasks := sh_tasks s |}.

(** One action; those which cannot happen (a task inside a call makes another, a task which is not
    suspended goes on) do nothing. affine_xor_chain.py 219-368. *)
Definition act (s : shared) (a : action) : shared * list event :=
  match a with
  | Make t k =>
    match sh_tasks s t with
    | Some _ => (s, [])
    | None => (set_task s t (Some (k, begin_job (sh_chain s) k)), [])
    end
  | CallNow t k =>
    match sh_tasks s t with
    | Some _ => (s, [])
    | None => let '(r, c) := call_now (sh_chain s) k in (set_chain s c, [(t, k, r)])
    end
  | Resume t =>
    match sh_tasks s t with
    | None => (s, [])
    | Some (k, Asleep) =>
      let '(r, c) := call_now (sh_chain s) k in (set_chain (set_task s t None) c, [(t, k, r)])
    | Some (k, Mapping p) =>
      match go_on (sh_chain s) p with
      | Waits p' => (set_task s t (Some (k, Mapping p')), [])
      | Returns r => (set_task s t None, [(t, k, x <- r ;; Ok (Number x))])
      end
    end
  | Cancel t => (set_task s t None, [])
  end.

(** No counterpart: a schedule, and the calls which end in it. *)
Fixpoint run (s : shared) (l : list action) : shared * list event :=
  match l with
  | [] => (s, [])
  | a :: l => let '(s1, e1) := act s a in let '(s2, e2) := run s1 l in (s2, e1 ++ e2)
  end.

(** ** One GUID maker, many tasks *)

(** The methods of a GUID maker. guid.py 164-205. *)
Inductive id_job := New | Read (guid : bytes).

(** What they return. guid.py 164-205. *)
Inductive id_answer := Identifier (b : bytes) | Parsed (c : container).

(** Where a task is suspended: in [_raw_guid.anew()], in [_permutation.apermute()], in
    [_permutation.ainvert()], in [_raw_guid.aread()]. guid.py 164-172, 183-194; raw_guid.py 98-103, 117-122. *)
Inductive id_pending := Drawing | Blinding (p : stage) | Unblinding (p : stage) | Parsing (raw : bytes).

(** No counterpart: the GUID maker and the call each task is suspended in. *)
Record maker := { mk_guid : guid; mk_tasks : nat -> option (id_job * id_pending) }.

(** As above; an action at which a raw GUID may be drawn carries what the clock and the source of
    randomness give then. No counterpart: the event loop, the callers, the clock. *)
Inductive id_action :=
| IdMake (t : nat) (k : id_job)
| IdNow (t : nat) (k : id_job) (now : Z) (token : bytes)
| IdResume (t : nat) (now : Z) (token : bytes)
| IdCancel (t : nat).

(** No counterpart: what the callers see. *)
Definition id_event := (nat * id_job * result id_answer)%type.

(** No counterpart: a task is suspended or goes on. *)
Definition set_id_task (m : maker) (t : nat) (p : option (id_job * id_pending)) : maker :=
  {| mk_guid := mk_guid m; mk_tasks := fun j => if Nat.eqb j t then p else mk_tasks m j |}.
(** No counterpart: the GUID maker changes. *)
Definition set_guid (m : maker) (g : guid) : maker := {| mk_guid := g; mk_tasks := mk_tasks m |}.
(** No counterpart: the raw GUID maker inside changes. *)
Definition set_raw (g : guid) (r : raw_guid) : guid :=
  {| gd_size := gd_size g; gd_raw := r; gd_perm := gd_perm g |}.

(** guid.py 174-181 [new], 196-205 [read]. *)
Definition id_call_now (g : guid) (k : id_job) (now : Z) (token : bytes) : result id_answer * guid :=
  match k with
  | New =>
    match guid_new g now token with
    | Ok (b, g') => (Ok (Identifier b), g')
    | Err e => (Err e, g)
    end
  | Read b => (c <- guid_read g b ;; Ok (Parsed c), g)
  end.

(** guid.py 172: [guid.to_bytes(self.config.SIZE, BIG)]. *)
Definition blinded (g : guid) (r : result Z) : result id_answer :=
  v <- r ;; b <- z_to_bytes (gd_size g) BigEndian v ;; Ok (Identifier b).

(** A suspended task goes on. guid.py 164-172 [anew], 183-194 [aread]; raw_guid.py 98-103 [anew], 117-122
    [aread]. *)
Definition id_resume (m : maker) (t : nat) (k : id_job) (p : id_pending) (now : Z) (token : bytes)
    : maker * list id_event :=
  let g := mk_guid m in
  let over r := (set_id_task m t None, [(t, k, r)]) in
  let wait q := set_id_task m t (Some (k, q)) in
  match p with
  | Drawing =>
    match raw_new (gd_raw g) now token with
    | Err e => over (Err e)
    | Ok (raw, r') =>
      (set_guid (wait (Blinding (begin_map (gd_perm g) true true (be_z raw)))) (set_raw g r'), [])
    end
  | Blinding q =>
    match go_on (gd_perm g) q with
    | Waits q' => (wait (Blinding q'), [])
    | Returns r => over (blinded g r)
    end
  | Unblinding q =>
    match go_on (gd_perm g) q with
    | Waits q' => (wait (Unblinding q'), [])
    | Returns r =>
      match (v <- r ;; z_to_bytes (gd_size g) BigEndian v) with
      | Ok raw => (wait (Parsing raw), [])
      | Err e => over (Err e)
      end
    end
  | Parsing raw => over (c <- raw_read (rg_config (gd_raw g)) raw ;; Ok (Parsed c))
  end.

(** One action. guid.py 164-205. *)
Definition id_act (m : maker) (a : id_action) : maker * list id_event :=
  match a with
  | IdMake t k =>
    match mk_tasks m t, k with
    | Some _, _ => (m, [])
    | None, New => (set_id_task m t (Some (k, Drawing)), [])
    | None, Read b =>
      if negb (blen b =? gd_size (mk_guid m))%N then (m, [(t, k, Err InvalidLength)])
      else (set_id_task m t
              (Some (k, Unblinding (begin_map (gd_perm (mk_guid m)) false true (be_z b)))), [])
    end
  | IdNow t k now token =>
    match mk_tasks m t with
    | Some _ => (m, [])
    | None => let '(r, g) := id_call_now (mk_guid m) k now token in (set_guid m g, [(t, k, r)])
    end
  | IdResume t now token =>
    match mk_tasks m t with
    | None => (m, [])
    | Some (k, p) => id_resume m t k p now token
    end
  | IdCancel t => (set_id_task m t None, [])
  end.

(** No counterpart: a schedule, and the calls which end in it. *)
Fixpoint id_run (m : maker) (l : list id_action) : maker * list id_event :=
  match l with
  | [] => (m, [])
  | a :: l => let '(m1, e1) := id_act m a in let '(m2, e2) := id_run m1 l in (m2, e1 ++ e2)
  end.
