(** * What randomness is used for *)
From Verif Require Import Base RandomModel.
Local Open Scope N_scope.

(** The drawn values fit their fields. *)
Definition fields_fit (c : context) : Prop :=
  c_bits c < 2 ^ 256 /\ c_time c < 2 ^ 64 /\ c_thread c < 2 ^ 64 /\ c_process c < 2 ^ 64.

(** When and where a call was made. *)
Definition moment (c : context) : N * N * N := (c_time c, c_thread c, c_process c).

Definition prefix (a b : bytes) : Prop := exists z, b = a ++ z.

(** No value at one place is a prefix of the value at another place. *)
Definition apart (l : list bytes) : Prop :=
  forall p q a b, nth_error l p = Some a -> nth_error l q = Some b -> p <> q -> ~ prefix a b.

(** The tokens that the hashing object absorbed, in order; the inputs on which it was
    read, in order. *)
Definition tokens (es : list event) : list bytes :=
  flat_map (fun e => match e with Drew _ k => [k] | _ => [] end) es.
Definition queries (es : list event) : list bytes :=
  flat_map (fun e => match e with Asked _ q _ _ => [q] | _ => [] end) es.

(** The context of a call, if it draws one. *)
Definition context_of (c : call) : option context :=
  match c with Csprng x _ _ | Hash x _ _ _ => Some x | Push _ => None end.

(** No two calls were made at one time in one thread of one process. *)
Definition moments_differ (calls : nat -> list call) : Prop :=
  forall i n j m c d x y,
    nth_error (calls i) n = Some c -> nth_error (calls j) m = Some d ->
    context_of c = Some x -> context_of d = Some y -> (i, n) <> (j, m) -> moment x <> moment y.

(** 32 random bytes that look like the header of a canonical encoding with
    [block_size]: width 8, any count, a field of 8 bytes, the block size. *)
Definition header_like (block_size : N) (bits : N) : Prop :=
  exists count rest, length count = 8%nat /\
    be_enc 32 bits = [x08] ++ count ++ be_enc 8 8 ++ be_enc 8 block_size ++ rest.

(** The answers that a thread got, in order; the calls that want an answer. *)
Definition answers_of (i : nat) (es : list event) : list bytes :=
  flat_map (fun e => match e with Asked j _ _ a => if Nat.eqb j i then [a] else [] | _ => [] end) es.
Definition wanted (c : call) : bool := match c with Push _ => false | _ => true end.
Definition size_of (c : call) : N := match c with Csprng _ _ n | Hash _ _ _ n => n | Push _ => 0 end.

(** The globals of the salted multiplication: 256 bits of seed, and an offset that
    begins with the byte 0x99. *)
Definition globals_fit (g : globals) : Prop :=
  (0 <= g_seed g < 2 ^ 256)%Z /\ (g_offset g / 2 ^ 256 = 153)%Z.

(** The daemon looks at the clock, and nobody changes its delays. *)
Fixpoint only_acknowledgements (ops : list (Z * daemon_op)) : bool :=
  match ops with [] => true | (_, Acknowledge) :: ops => only_acknowledgements ops | _ => false end.
