(** * The guards a manager hands out: aiootp/asynchs/guards/manager.py [guard], [monitor]

    What is read of a policy's class is its method resolution order. Targets are numbers or not hashable; a tuple
    with something in it that is not hashable passes here and is refused by the mapping when the guard is entered,
    that is left out. Probe delays are numbers of an arbitrary unit or NaN; that [float] overflows for huge integers
    is left out. *)
From Verif Require Import Base GuardModel ManagerModel.

(** A class among the bases of a policy's class: one of policies.py 46-242, or one of a user with what it says
    itself of [is_exclusive], and of whether [get_in_queue] appends. *)
Inductive entry :=
| AnExclusive | AQueueManually | ANonExclusive | ANonExclusiveQueueManually
| AUsers (exclusive : option bool) (queues : option bool).
(** No counterpart: a class, as its method resolution order (without ConcurrencyGuardPolicy, FrozenInstance and object). *)
Definition policy_class := list entry.
(** policies.py 46-115. *)
Definition exclusive_policy : policy_class := [AnExclusive].
(** policies.py 118-135. *)
Definition queue_manually_policy : policy_class := [AQueueManually; AnExclusive].
(** policies.py 138-218. *)
Definition non_exclusive_policy : policy_class := [ANonExclusive].
(** policies.py 221-242. *)
Definition non_exclusive_queue_manually_policy : policy_class := [ANonExclusiveQueueManually; ANonExclusive].

(** What one class says: policies.py 57-62, 149-154 [is_exclusive]. *)
Definition own_exclusive (e : entry) : option bool :=
  match e with
  | AnExclusive => Some true
  | ANonExclusive => Some false
  | AUsers x _ => x
  | AQueueManually | ANonExclusiveQueueManually => None
  end.
(** What one class says: policies.py 85-89, 131-135, 180-192, 238-242 [get_in_queue]. *)
Definition own_queues (e : entry) : option bool :=
  match e with
  | AnExclusive | ANonExclusive => Some true
  | AQueueManually | ANonExclusiveQueueManually => Some false
  | AUsers _ q => q
  end.
(** No counterpart: a method is taken from the first class that has it. *)
Fixpoint first_of (own : entry -> option bool) (c : policy_class) : option bool :=
  match c with
  | [] => None
  | e :: c => match own e with Some b => Some b | None => first_of own c end
  end.
(** No counterpart: [issubclass] of a class and one of the two roots. *)
Definition derives (exclusive : bool) (c : policy_class) : bool :=
  existsb (fun e => match e, exclusive with AnExclusive, true | ANonExclusive, false => true | _, _ => false end) c.

(** What can be passed as policy in manager.py 485-531, 533-585: nothing, a policy, a class, anything else. *)
Inductive policy_arg := NoPolicy | APolicy (c : policy_class) | AClass (c : policy_class) | NotAPolicy.
(** And as probe delay. *)
Inductive delay_arg := NoDelay | Delay (d : Z) | NaN | NotANumber.
(** And as target. *)
Inductive target_arg := Target (t : nat) | NotHashable.

(** manager.py 421-442 [_ensure_valid_policy]: of a class, what is tested is [type]. *)
Definition ensure_valid_policy (p : policy_arg) (exclusive : bool) : result policy_class :=
  match p with
  | NoPolicy => Ok (if exclusive then exclusive_policy else non_exclusive_policy)
  | APolicy c => if derives exclusive c then Ok c else Err TypeErr
  | AClass _ | NotAPolicy => Err TypeErr
  end.
(** concurrency_interface.py 28-43 [process_probe_delay]; a comparison with NaN is false, one with what is not a
    number raises TypeError. *)
Definition process_probe_delay (d : delay_arg) (default : Z) : result Z :=
  match d with
  | NoDelay => Ok default
  | Delay d => if (0 <? d)%Z then Ok d else Err ValueErr
  | NaN => Err ValueErr
  | NotANumber => Err TypeErr
  end.

(** manager.py 238-255: what a guard is made of. *)
Record gate := { g_class : policy_class; g_target : nat; g_delay : Z }.
(** manager.py 485-531 [guard], 533-585 [monitor], with 243-262 and 472-483, and with the types of 73-86. *)
Definition hand_out (default : Z) (exclusive : bool) (t : target_arg) (p : policy_arg) (d : delay_arg) : result gate :=
  c <- ensure_valid_policy p exclusive ;;
  d <- process_probe_delay d default ;;
  match t with
  | Target t => Ok {| g_class := c; g_target := t; g_delay := d |}
  | NotHashable => Err TypeErr
  end.

(** policies.py 57-62, 149-154: asked of the guard's policy. *)
Definition is_exclusive (g : gate) : bool := match first_of own_exclusive (g_class g) with Some b => b | None => false end.
(** policies.py 85-89, 131-135, 180-192, 238-242. *)
Definition queues_itself (g : gate) : bool := match first_of own_queues (g_class g) with Some b => b | None => false end.

(** No counterpart: what a program does with a manager. The objects made are numbered. *)
Inductive call :=
| Guard (i : nat) (t : target_arg) (p : policy_arg) (d : delay_arg)
| Monitor (i : nat) (t : target_arg) (p : policy_arg) (d : delay_arg)
| Use (c : command).
(** No counterpart: the guard of a command. *)
Definition whose (c : command) : nat := match c with Go i | Again i | Abort i => i end.
(** No counterpart: the guard that a program has under a number: the first one made. Guards are frozen (C58), so what
    a guard is does not depend on when it is asked. *)
Fixpoint gates (default : Z) (prog : list call) (i : nat) : option gate :=
  match prog with
  | [] => None
  | Guard j t p d :: prog =>
    match (if Nat.eqb j i then hand_out default true t p d else Err TypeErr) with Ok g => Some g | Err _ => gates default prog i end
  | Monitor j t p d :: prog =>
    match (if Nat.eqb j i then hand_out default false t p d else Err TypeErr) with Ok g => Some g | Err _ => gates default prog i end
  | Use _ :: prog => gates default prog i
  end.
(** No counterpart: the commands, without those on guards that were not made (yet). *)
Fixpoint commands (default : Z) (before prog : list call) : list command :=
  match prog with
  | [] => []
  | Use c :: rest =>
    match gates default before (whose c) with
    | Some _ => c :: commands default (before ++ [Use c]) rest
    | None => commands default (before ++ [Use c]) rest
    end
  | x :: rest => commands default (before ++ [x]) rest
  end.
(** manager.py 257-345 for the guards of a program. *)
Definition perform_program (default : Z) (prog : list call) : list event * manager :=
  manage (fun i => match gates default prog i with Some g => is_exclusive g | None => false end)
         (fun i => match gates default prog i with Some g => g_target g | None => 0 end)
         (commands default [] prog) nobody.
