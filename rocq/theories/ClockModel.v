(** * Model of aiootp/asynchs/clocks.py *)
From Verif Require Import Base.
Local Open Scope Z_scope.

(** Nearest integer to a / b for a >= 0, b > 0; ties to even. *)
Definition round_half_even (a b : Z) : Z :=
  let q := a / b in
  let r := a mod b in
  if 2 * r <? b then q
  else if b <? 2 * r then q + 1
  else if Z.even q then q else q + 1.

(** Python's [int(a / b)] for integers a >= 0, b > 0: [/] is true division, whose
    result is the binary64 float nearest to the quotient (53 significant bits,
    ties to even; CPython long_true_divide is correctly rounded), and [int]
    truncates it.  For a quotient below 1 the last place is that of [1/2, 1),
    which is enough to tell 0 from 1.  The overflow at 2^1024 is not modelled
    (time_ns fits in 64 bits). *)
Definition float_exponent (a b : Z) : Z :=
  if a <? b then -53 else Z.log2 (a / b) - 52.
(** clocks.py 62-69, 319-325. *)
Definition int_truediv_nonneg (a b : Z) : Z :=
  let e := float_exponent a b in
  if 0 <=? e then round_half_even a (b * 2 ^ e) * 2 ^ e
  else round_half_even (a * 2 ^ (- e)) b / 2 ^ (- e).
(** The same for any integer a: rounding and truncation are symmetric. clocks.py 62-69, 319-325. *)
Definition int_truediv (a b : Z) : Z :=
  if a <? 0 then - int_truediv_nonneg (- a) b else int_truediv_nonneg a b.

(** The float that Python makes of an integer: 53 significant bits, ties to even.  From
    2^52 on, where it differs from the integer, it is a whole number. *)
Definition to_float (a : Z) : Z := int_truediv a 1.

(** clocks.py 72-157: the units.  [as_ns] of Months and Years is a float, the product of
    [Days.as_ns] and 365.24225 / 12 or 365.24225.  In binary64 these products are the
    whole numbers given here. *)
Inductive time_unit :=
| Nanoseconds | Microseconds | Milliseconds | Centiseconds | Deciseconds
| Seconds | Minutes | Hours | Days | Months | Years.
(** clocks.py 144-157: the units whose [as_ns] is a float. *)
Definition float_unit (u : time_unit) : bool := match u with Months | Years => true | _ => false end.
(** clocks.py 72-157: the attributes [as_ns]. *)
Definition as_ns (u : time_unit) : Z :=
  match u with
  | Nanoseconds => 1
  | Microseconds => 1000
  | Milliseconds => 1000 * 1000
  | Centiseconds => 1000 * 1000 * 10
  | Deciseconds => 1000 * 1000 * 10 * 10
  | Seconds => 1000 * 1000 * 10 * 10 * 10
  | Minutes => 1000 * 1000 * 10 * 10 * 10 * 60
  | Hours => 1000 * 1000 * 10 * 10 * 10 * 60 * 60
  | Days => 1000 * 1000 * 10 * 10 * 10 * 60 * 60 * 24
  | Months => 2629744200000000
  | Years => 31556930400000000
  end.

(** _constants/misc.py 33, 255 [EPOCH_NS]. *)
Definition EPOCH_NS : Z := 1000000000 * 1672531200.

(** clocks.py 276-292 [Clock.__init__]. *)
Record clock := { ck_unit : time_unit; ck_epoch : Z }.

(** clocks.py 327-378: the argument [byte_order]. *)
Inductive byte_order := BigEndian | LittleEndian.

(** clocks.py 62-69 [TimeUnit.time], 319-325 [Clock.time]; [now] is the value
    returned by [time_ns()].  Divided by a float, the integer is made a float first. *)
Definition clock_time (ck : clock) (now : Z) : Z :=
  let elapsed := now - ck_epoch ck in
  int_truediv (if float_unit (ck_unit ck) then to_float elapsed else elapsed) (as_ns (ck_unit ck)).

(** [int.to_bytes(size, byte_order)]: a negative value raises OverflowError. clocks.py 351,
    padding.py 103-109. *)
Definition z_to_bytes (size : N) (o : byte_order) (v : Z) : result bytes :=
  if v <? 0 then Err OverflowErr
  else match o with
       | BigEndian => to_bytes_be size (Z.to_N v)
       | LittleEndian => to_bytes_le size (Z.to_N v)
       end.

(** clocks.py 340-351 [make_timestamp]; 325-338 async. *)
Definition make_timestamp (ck : clock) (now : Z) (size : N) (o : byte_order) : result bytes :=
  z_to_bytes size o (clock_time ck now).

(** clocks.py 367-378 [read_timestamp]; 353-365 async. *)
Definition read_timestamp (timestamp : bytes) (o : byte_order) : Z :=
  match o with
  | BigEndian => Z.of_N (be_int timestamp)
  | LittleEndian => Z.of_N (le_int timestamp)
  end.

(** clocks.py 394-400 [delta]; 380-392 async. *)
Definition delta (ck : clock) (now : Z) (timestamp : bytes) (o : byte_order) : Z :=
  clock_time ck now - read_timestamp timestamp o.

(** clocks.py 423-442 [test_timestamp]; 402-421 async. *)
Definition test_timestamp (ck : clock) (now : Z) (timestamp : bytes) (ttl : option Z)
    (o : byte_order) : result unit :=
  match ttl with
  | None => Ok tt
  | Some ttl =>
    let d := delta ck now timestamp o in
    let timestamp_is_expired := d >? ttl in
    let expired_by := d - ttl in
    if timestamp_is_expired then Err (TimestampExpired expired_by) else Ok tt
  end.
