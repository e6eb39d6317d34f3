(** * C20: timestamps and time-to-live. [now] is what [time_ns()] returns. *)
From Verif Require Import Base BaseFacts ClockModel ClockProofs.
Local Open Scope Z_scope.

(** Reading a timestamp gives the clock's time when it was made; it has the
    requested size. *)
Theorem C20_timestamp_roundtrip : forall ck now size o ts,
  make_timestamp ck now size o = Ok ts ->
  read_timestamp ts o = clock_time ck now /\ blen ts = size.
Proof.
  intros ck now size o ts H. apply z_to_bytes_ok in H. destruct H as (A & B & _). auto.
Qed.
Print Assumptions C20_timestamp_roundtrip.

(** A timestamp can be made exactly when the time fits. *)
Theorem C20_timestamp_total : forall ck now size o,
  (exists ts, make_timestamp ck now size o = Ok ts) <->
  0 <= clock_time ck now < 256 ^ Z.of_N size.
Proof.
  intros. split.
  - intros [ts H]. apply z_to_bytes_ok in H. apply H.
  - apply z_to_bytes_fit.
Qed.
Print Assumptions C20_timestamp_total.

(** The check of a timestamp made at [t0] at the later or earlier moment [t1]. *)
Theorem C20_ttl_exact : forall ck t0 t1 size o ts ttl,
  make_timestamp ck t0 size o = Ok ts ->
  let age := clock_time ck t1 - clock_time ck t0 in
  (age <= ttl -> test_timestamp ck t1 ts (Some ttl) o = Ok tt) /\
  (age > ttl -> test_timestamp ck t1 ts (Some ttl) o = Err (TimestampExpired (age - ttl))) /\
  test_timestamp ck t1 ts None o = Ok tt.
Proof.
  intros ck t0 t1 size o ts ttl H age.
  destruct (C20_timestamp_roundtrip _ _ _ _ _ H) as [R _].
  unfold test_timestamp, delta. rewrite R. fold age.
  split; [|split; [|reflexivity]]; intro L.
  - replace (age >? ttl) with false by lia. reflexivity.
  - replace (age >? ttl) with true by lia. reflexivity.
Qed.
Print Assumptions C20_ttl_exact.

(** The clock never goes backwards while the system time does not. *)
Theorem C20_clock_monotone : forall ck now now',
  now <= now' -> clock_time ck now <= clock_time ck now'.
Proof.
  intros ck now now' H. unfold clock_time. apply int_truediv_mono; [apply unit_pos|].
  destruct (float_unit _); [apply to_float_mono|]; lia.
Qed.
Print Assumptions C20_clock_monotone.

(** Up to 2^53 units after the epoch, and in months and years up to 2^62 nanoseconds (146
    years), the clock shows the number of whole units that have passed, or one more. *)
Theorem C20_clock_accuracy : forall ck now,
  let elapsed := now - ck_epoch ck in
  0 <= elapsed -> elapsed / as_ns (ck_unit ck) < 2 ^ 53 ->
  (float_unit (ck_unit ck) = true -> elapsed < 2 ^ 62) ->
  elapsed / as_ns (ck_unit ck) <= clock_time ck now <= elapsed / as_ns (ck_unit ck) + 1.
Proof.
  intros ck now elapsed H L F. unfold clock_time. fold elapsed. apply reading_floor; assumption.
Qed.
Print Assumptions C20_clock_accuracy.

(** It shows exactly the whole units unless the next one is about to begin: in months
    and years, within 2048 nanoseconds. *)
Theorem C20_clock_exact : forall ck now,
  let unit := as_ns (ck_unit ck) in
  let elapsed := now - ck_epoch ck in
  0 <= elapsed ->
  (elapsed / unit + 1) * unit <= 2 ^ 52 * (unit - elapsed mod unit) ->
  (float_unit (ck_unit ck) = true -> elapsed < 2 ^ 62 /\ 2048 <= unit - elapsed mod unit) ->
  clock_time ck now = elapsed / unit.
Proof.
  intros ck now unit elapsed H L F. unfold clock_time. fold elapsed. apply reading_exact; assumption.
Qed.
Print Assumptions C20_clock_exact.

(** In real time: a timestamp is accepted while its age is at most ttl - 1 units
    and refused from ttl + 2 units on. *)
Theorem C20_ttl_real_time : forall ck t0 t1 size o ts ttl,
  let unit := as_ns (ck_unit ck) in
  make_timestamp ck t0 size o = Ok ts ->
  ck_epoch ck <= t0 <= t1 -> (t1 - ck_epoch ck) / unit < 2 ^ 53 ->
  (float_unit (ck_unit ck) = true -> t1 - ck_epoch ck < 2 ^ 62) ->
  (t1 - t0 <= (ttl - 1) * unit -> test_timestamp ck t1 ts (Some ttl) o = Ok tt) /\
  (t1 - t0 >= (ttl + 2) * unit ->
     exists by_how_much, test_timestamp ck t1 ts (Some ttl) o = Err (TimestampExpired by_how_much)).
Proof.
  intros ck t0 t1 size o ts ttl unit H T L F.
  assert (Hu : 0 < unit) by apply unit_pos.
  assert (M : (t0 - ck_epoch ck) / unit <= (t1 - ck_epoch ck) / unit) by (apply Z.div_le_mono; lia).
  pose proof (C20_clock_accuracy ck t0 ltac:(lia) ltac:(fold unit; lia) ltac:(intros X; specialize (F X); lia)) as A0.
  pose proof (C20_clock_accuracy ck t1 ltac:(lia) ltac:(fold unit; lia) F) as A1.
  fold unit in A0, A1.
  destruct (C20_ttl_exact ck t0 t1 size o ts ttl H) as (E1 & E2 & _).
  split; intro D.
  - apply E1.
    assert ((t1 - ck_epoch ck) / unit <= (t0 - ck_epoch ck) / unit + (ttl - 1)); [|lia].
    rewrite <- Z.div_add by lia. apply Z.div_le_mono; lia.
  - eexists. apply E2.
    assert ((t0 - ck_epoch ck) / unit + (ttl + 2) <= (t1 - ck_epoch ck) / unit); [|lia].
    rewrite <- Z.div_add by lia. apply Z.div_le_mono; lia.
Qed.
Print Assumptions C20_ttl_real_time.

(** The clocks divide in floating point, so that the nanosecond clock has not
    shown every nanosecond since April 2023: here it does not return the time, and
    shows two different moments alike. *)
Theorem C20_nanosecond_clock_refuted :
  let ck := {| ck_unit := Nanoseconds; ck_epoch := EPOCH_NS |} in
  let t := 1767225600000000001 in   (* 1 January 2026, one nanosecond past midnight UTC *)
  clock_time ck t <> t - EPOCH_NS /\ clock_time ck t = clock_time ck (t - 1).
Proof. vm_compute. split; [discriminate|reflexivity]. Qed.
Print Assumptions C20_nanosecond_clock_refuted.

(** It is exact during the first 2^53 nanoseconds. *)
Theorem C20_nanosecond_clock_early : forall epoch n,
  0 <= n <= 2 ^ 53 ->
  clock_time {| ck_unit := Nanoseconds; ck_epoch := epoch |} (epoch + n) = n.
Proof.
  intros epoch n H. unfold clock_time. cbn [ck_epoch ck_unit as_ns float_unit].
  replace (epoch + n - epoch) with n by ring. unfold int_truediv.
  replace (n <? 0) with false by lia. rewrite <- (Z.mul_1_r n) at 1.
  apply int_truediv_exact; lia.
Qed.
Print Assumptions C20_nanosecond_clock_early.

(** The units: each is a multiple of a nanosecond; a year is 365.24225 days, a month a twelfth of it. *)
Theorem C20_units :
  (forall u, as_ns u = match u with
   | Nanoseconds => 1 | Microseconds => 10 ^ 3 | Milliseconds => 10 ^ 6 | Centiseconds => 10 ^ 7 | Deciseconds => 10 ^ 8
   | Seconds => 10 ^ 9 | Minutes => 60 * 10 ^ 9 | Hours => 3600 * 10 ^ 9 | Days => 86400 * 10 ^ 9
   | Months => as_ns Years / 12 | Years => as_ns Years
   end) /\
  12 * as_ns Months = as_ns Years /\ 100000 * as_ns Years = 36524225 * as_ns Days.
Proof. split; [intros []; reflexivity|]. split; reflexivity. Qed.
Print Assumptions C20_units.

(** A seconds clock can be a second early, at the very end of a second. *)
Example C20_seconds_early :
  let ck := {| ck_unit := Seconds; ck_epoch := EPOCH_NS |} in
  clock_time ck 1767225599999999999 = (1767225599999999999 - EPOCH_NS) / as_ns Seconds + 1.
Proof. vm_compute. reflexivity. Qed.

Example C20_case :
  let ck := {| ck_unit := Seconds; ck_epoch := EPOCH_NS |} in
  let t := 1767225600500000000 in
  exists ts, make_timestamp ck t 4 BigEndian = Ok ts /\ read_timestamp ts BigEndian = 94694400 /\
    test_timestamp ck (t + 10000000000) ts (Some 10) BigEndian = Ok tt /\
    test_timestamp ck (t + 11000000000) ts (Some 10) BigEndian = Err (TimestampExpired 1) /\
    test_timestamp ck (t - 11000000000) ts (Some 10) BigEndian = Ok tt.
Proof.
  eexists. split; [vm_compute; reflexivity|].
  repeat (refine (conj _ _); [vm_compute; reflexivity|]). vm_compute; reflexivity.
Qed.

(** A clock in months that started at the epoch of the package: a moment before and at
    the third anniversary. *)
Example C20_months_case :
  let ck := {| ck_unit := Months; ck_epoch := EPOCH_NS |} in
  clock_time ck (EPOCH_NS + 36 * as_ns Months) = 36 /\
  clock_time ck (EPOCH_NS + 36 * as_ns Months - 2048) = 35 /\
  clock_time ck (EPOCH_NS + 36 * as_ns Months - 1) = 36 /\
  clock_time ck (EPOCH_NS - 2 * as_ns Months) = -2 /\
  clock_time {| ck_unit := Years; ck_epoch := EPOCH_NS |} (EPOCH_NS + 36 * as_ns Months) = 3.
Proof. vm_compute. repeat split. Qed.
