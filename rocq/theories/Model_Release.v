(** * The release profile.

    Where the source has arithmetic on [u32] and [u64], Model_Intervals.v gives
    [Panic] on overflow, as the debug profile does.  Here is the same code as the
    release profile runs it: the arithmetic wraps around.  Failing asserts, slice
    bounds and the multiplication of a [Duration] panic in both profiles. *)
From Verif Require Import Base Model_Types Model_Intervals.

(** [+] and [*] on an integer type with [bound] values, without overflow checks
    (e.g. src/types/connection_interval.rs:96). *)
Definition wrapped (bound v : N) : N := v mod bound.

(** src/types/connection_interval.rs:89-97, [interval_as_u16]. *)
Definition interval_as_u16_release (d : duration) : N :=
  let a := wrapped u64_bound (800 * as_secs d) in
  let m := wrapped u32_bound (4 * subsec_millis d) in
  as_u16 (wrapped u32_bound (as_u32 a + m / 5)).

(** src/types/connection_interval.rs:99-103, [timeout_as_u16]. *)
Definition timeout_as_u16_release (d : duration) : N :=
  let a := wrapped u64_bound (100 * as_secs d) in
  as_u16 (wrapped u32_bound (as_u32 a + subsec_millis d / 10)).

(** src/types/connection_interval.rs:44-54, [copy_into_slice]. *)
Definition ci_copy_into_slice_release {E} (ci : conn_interval) (buf : list N) : outcome E (list N) :=
  let! _ := assert (Nat.leb 8 (length buf)) in
  let! buf := update_range buf 0 2 (write_u16 (interval_as_u16_release (fst (ci_interval ci)))) in
  let! buf := update_range buf 2 4 (write_u16 (interval_as_u16_release (snd (ci_interval ci)))) in
  let! buf := update_range buf 4 6 (write_u16 (ci_latency ci)) in
  update_range buf 6 8 (write_u16 (timeout_as_u16_release (ci_timeout ci))).

(** src/types/connection_interval.rs:192-252, [build]. *)
Definition cib_build_release (b : ci_builder) : outcome conn_interval_error conn_interval :=
  match b_interval b, b_latency b, b_timeout b with
  | Some interval, Some latency, Some timeout =>
      if fst interval <? from_micros 7500 then Err (IntervalTooShort (fst interval)) else
      if from_secs 4 <? snd interval then Err (IntervalTooLong (snd interval)) else
      if snd interval <? fst interval
      then Err (IntervalInverted (fst interval) (snd interval)) else
      if 0x1F3 <? latency then Err (BadConnectionLatency latency) else
      let! t1 := duration_mul (snd interval) (wrapped u32_bound (1 + latency)) in
      let! computed := duration_mul t1 2 in
      if from_secs 32 <=? computed then Err (ImpossibleSupervisionTimeout computed) else
      let timeout_min := N.max computed (from_millis 100) in
      if timeout <=? timeout_min
      then Err (SupervisionTimeoutTooShort timeout timeout_min) else
      if from_secs 32 <? timeout then Err (SupervisionTimeoutTooLong timeout) else
      Ok {| ci_interval := interval; ci_latency := latency; ci_timeout := timeout |}
  | _, _, _ => Err Incomplete
  end.

(** src/types/expected_connection_length.rs:52-59, [duration_as_u16]; the same
    text is at src/types/advertising_interval.rs:58-65 and
    src/types/scan_window.rs:72-79. *)
Definition duration_as_u16_release (d : duration) : N :=
  let a := wrapped u32_bound (1600 * as_u32 (as_secs d)) in
  as_u16 (wrapped u32_bound (a + subsec_micros d / 625)).

(** src/types/expected_connection_length.rs:23-38, [new]. *)
Definition ecl_new_release (min max : duration)
    : outcome expected_conn_length_error expected_conn_length :=
  if max <? min then Err (ECL_Inverted min max) else
  let! _ := assert (duration_as_u16_release (from_micros 40959375) =? 0xFFFF) in
  if from_micros 40959375 <? max then Err (ECL_TooLong max) else
  Ok {| ecl_range := (min, max) |}.

(** src/types/expected_connection_length.rs:45-50, [copy_into_slice]. *)
Definition ecl_copy_into_slice_release {E} (e : expected_conn_length) (buf : list N)
    : outcome E (list N) :=
  let! _ := assert (Nat.leb 4 (length buf)) in
  let! buf := update_range buf 0 2 (write_u16 (duration_as_u16_release (fst (ecl_range e)))) in
  update_range buf 2 4 (write_u16 (duration_as_u16_release (snd (ecl_range e)))).

(** src/types/advertising_interval.rs:48-56, [copy_into_slice]. *)
Definition ai_copy_into_slice_release {E} (a : advertising_interval) (buf : list N)
    : outcome E (list N) :=
  let! buf :=
    if advertising_type_eqb (ai_type a) ConnectableDirectedHighDutyCycle then
      update_range buf 0 4 (copy_from_slice (zeros 4))
    else
      let! buf := update_range buf 0 2 (write_u16 (duration_as_u16_release (fst (ai_interval a)))) in
      update_range buf 2 4 (write_u16 (duration_as_u16_release (snd (ai_interval a)))) in
  set_idx buf 4 (advertising_type_as_u8 (ai_type a)).

(** src/types/scan_window.rs:36-41, [copy_into_slice]. *)
Definition sw_copy_into_slice_release {E} (s : scan_window) (buf : list N) : outcome E (list N) :=
  let! _ := assert (Nat.leb 4 (length buf)) in
  let! buf := update_range buf 0 2 (write_u16 (duration_as_u16_release (sw_interval s))) in
  update_range buf 2 4 (write_u16 (duration_as_u16_release (sw_window s))).
