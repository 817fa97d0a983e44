(** * Properties of the time parameters: C20 to C26. *)
From Verif Require Import Base Model_Types Model_Bitflags Model_Intervals
  Spec_Wire Spec_Interval Spec_Example Proofs_Serialize Proofs_Interval Proofs_Time.

(** ** C20 The builder accepts exactly the documented combinations *)

Theorem C20_accepts calls ci : build_after calls = Ok ci <->
  exists min max latency timeout,
    given_range calls = Some (min, max) /\ given_latency calls = Some latency
    /\ given_timeout calls = Some timeout /\ legal_interval min max latency timeout
    /\ ci = {| ci_interval := (min, max); ci_latency := latency; ci_timeout := timeout |}.
Proof. exact (build_accepts calls ci). Qed.
Print Assumptions C20_accepts.
Example C20_accepts_case :
  build_after [WithLatency 3; WithRange (ms 500) (ms 10); WithTimeout (ms 4001);
               WithRange (ms 50) (ms 500)]
  = Ok {| ci_interval := (ms 50, ms 500); ci_latency := 3; ci_timeout := ms 4001 |}.
Proof. vm_compute. reflexivity. Qed.

(** The error is that of the first failing check. *)
Theorem C20_first_error calls : build_after calls =
  match given_range calls, given_latency calls, given_timeout calls with
  | Some (min, max), Some latency, Some timeout =>
      match first_failure (interval_checks min max latency timeout) with
      | Some e => Err e
      | None => Ok {| ci_interval := (min, max); ci_latency := latency; ci_timeout := timeout |}
      end
  | _, _, _ => Err Incomplete
  end.
Proof. exact (build_after_spec calls). Qed.
Print Assumptions C20_first_error.
Example C20_first_error_case :
  build_after [WithLatency 3; WithRange (ms 50) (ms 500); WithTimeout (ms 4000)]
  = Err (SupervisionTimeoutTooShort (ms 4000) (ms 4000))
  /\ build_after [WithLatency 3; WithRange (ms 50) (ms 500); WithRange (ms 500) (ms 50)]
     = Err Incomplete
  /\ build_after [WithLatency 3; WithRange (ms 500) (ms 50); WithTimeout 0]
     = Err (IntervalInverted (ms 500) (ms 50)).
Proof. repeat split; vm_compute; reflexivity. Qed.

Theorem C20_no_panic calls : build_after calls <> Panic.
Proof. exact (build_no_panic calls). Qed.
Print Assumptions C20_no_panic.
Example C20_no_panic_case :
  build_after [WithRange (duration_bound - 1) (duration_bound - 1); WithLatency 0xFFFF;
               WithTimeout (duration_bound - 1)]
  = Err (IntervalTooLong (duration_bound - 1)).
Proof. vm_compute. reflexivity. Qed.

(** ** C21 Serialized connection intervals and the legal ranges *)

(** 7.5 ms, the documented minimum, is sent as 0x0005; 0x0006 is the least legal value. *)
Theorem C21_lower_bound_refuted : exists calls ci,
  build_after calls = Ok ci /\ @ci_copy_into_slice Empty_set ci (repeat 0 8)
    = Ok ([0x05; 0x00] ++ [0x08; 0x00] ++ [0x00; 0x00] ++ [0x64; 0x00]).
Proof. exact lower_bound_refuted. Qed.
Print Assumptions C21_lower_bound_refuted.

(** All other bounds hold, and the lower bound fails exactly below 8 ms. *)
Theorem C21_ranges ci : ci_reachable ci ->
  let a := sent_interval (fst (ci_interval ci)) in
  let b := sent_interval (snd (ci_interval ci)) in
  let t := ci_timeout ci / timeout_unit in
  5 <= a /\ a <= b /\ b <= 0x0C80 /\ ci_latency ci <= 0x01F3 /\ 0x000A <= t /\ t <= 0x0C80
  /\ (a < 6 <-> fst (ci_interval ci) < ms 8).
Proof. exact (sent_ranges ci). Qed.
Print Assumptions C21_ranges.

Theorem C21_bytes ci : ci_reachable ci ->
  @writes_front Empty_set (ci_copy_into_slice ci) (conn_interval_bytes ci).
Proof. exact (fun H => ci_copy_spec ci (ci_reachable_legal ci H)). Qed.
Print Assumptions C21_bytes.

(** The value sent is the number of whole 1.25 ms units or one less; it is one
    less exactly when the part below one millisecond would have completed a unit. *)
Theorem C21_off_by_one ci : ci_reachable ci ->
  forall d, In d [fst (ci_interval ci); snd (ci_interval ci)] ->
  sent_interval d <= d / interval_unit <= sent_interval d + 1
  /\ (sent_interval d < d / interval_unit <->
      let whole := d / ms 1 in let part := d mod ms 1 in
      (whole mod 5 = 1 /\ us 250 <= part) \/ (whole mod 5 = 2 /\ us 500 <= part)
      \/ (whole mod 5 = 3 /\ us 750 <= part)).
Proof. exact (sent_interval_off ci). Qed.
Print Assumptions C21_off_by_one.
Example C21_case :
  let ci := {| ci_interval := (ms 50, us 498750); ci_latency := 3; ci_timeout := ms 4001 |} in
  ci_reachable ci
  /\ conn_interval_bytes ci = [40; 0; 142; 1; 3; 0; 144; 1]
  /\ us 498750 / interval_unit = 399 /\ sent_interval (us 498750) = 398
  /\ ci_copy_into_slice ci [9; 9; 9; 9; 9; 9; 9; 9; 9]
     = @Ok Empty_set _ [40; 0; 142; 1; 3; 0; 144; 1; 9].
Proof.
  cbv zeta. split.
  - left. exists [WithRange (ms 50) (us 498750); WithLatency 3; WithTimeout (ms 4001)].
    vm_compute. reflexivity.
  - repeat split; vm_compute; reflexivity.
Qed.

(** ** C22 Decode and re-encode *)

Theorem C22_round_trip_refuted : exists bs ci,
  bytes bs /\ ci_from_bytes bs = Ok ci
  /\ @ci_copy_into_slice Empty_set ci (repeat 0 8) <> Ok bs.
Proof. exact round_trip_refuted. Qed.
Print Assumptions C22_round_trip_refuted.

Theorem C22_round_trip i m latency t rest buf ci : legal_parameters i m latency t ->
  length buf = 8%nat ->
  ci_from_bytes (le 2 i ++ le 2 m ++ le 2 latency ++ le 2 t ++ rest) = Ok ci ->
  exists out, @ci_copy_into_slice Empty_set ci buf = Ok out
  /\ out = le 2 (if i mod 4 =? 0 then i else i - 1) ++ le 2 (if m mod 4 =? 0 then m else m - 1)
           ++ le 2 latency ++ le 2 t
  /\ (out = le 2 i ++ le 2 m ++ le 2 latency ++ le 2 t <-> i mod 4 = 0 /\ m mod 4 = 0).
Proof. exact (round_trip_iff i m latency t rest buf ci). Qed.
Print Assumptions C22_round_trip.
Example C22_case :
  legal_parameters 40 399 3 401
  /\ ci_from_bytes (le 2 40 ++ le 2 399 ++ le 2 3 ++ le 2 401 ++ [7])
     = Ok {| ci_interval := (ms 50, us 498750); ci_latency := 3; ci_timeout := ms 4010 |}.
Proof. split; [unfold legal_parameters; lia|vm_compute; reflexivity]. Qed.

(** ** C23 Wire parameters are accepted exactly when legal *)

Theorem C23_interval bs ci : bytes bs ->
  ci_from_bytes bs = Ok ci <->
  exists i m latency t rest, legal_parameters i m latency t
    /\ bs = le 2 i ++ le 2 m ++ le 2 latency ++ le 2 t ++ rest
    /\ ci = {| ci_interval := (i * interval_unit, m * interval_unit);
               ci_latency := latency; ci_timeout := t * timeout_unit |}.
Proof. exact (ci_from_bytes_iff bs ci). Qed.
Print Assumptions C23_interval.

Theorem C23_interval_panic bs : bytes bs -> ci_from_bytes bs = Panic <-> (length bs < 8)%nat.
Proof. exact (ci_from_bytes_panic bs). Qed.
Print Assumptions C23_interval_panic.

Theorem C23_interval_error bs : bytes bs -> (8 <= length bs)%nat ->
  let v k := nth k bs 0 + 256 * nth (S k) bs 0 in
  let e := first_failure (interval_checks (v 0%nat * interval_unit) (v 2%nat * interval_unit) (v 4%nat)
                            (v 6%nat * timeout_unit)) in
  match e with
  | Some e => ci_from_bytes bs = Err e
  | None => exists ci, ci_from_bytes bs = Ok ci
  end.
Proof. exact (ci_from_bytes_error bs). Qed.
Print Assumptions C23_interval_error.

Theorem C23_fixed bs ci : bytes bs ->
  fci_from_bytes bs = Ok ci <->
  exists i latency t rest, legal_parameters i i latency t
    /\ bs = le 2 i ++ le 2 latency ++ le 2 t ++ rest
    /\ ci = {| fci_interval := i * interval_unit; fci_latency := latency;
               fci_timeout := t * timeout_unit |}.
Proof. exact (fci_from_bytes_iff bs ci). Qed.
Print Assumptions C23_fixed.

Theorem C23_fixed_error bs : bytes bs -> (6 <= length bs)%nat ->
  let v k := nth k bs 0 + 256 * nth (S k) bs 0 in
  let e := first_failure (interval_checks (v 0%nat * interval_unit) (v 0%nat * interval_unit) (v 2%nat)
                            (v 4%nat * timeout_unit)) in
  match e with
  | Some e => fci_from_bytes bs = Err e
  | None => exists ci, fci_from_bytes bs = Ok ci
  end.
Proof. exact (fci_from_bytes_error bs). Qed.
Print Assumptions C23_fixed_error.
Theorem C23_fixed_panic bs : bytes bs -> fci_from_bytes bs = Panic <-> (length bs < 6)%nat.
Proof. exact (fci_from_bytes_panic bs). Qed.
Print Assumptions C23_fixed_panic.
Example C23_case :
  ci_from_bytes [6; 0; 0x80; 0x0C; 0; 0; 0x21; 0x03]
  = Ok {| ci_interval := (us 7500, ms 4000); ci_latency := 0; ci_timeout := ms 8010 |}
  /\ ci_from_bytes [6; 0; 0x80; 0x0C; 0; 0; 0x20; 0x03]
     = Err (SupervisionTimeoutTooShort (ms 8000) (ms 8000))
  /\ fci_from_bytes [6; 0; 0; 0; 11; 0; 9]
     = Ok {| fci_interval := us 7500; fci_latency := 0; fci_timeout := ms 110 |}
  /\ fci_from_bytes [5; 0; 0; 0; 11; 0] = Err (IntervalTooShort (us 6250))
  /\ fci_from_bytes [6; 0; 0; 2; 11; 0] = Err (BadConnectionLatency 512).
Proof. repeat split; vm_compute; reflexivity. Qed.

(** ** C24 Expected connection length *)

Theorem C24_accepts min max e : ecl_new min max = Ok e <->
  min <= max /\ max <= us 40959375 /\ e = {| ecl_range := (min, max) |}.
Proof. exact (ecl_accepts min max e). Qed.
Print Assumptions C24_accepts.

Theorem C24_rejects min max :
  ecl_new min max <> Panic
  /\ (max < min -> ecl_new min max = Err (ECL_Inverted min max))
  /\ (min <= max -> us 40959375 < max -> ecl_new min max = Err (ECL_TooLong max)).
Proof. exact (ecl_rejects min max). Qed.
Print Assumptions C24_rejects.

Theorem C24_sent e : ecl_reachable e ->
  slots (fst (ecl_range e)) <= slots (snd (ecl_range e)) /\ slots (snd (ecl_range e)) <= 0xFFFF
  /\ @writes_front Empty_set (ecl_copy_into_slice e) (expected_length_bytes e).
Proof. exact (ecl_sent e). Qed.
Print Assumptions C24_sent.
Example C24_case :
  ecl_reachable {| ecl_range := (us 1250, us 40959375) |}
  /\ expected_length_bytes {| ecl_range := (us 1250, us 40959375) |} = [2; 0; 0xFF; 0xFF]
  /\ ecl_new (us 1250) (us 40959375 + 1) = Err (ECL_TooLong (us 40959375 + 1)).
Proof.
  split; [exists (us 1250), (us 40959375)|]; repeat split; vm_compute; reflexivity.
Qed.

(** ** C25 Advertising interval *)

(** Only scannable undirected advertising before version 5.0 has the higher minimum. *)
Theorem C25_with_range F t min max :
  ai_with_range F t min max =
  let low := negb (version_5_0 F) && match t with ScannableUndirected => true | _ => false end in
  match first_failure [ Check (min <? if low then ms 100 else ms 20) (AI_TooShort min);
                        Check (ms 10240 <? max) (AI_TooLong max);
                        Check (max <? min) (AI_Inverted min max) ] with
  | Some e => Err e
  | None => Ok {| ai_interval := (min, max); ai_type := t |}
  end.
Proof. exact (ai_with_range_error F t min max). Qed.
Print Assumptions C25_with_range.

Theorem C25_build t a : ai_build t = Ok a <->
  t = ConnectableDirectedHighDutyCycle /\ a = {| ai_interval := (0, 0); ai_type := t |}.
Proof. exact (ai_build_spec t a). Qed.
Print Assumptions C25_build.

Theorem C25_sent F a : ai_reachable F a ->
  @writes_front Empty_set (ai_copy_into_slice a) (advertising_interval_bytes a)
  /\ (ai_type a <> ConnectableDirectedHighDutyCycle ->
      0x0020 <= slots (fst (ai_interval a)) /\ slots (fst (ai_interval a)) <= slots (snd (ai_interval a))
      /\ slots (snd (ai_interval a)) <= 0x4000).
Proof. exact (ai_sent F a). Qed.
Print Assumptions C25_sent.

(** The documentation asks for 100 ms here. *)
Theorem C25_non_connectable_refuted :
  exists a, ai_with_range F41 NonConnectableUndirected (ms 20) (ms 50) = Ok a.
Proof. exact ai_nonconnectable_refuted. Qed.
Print Assumptions C25_non_connectable_refuted.
Example C25_case :
  let a := {| ai_interval := (us 20625, ms 10240); ai_type := ConnectableDirectedLowDutyCycle |} in
  ai_reachable F41 a /\ advertising_interval_bytes a = [33; 0; 0; 0x40; 4]
  /\ ai_with_range F41 ScannableUndirected (ms 99) (ms 200) = Err (AI_TooShort (ms 99))
  /\ ai_with_range F50 ScannableUndirected (ms 99) (ms 200)
     = Ok {| ai_interval := (ms 99, ms 200); ai_type := ScannableUndirected |}.
Proof.
  cbv zeta. split.
  - left. exists ConnectableDirectedLowDutyCycle, (us 20625), (ms 10240).
    repeat split; vm_compute; reflexivity.
  - repeat split; vm_compute; reflexivity.
Qed.

(** ** C26 Scan window *)

Theorem C26_accepts interval window s :
  (sw_start_every interval = Ok interval /\ sw_open_for interval window = Ok s) <->
  us 2500 <= window /\ window <= interval /\ interval <= ms 10240
  /\ s = {| sw_interval := interval; sw_window := window |}.
Proof. exact (sw_accepts interval window s). Qed.
Print Assumptions C26_accepts.

Theorem C26_interval_errors interval :
  sw_start_every interval <> Panic
  /\ (interval < us 2500 -> sw_start_every interval = Err (SW_TooShort interval))
  /\ (ms 10240 < interval -> sw_start_every interval = Err (SW_TooLong interval)).
Proof. exact (sw_start_every_errors interval). Qed.
Print Assumptions C26_interval_errors.

Theorem C26_window_errors interval window : sw_start_every interval = Ok interval ->
  sw_open_for interval window <> Panic
  /\ (interval < window -> sw_open_for interval window = Err (SW_Inverted interval window))
  /\ (window <= interval -> window < us 2500 -> sw_open_for interval window = Err (SW_TooShort window)).
Proof. exact (sw_open_for_errors interval window). Qed.
Print Assumptions C26_window_errors.

Theorem C26_sent s : sw_reachable s ->
  @writes_front Empty_set (sw_copy_into_slice s) (scan_window_bytes s)
  /\ 0x0004 <= slots (sw_window s) /\ slots (sw_window s) <= slots (sw_interval s)
  /\ slots (sw_interval s) <= 0x4000.
Proof. exact (sw_sent s). Qed.
Print Assumptions C26_sent.
Example C26_case :
  let s := {| sw_interval := ms 10240; sw_window := us 3124 |} in
  sw_reachable s /\ scan_window_bytes s = [0; 0x40; 4; 0]
  /\ sw_open_for (us 3000) (us 3001) = Err (SW_Inverted (us 3000) (us 3001)).
Proof.
  cbv zeta. split; [exists (ms 10240), (us 3124)|]; repeat split; vm_compute; reflexivity.
Qed.
