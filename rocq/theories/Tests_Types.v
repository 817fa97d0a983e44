(** * The tests of the crate for its types, run on the model.

    These are checks that the model behaves as the crate's authors expect; they
    are no properties.  Each example has the name of its test. *)
From Verif Require Import Base Model_Types Model_Bitflags Model_Intervals Spec_Example.

(** ** tests/connection_interval.rs *)
Definition build_with (min max : duration) (latency : N) (timeout : duration) :=
  cib_build (cib_with_supervision_timeout (cib_with_latency (cib_with_range cib_new min max) latency) timeout).
Definition copied (ci : conn_interval) : outcome conn_interval_error (list N) :=
  ci_copy_into_slice ci (zeros 8).

Example connection_interval_valid :
  bind (build_with (from_millis 50) (from_millis 500) 10 (from_secs 15)) copied
  = Ok [0x28; 0x00; 0x90; 0x01; 0x0A; 0x00; 0xDC; 0x05].
Proof. reflexivity. Qed.
Example connection_interval_incomplete :
  cib_build (cib_with_supervision_timeout (cib_with_latency cib_new 10) (from_secs 15)) = Err Incomplete
  /\ cib_build (cib_with_supervision_timeout (cib_with_range cib_new (from_millis 50) (from_millis 500)) (from_secs 15))
     = Err Incomplete
  /\ cib_build (cib_with_latency (cib_with_range cib_new (from_millis 50) (from_millis 500)) 10) = Err Incomplete.
Proof. repeat split. Qed.
Example connection_interval_too_short :
  build_with (from_millis 4) (from_millis 1000) 10 (from_secs 15) = Err (IntervalTooShort (from_millis 4)).
Proof. reflexivity. Qed.
Example connection_interval_too_long :
  build_with (from_millis 100) (from_millis 4001) 10 (from_secs 15) = Err (IntervalTooLong (from_millis 4001)).
Proof. reflexivity. Qed.
Example connection_interval_inverted :
  build_with (from_millis 500) (from_millis 499) 10 (from_secs 15)
  = Err (IntervalInverted (from_millis 500) (from_millis 499)).
Proof. reflexivity. Qed.
Example bad_conn_latency :
  build_with (from_millis 50) (from_millis 500) 500 (from_secs 15) = Err (BadConnectionLatency 500).
Proof. reflexivity. Qed.
Example supervision_timeout_too_short_absolute :
  build_with (from_micros 7500) (from_micros 7500) 0 (from_millis 99)
  = Err (SupervisionTimeoutTooShort (from_millis 99) (from_millis 100)).
Proof. reflexivity. Qed.
Example supervision_timeout_too_short_relative :
  build_with (from_millis 50) (from_millis 500) 10 (from_millis 10999)
  = Err (SupervisionTimeoutTooShort (from_millis 10999) (from_secs 11)).
Proof. reflexivity. Qed.
Example supervision_timeout_too_long :
  build_with (from_millis 50) (from_millis 500) 10 (from_millis 32001)
  = Err (SupervisionTimeoutTooLong (from_millis 32001)).
Proof. reflexivity. Qed.
Example impossible_supervision_timeout :
  build_with (from_millis 50) (from_secs 4) 4 (from_secs 32) = Err (ImpossibleSupervisionTimeout (from_secs 40)).
Proof. reflexivity. Qed.
Example from_bytes_valid :
  let valid := [0x90; 0x00; 0x90; 0x01; 0x0A; 0x00; 0xDC; 0x05] in
  bind (ci_from_bytes valid) copied = Ok valid.
Proof. reflexivity. Qed.
Example fixed_from_bytes_valid :
  fci_from_bytes [0x90; 0x01; 0x0A; 0x00; 0xDC; 0x05]
  = Ok (Build_fixed_conn_interval (from_millis (0x190 * 5 / 4)) 0x0A (from_millis (10 * 0x05DC))).
Proof. reflexivity. Qed.
Example from_bytes_interval_too_short :
  ci_from_bytes [0x05; 0x00; 0x09; 0x00; 0x0A; 0x00; 0xDC; 0x05] = Err (IntervalTooShort (from_micros 6250)).
Proof. reflexivity. Qed.
Example fixed_from_bytes_interval_too_short :
  fci_from_bytes [0x05; 0x00; 0x0A; 0x00; 0xDC; 0x05] = Err (IntervalTooShort (from_micros 6250)).
Proof. reflexivity. Qed.
Example from_bytes_interval_too_long :
  ci_from_bytes [0x90; 0x00; 0x81; 0x0c; 0x0A; 0x00; 0xDC; 0x05] = Err (IntervalTooLong (from_micros 4001250)).
Proof. reflexivity. Qed.
Example fixed_from_bytes_interval_too_long :
  fci_from_bytes [0x81; 0x0c; 0x0A; 0x00; 0xDC; 0x05] = Err (IntervalTooLong (from_micros 4001250)).
Proof. reflexivity. Qed.
Example from_bytes_bad_connection_latency :
  ci_from_bytes [0x90; 0x00; 0x90; 0x01; 0xF4; 0x01; 0xDC; 0x05] = Err (BadConnectionLatency 500).
Proof. reflexivity. Qed.
Example fixed_from_bytes_bad_connection_latency :
  fci_from_bytes [0x90; 0x01; 0xF4; 0x01; 0xDC; 0x05] = Err (BadConnectionLatency 500).
Proof. reflexivity. Qed.
(** Also [fixed_from_bytes_supervision_timeout_too_short_absolute], which has the same text. *)
Example from_bytes_supervision_timeout_too_short_absolute :
  ci_from_bytes [0x06; 0x00; 0x06; 0x00; 0x00; 0x00; 0x09; 0x00]
  = Err (SupervisionTimeoutTooShort (from_millis 90) (from_millis 100)).
Proof. reflexivity. Qed.
Example from_bytes_supervision_timeout_too_short_relative :
  ci_from_bytes [0x90; 0x00; 0x90; 0x01; 0x0A; 0x00; 0x4b; 0x04]
  = Err (SupervisionTimeoutTooShort (from_millis 10990) (from_secs 11)).
Proof. reflexivity. Qed.
Example fixed_from_bytes_supervision_timeout_too_short_relative :
  fci_from_bytes [0x90; 0x01; 0x0A; 0x00; 0x4b; 0x04]
  = Err (SupervisionTimeoutTooShort (from_millis 10990) (from_secs 11)).
Proof. reflexivity. Qed.
Example from_bytes_supervision_timeout_too_long :
  ci_from_bytes [0x90; 0x00; 0x90; 0x01; 0x0A; 0x00; 0x81; 0x0c]
  = Err (SupervisionTimeoutTooLong (from_millis 32010)).
Proof. reflexivity. Qed.
Example fixed_from_bytes_supervision_timeout_too_long :
  fci_from_bytes [0x90; 0x01; 0x0A; 0x00; 0x81; 0x0c] = Err (SupervisionTimeoutTooLong (from_millis 32010)).
Proof. reflexivity. Qed.
Example from_bytes_supervision_timeout_impossible :
  ci_from_bytes [0x90; 0x00; 0x80; 0x0C; 0x03; 0x00; 0x80; 0x0c]
  = Err (ImpossibleSupervisionTimeout (from_millis 32000)).
Proof. reflexivity. Qed.
Example fixed_from_bytes_supervision_timeout_impossible :
  fci_from_bytes [0x80; 0x0C; 0x03; 0x00; 0x80; 0x0c] = Err (ImpossibleSupervisionTimeout (from_millis 32000)).
Proof. reflexivity. Qed.

(** ** tests/expected_connection_length.rs *)
Example expected_connection_length_valid :
  bind (ecl_new (from_millis 200) (from_millis 500)) (fun r => ecl_copy_into_slice r (zeros 4))
  = Ok [0x40; 0x01; 0x20; 0x03].
Proof. reflexivity. Qed.
Example expected_connection_length_interval_too_long :
  ecl_new (from_millis 200) (from_micros 40959376) = Err (ECL_TooLong (from_micros 40959376)).
Proof. reflexivity. Qed.
Example expected_connection_length_inverted :
  ecl_new (from_millis 400) (from_millis 399) = Err (ECL_Inverted (from_millis 400) (from_millis 399)).
Proof. reflexivity. Qed.

(** ** tests/advertisement.rs *)
Definition written (a : advertisement) : outcome Empty_set (list N * nat) :=
  let! r := ad_copy_into_slice a (zeros 31) in Ok (firstn (snd r) (fst r), snd r).
Definition written_is (a : advertisement) (expected : list N) : Prop :=
  written a = Ok (expected, length expected).

Example complete_name :
  written_is (CompleteLocalName [0x50; 0x65; 0x64; 0x6f; 0x6d; 0x65; 0x74; 0x65; 0x72])
    [0x0a; 0x09; 0x50; 0x65; 0x64; 0x6f; 0x6d; 0x65; 0x74; 0x65; 0x72].
Proof. reflexivity. Qed.
Example ibeacon :
  written_is (ManufacturerSpecificData 0x4c
      [0x2; 0x15; 0xfb; 0xb; 0x57; 0xa2; 0x82; 0x28; 0x44; 0xcd; 0x91; 0x3a; 0x94; 0xa1; 0x22;
       0xba; 0x12; 0x6; 0x0; 0x1; 0x0; 0x2; 0xd1])
    [0x1a; 0xff; 0x4c; 0x0; 0x2; 0x15; 0xfb; 0xb; 0x57; 0xa2; 0x82; 0x28; 0x44; 0xcd; 0x91;
     0x3a; 0x94; 0xa1; 0x22; 0xba; 0x12; 0x6; 0x0; 0x1; 0x0; 0x2; 0xd1].
Proof. reflexivity. Qed.
Example eddystone :
  written_is (ServiceData16BitUuid 0xfeaa
      [0x10; 0x00; 0x01; 0x72; 0x75; 0x73; 0x74; 0x2d; 0x6c; 0x61; 0x6e; 0x67; 0x01])
    [0x10; 0x16; 0xaa; 0xfe; 0x10; 0x0; 0x01; 0x72; 0x75; 0x73; 0x74; 0x2d; 0x6c; 0x61; 0x6e; 0x67; 0x01].
Proof. reflexivity. Qed.

(** ** tests/advertising_interval.rs *)
Definition ai_copied (a : advertising_interval) : outcome advertising_interval_error (list N) :=
  ai_copy_into_slice a (zeros 5).

Example advertising_interval_valid : forall F,
  bind (ai_with_range F ConnectableUndirected (from_millis 21) (from_millis 1000)) ai_copied
  = Ok [0x21; 0x00; 0x40; 0x06; 0x00].
Proof. intros [[] []]; reflexivity. Qed.
Example higher_min_scannable_undirected : forall F, version_5_0 F = false ->
  ai_with_range F ScannableUndirected (from_millis 99) (from_millis 1000) = Err (AI_TooShort (from_millis 99)).
Proof. intros [[] []]; intros H; try discriminate H; reflexivity. Qed.
Example normal_min_scannable_undirected : forall F, version_5_0 F = true ->
  bind (ai_with_range F ScannableUndirected (from_millis 99) (from_millis 1000)) ai_copied
  = Ok [0x9E; 0x00; 0x40; 0x06; 0x02].
Proof. intros [[] []]; intros H; try discriminate H; reflexivity. Qed.
Example connectable_directed_high_duty_cycle_without_range :
  bind (ai_build ConnectableDirectedHighDutyCycle) ai_copied = Ok [0x00; 0x00; 0x00; 0x00; 0x01].
Proof. reflexivity. Qed.
Example connectable_directed_high_duty_cycle_with_range : forall F,
  bind (ai_with_range F ConnectableDirectedHighDutyCycle (from_millis 99) (from_millis 1000)) ai_copied
  = Ok [0x00; 0x00; 0x00; 0x00; 0x01].
Proof. intros [[] []]; reflexivity. Qed.
Example other_type_without_range : ai_build ScannableUndirected = Err AI_NoRange.
Proof. reflexivity. Qed.
Example advertising_interval_too_short : forall F,
  ai_with_range F ConnectableUndirected (from_millis 19) (from_millis 1000) = Err (AI_TooShort (from_millis 19)).
Proof. intros [[] []]; reflexivity. Qed.
Example advertising_interval_too_long : forall F,
  ai_with_range F ConnectableUndirected (from_millis 100) (from_millis 10241) = Err (AI_TooLong (from_millis 10241)).
Proof. intros [[] []]; reflexivity. Qed.
Example advertising_interval_inverted : forall F,
  ai_with_range F ConnectableUndirected (from_millis 500) (from_millis 499)
  = Err (AI_Inverted (from_millis 500) (from_millis 499)).
Proof. intros [[] []]; reflexivity. Qed.

(** ** tests/scan_window.rs *)
Definition window (interval open : duration) : outcome scan_window_error scan_window :=
  let! b := sw_start_every interval in sw_open_for b open.

Example scan_window_valid :
  window (from_millis 10) (from_millis 5) = Ok (Build_scan_window (from_millis 10) (from_millis 5)).
Proof. reflexivity. Qed.
Example scan_interval_too_short : sw_start_every (from_millis 2) = Err (SW_TooShort (from_millis 2)).
Proof. reflexivity. Qed.
Example scan_interval_too_long : sw_start_every (from_millis 10241) = Err (SW_TooLong (from_millis 10241)).
Proof. reflexivity. Qed.
Example window_too_short : window (from_millis 10) (from_millis 2) = Err (SW_TooShort (from_millis 2)).
Proof. reflexivity. Qed.
Example scan_window_inverted :
  window (from_millis 100) (from_millis 101) = Err (SW_Inverted (from_millis 100) (from_millis 101)).
Proof. reflexivity. Qed.
Example inverted_and_window_too_long :
  window (from_millis 100) (from_millis 10241) = Err (SW_Inverted (from_millis 100) (from_millis 10241)).
Proof. reflexivity. Qed.
Example scan_window_copy_into_slice :
  bind (window (from_millis 10) (from_millis 5)) (fun w => sw_copy_into_slice w (zeros 4))
  = Ok [0x10; 0x00; 0x08; 0x00].
Proof. reflexivity. Qed.

(** ** The documentation test of [bitflag_array!] (src/bitflag_array.rs:37-59) *)
Example letters :
  let ALPHA := (0%nat, 0x01) in let BETA := (0%nat, 0x02) in
  let THETA := (1%nat, 0x01) in let OMEGA := (2%nat, 0x80) in
  exists flags both : list N,
    bind (@ba_flag_or Empty_set 3 ALPHA BETA) (fun fl => ba_or fl THETA) = Ok flags
    /\ ba_bits flags = [0x03; 0x01; 0x00]
    /\ ba_is_empty flags = false
    /\ @ba_is_set Empty_set flags OMEGA = Ok false
    /\ @ba_flag_or Empty_set 3 BETA THETA = Ok both
    /\ ba_contains flags both = true.
Proof. exists [3; 1; 0], [2; 1; 0]. repeat split. Qed.
