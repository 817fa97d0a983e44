(** * The release profile: C90. *)
From Verif Require Import Base Model_Types Model_Intervals Model_Release Spec_Wire Spec_Interval Spec_Example
  Proofs_Release.

(** ** C90: debug and release builds behave alike

    The functions with arithmetic that is checked in one profile and wraps around
    in the other; in each the left side is the release profile. *)
Theorem C90_build b : cib_build_release b = cib_build b.
Proof. exact (build_profiles b). Qed.
Print Assumptions C90_build.

Theorem C90_expected_length min max : ecl_new_release min max = ecl_new min max.
Proof. exact (length_profiles min max). Qed.
Print Assumptions C90_expected_length.

(** What is sent of a value a program can hold. *)
Theorem C90_conn_interval E ci buf : ci_reachable ci ->
  @ci_copy_into_slice_release E ci buf = ci_copy_into_slice ci buf.
Proof. exact (fun H => ci_profiles ci H buf). Qed.
Print Assumptions C90_conn_interval.

Theorem C90_length_sent E e buf : ecl_reachable e ->
  @ecl_copy_into_slice_release E e buf = ecl_copy_into_slice e buf.
Proof. exact (fun H => ecl_profiles e H buf). Qed.
Print Assumptions C90_length_sent.

Theorem C90_scan_window E s buf : sw_reachable s ->
  @sw_copy_into_slice_release E s buf = sw_copy_into_slice s buf.
Proof. exact (fun H => sw_profiles s H buf). Qed.
Print Assumptions C90_scan_window.

Theorem C90_advertising_interval E F a buf : ai_reachable F a ->
  @ai_copy_into_slice_release E a buf = ai_copy_into_slice a buf.
Proof. exact (fun H => ai_profiles F a H buf). Qed.
Print Assumptions C90_advertising_interval.

(** The longest connection interval there is; a value that no program can hold
    would be sent by one profile and panic in the other. *)
Example C90_case :
  (let ci := {| ci_interval := (us 7500, ms 4000); ci_latency := 2; ci_timeout := ms 32000 |} in
      build_after [WithRange (us 7500) (ms 4000); WithLatency 2; WithTimeout (ms 32000)] = Ok ci
      /\ @ci_copy_into_slice_release Empty_set ci (repeat 7 9) = Ok [5; 0; 0x80; 0x0C; 2; 0; 0x80; 0x0C; 7])
  /\ (let e := {| ecl_range := (0, 10000000 * ms 1000) |} in
      @ecl_copy_into_slice Empty_set e (repeat 0 4) = Panic
      /\ exists l, @ecl_copy_into_slice_release Empty_set e (repeat 0 4) = Ok l).
Proof. split; [split; vm_compute; reflexivity|]. split; [vm_compute; reflexivity|]. eexists. vm_compute. reflexivity. Qed.
