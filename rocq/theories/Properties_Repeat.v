(** * Getters and defaults; asking again for the parameters of a connection
    (properties C66, C67). *)
From Verif Require Import Base Model_Types Model_Bitflags Model_Intervals Model_EventBase Model_Event Model_Host
  Model_Access
  Spec_Wire Spec_Errors Spec_Interval Spec_Example Spec_Host Spec_Conform Spec_Sent Spec_Repeat
  Proofs_Sent Proofs_Repeat.
Open Scope list_scope.
Open Scope N_scope.

(** ** C66: time parameters report what they were made from *)

(** A built connection interval: the values given last. *)
Theorem C66_built calls ci : build_after calls = Ok ci ->
  given_range calls = Some (ci_get_interval ci)
  /\ given_latency calls = Some (ci_get_conn_latency ci)
  /\ given_timeout calls = Some (ci_get_supervision_timeout ci).
Proof. exact (getters_built calls ci). Qed.
Print Assumptions C66_built.

(** Received ones: the fields received. *)
Theorem C66_received bs ci : bytes bs -> ci_from_bytes bs = Ok ci ->
  exists i m t rest, bs = le 2 i ++ le 2 m ++ le 2 (ci_get_conn_latency ci) ++ le 2 t ++ rest
    /\ u16 i /\ u16 m /\ u16 (ci_get_conn_latency ci) /\ u16 t
    /\ ci_get_interval ci = (i * interval_unit, m * interval_unit)
    /\ ci_get_supervision_timeout ci = t * timeout_unit.
Proof. exact (getters_received bs ci). Qed.
Print Assumptions C66_received.

Theorem C66_fixed bs ci : bytes bs -> fci_from_bytes bs = Ok ci ->
  exists i t rest, bs = le 2 i ++ le 2 (fci_get_conn_latency ci) ++ le 2 t ++ rest
    /\ u16 i /\ u16 (fci_get_conn_latency ci) /\ u16 t
    /\ fci_get_interval ci = i * interval_unit
    /\ fci_get_supervision_timeout ci = t * timeout_unit.
Proof. exact (getters_fixed bs ci). Qed.
Print Assumptions C66_fixed.

(** Nothing else distinguishes two connection intervals. *)
Theorem C66_nothing_else a b : ci_get_interval a = ci_get_interval b ->
  ci_get_conn_latency a = ci_get_conn_latency b ->
  ci_get_supervision_timeout a = ci_get_supervision_timeout b -> a = b.
Proof. exact (getters_decide a b). Qed.
Print Assumptions C66_nothing_else.

(** The advertising type is the one asked for, and the one sent. *)
Theorem C66_advertising F t min max a : duration_ok min -> duration_ok max ->
  aib_with_range F (ai_for_type t) min max = Ok a \/ aib_build (ai_for_type t) = Ok a ->
  ai_get_advertising_type a = t
  /\ exists times, length times = 4%nat
     /\ @writes_front Empty_set (ai_copy_into_slice a) (times ++ [advertising_type_code t]).
Proof. exact (getters_advertising F t min max a). Qed.
Print Assumptions C66_advertising.

Theorem C66_scan interval window b s : sw_start_every interval = Ok b -> sw_open_for b window = Ok s ->
  sw_get_interval s = interval /\ sw_get_window s = window.
Proof. exact (getters_scan interval window b s). Qed.
Print Assumptions C66_scan.

Theorem C66_scan_equal a b : sw_eqb a b = true <->
  sw_get_interval a = sw_get_interval b /\ sw_get_window a = sw_get_window b.
Proof. exact (scan_equal a b). Qed.
Print Assumptions C66_scan_equal.

(** A builder made by [default] builds the same as one made by [new]. *)
Theorem C66_default_builder calls : cib_build (fold_left apply_call calls cib_default) = build_after calls.
Proof. exact (default_builder calls). Qed.
Print Assumptions C66_default_builder.

(** The default advertising channels are all three, which are never refused. *)
Theorem C66_default_channels F : channels_default F = 2 ^ 0 + 2 ^ 1 + 2 ^ 2.
Proof. exact (default_channels F). Qed.
Print Assumptions C66_default_channels.

Theorem C66_default_accepted F V E p : ap_channel_map p = channels_default F ->
  @rejection V E (CLeSetAdvertisingParameters p) = None.
Proof. exact (default_not_rejected F V E p). Qed.
Print Assumptions C66_default_accepted.

Example C66_case :
  (exists ci, build_after [WithLatency 3; WithRange (ms 50) (ms 500); WithTimeout (ms 4001)] = Ok ci
     /\ ci_get_interval ci = (ms 50, ms 500) /\ ci_get_supervision_timeout ci = ms 4001)
  /\ (exists ci, fci_from_bytes [6; 0; 1; 0; 11; 0; 9] = Ok ci
        /\ fci_get_interval ci = us 7500 /\ fci_get_conn_latency ci = 1)
  /\ (exists a, aib_with_range F41 (ai_for_type NonConnectableUndirected) (ms 100) (ms 200) = Ok a)
  /\ (exists s, sw_start_every (ms 20) = Ok (ms 20) /\ sw_open_for (ms 20) (ms 10) = Ok s
        /\ sw_get_window s = ms 10).
Proof.
  split; [eexists; split; [vm_compute; reflexivity|split; reflexivity]|].
  split; [eexists; split; [vm_compute; reflexivity|split; reflexivity]|].
  split; [eexists; vm_compute; reflexivity|].
  eexists. split; [vm_compute; reflexivity|]. split; [vm_compute; reflexivity|reflexivity].
Qed.

(** ** C67: asking for the reported parameters again changes nothing

    Refuted as stated: 11.25 ms becomes 10 ms. *)
Theorem C67_refuted F V : exists h len t t', u16 h /\ ecl_reachable len /\ legal_timing t
  /\ round F V h len t t' /\ lt_interval t' <> lt_interval t.
Proof. exact (again_refuted F V). Qed.
Print Assumptions C67_refuted.

(** One round, exactly: latency and timeout stay; the interval stays if it is a
    multiple of 5 ms and is 1.25 ms shorter otherwise. *)
Theorem C67_round F V h len t t' : u16 h -> ecl_reachable len -> typed_timing t ->
  round F V h len t t' <->
  legal_timing t
  /\ t' = with_interval t (if lt_interval t mod 4 =? 0 then lt_interval t else lt_interval t - 1).
Proof. exact (fun Hh Hlen => round_exactly F V h Hh len Hlen t t'). Qed.
Print Assumptions C67_round.

(** Any number of rounds: from 10 ms on, the interval shrinks to the next
    multiple of 5 ms and stays there. *)
Theorem C67_rounds F V h len n t t' : u16 h -> ecl_reachable len -> legal_timing t ->
  8 <= lt_interval t ->
  rounds F V h len n t t' <->
  t' = with_interval t (N.max (lt_interval t - N.of_nat n) (4 * (lt_interval t / 4))).
Proof. exact (fun Hh Hlen => rounds_exactly F V h Hh len Hlen n t t'). Qed.
Print Assumptions C67_rounds.

(** From 7.5 ms or 8.75 ms it shrinks to 6.25 ms, whose report is refused. *)
Theorem C67_lost F V h len t : u16 h -> ecl_reachable len -> legal_timing t ->
  lt_interval t < 8 ->
  exists t', rounds F V h len (N.to_nat (lt_interval t - 5)) t t' /\ t' = with_interval t 5
  /\ exists e, event_new F V (timing_report h t') = Err e.
Proof. exact (fun Hh Hlen => rounds_lost F V h Hh len Hlen t). Qed.
Print Assumptions C67_lost.

(** The hypotheses hold, for 23 units (28.75 ms) as well as for 7. *)
Example C67_case :
  let t i := {| lt_interval := i; lt_latency := 2; lt_timeout := 200 |} in
  legal_timing (t 23) /\ legal_timing (t 7) /\ ecl_reachable no_length
  /\ (forall F V t', rounds F V 1 no_length 5 (t 23) t' <-> t' = t 20).
Proof.
  cbv zeta.
  assert (L : forall i, In i [7; 23] -> legal_timing {| lt_interval := i; lt_latency := 2; lt_timeout := 200 |}).
  { intros i [<-|[<-|[]]]; unfold legal_timing, legal_parameters; cbn; repeat split; discriminate || reflexivity. }
  split; [apply L; now right; left|]. split; [apply L; now left|]. split; [exact no_length_reachable|].
  intros F V t'. apply (C67_rounds F V 1 no_length 5 {| lt_interval := 23; lt_latency := 2; lt_timeout := 200 |} t'); [reflexivity|exact no_length_reachable|apply L; now right; left|discriminate].
Qed.
