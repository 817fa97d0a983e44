(** * The settings the controller ends up with: C76, C77. *)
From Verif Require Import Base Model_Types Model_Intervals Model_EventBase Model_Command Model_Event Model_Host
  Spec_Wire Spec_Interval Spec_Errors Spec_Host Spec_Link Spec_Example Spec_Split Spec_Pass Spec_Device
  Proofs_Base Proofs_Streams Proofs_Device.
Open Scope list_scope.
Open Scope N_scope.

(** ** C76: the controller ends up with the settings that were asked for

    [d]: the settings before the session.  The packets are what the controller
    reads from the bytes that were written to it. *)
Theorem C76_session F V St E (C : controller St E) h os s d : contract C h ->
  Forall (typed_operation F) os -> possible h s ->
  let (s', log) := session F V C os s in
  exists stream packets, written h s' = written h s ++ stream /\ parse_commands stream = Some packets
    /\ fold_left carry_out packets d = fold_left asked (sent_commands log) d.
Proof. exact (session_carried F V C h os s d). Qed.
Print Assumptions C76_session.

(** The same over separate links. *)
Theorem C76_split F V St E (C : controller St E) h os s d : contract C h ->
  Forall (typed_operation F) os -> possible h s ->
  let (s', log) := split_session F V C os s in
  exists stream packets, written h s' = written h s ++ stream /\ parse_link_commands stream = Some packets
    /\ fold_left carry_out packets d = fold_left asked (split_sent log) d.
Proof. exact (split_carried F V C h os s d). Qed.
Print Assumptions C76_split.

Example C76_case :
  let a := BdRandom [1; 2; 3; 4; 5; 0xC6] in
  let os := [Send CReset; Send (CLeSetAdvertisingData [2; 1; 6]); Receive; Send (CLeAddDeviceToWhiteList a);
             Send (CLeSetAdvertisingData [3; 1; 6; 0]); Send (CLeSetScanEnable true false);
             Send (CLeSetAdvertiseEnable true); Send (CSetEventMask 0x20)] in
  let s := {| q_received := []; q_consumed := 0; q_arrivals := []; q_written := [];
              q_ready := [Ready; Ready; Ready; Ready; Busy; Ready; Ready] |} in
  Forall (typed_operation F41) os /\ possible queue_history s
  /\ let (s', log) := session F41 test_vendor queue_controller os s in
     length (sent_commands log) = 6%nat
     /\ match parse_commands (q_written s') with
        | Some packets =>
           let d := fold_left carry_out packets after_reset in
           d = fold_left asked (sent_commands log) after_reset
           /\ advertising_data d = [3; 1; 6; 0] /\ is_advertising d = true /\ is_scanning d = false
           /\ white_list d = [[1; 1; 2; 3; 4; 5; 0xC6]] /\ event_mask d = 0x20
        | None => False
        end.
Proof.
  cbv zeta. split; [repeat constructor|].
  split; [split; [constructor|split; [cbn; lia|repeat constructor]]|]. vm_compute. auto 10.
Qed.
Example C76_connecting :
  let ci := {| ci_interval := (ms 50, ms 100); ci_latency := 3; ci_timeout := ms 2000 |} in
  let p := {| cp_scan_window := {| sw_interval := ms 20; sw_window := ms 10 |};
              cp_initiator_filter_policy := UseAddress;
              cp_peer_address := PublicDeviceAddress [1; 2; 3; 4; 5; 6]; cp_own_address_type := OwnPublic;
              cp_conn_interval := ci; cp_expected_connection_length := {| ecl_range := (0, ms 5) |} |} in
  connecting (carry_out after_reset (0x200D, command_params (V := test_vendor) (CLeCreateConnection p)))
  = Some {| ini_interval := 32; ini_window := 16; ini_peer := Some [0; 1; 2; 3; 4; 5; 6]; ini_own := 0;
            ini_range := (40, 80); ini_latency := 3; ini_timeout := 200; ini_length := (0, 8) |}.
Proof. vm_compute. reflexivity. Qed.
Example C76_split_case :
  let os := [Send (CLeSetAdvertisingData [2; 1; 6]); Send (CLeSetScanEnable true false);
             Send (CLeSetAdvertiseEnable true)] in
  let s := {| q_received := []; q_consumed := 0; q_arrivals := []; q_written := []; q_ready := [Ready; Busy; Ready] |} in
  Forall (typed_operation F41) os /\ possible queue_history s
  /\ let (s', log) := split_session F41 test_vendor queue_controller os s in
     length (split_sent log) = 2%nat
     /\ match parse_link_commands (q_written s') with
        | Some packets =>
           let d := fold_left carry_out packets after_reset in
           d = fold_left asked (split_sent log) after_reset
           /\ advertising_data d = [2; 1; 6] /\ is_advertising d = true /\ is_scanning d = false
        | None => False
        end.
Proof.
  cbv zeta. split; [repeat constructor|].
  split; [split; [constructor|split; [cbn; lia|repeat constructor]]|]. vm_compute. auto 10.
Qed.

(** ** C77: who is on the white list

    An entry is on the controller's list after a session if and only if it was
    put there by a call that succeeded and no later successful call took it off,
    or it was there before and none did. *)
Theorem C77_session F V St E (C : controller St E) h os s d x : contract C h ->
  Forall (typed_operation F) os -> possible h s ->
  let (s', log) := session F V C os s in
  exists stream packets, written h s' = written h s ++ stream /\ parse_commands stream = Some packets
    /\ (In x (white_list (fold_left carry_out packets d)) <-> stays x (white_list d) (sent_commands log)).
Proof. exact (session_white_list F V C h os s d x). Qed.
Print Assumptions C77_session.
Theorem C77_split F V St E (C : controller St E) h os s d x : contract C h ->
  Forall (typed_operation F) os -> possible h s ->
  let (s', log) := split_session F V C os s in
  exists stream packets, written h s' = written h s ++ stream /\ parse_link_commands stream = Some packets
    /\ (In x (white_list (fold_left carry_out packets d)) <-> stays x (white_list d) (split_sent log)).
Proof. exact (split_white_list F V C h os s d x). Qed.
Print Assumptions C77_split.

(** Entries of different devices are different, and none is that of anonymous
    advertisers. *)
Theorem C77_entries a b : address_typed a -> address_typed b ->
  (address_bytes a = address_bytes b <-> a = b) /\ address_bytes a <> any_anonymous.
Proof. exact (entries_differ a b). Qed.
Print Assumptions C77_entries.

Example C77_case :
  let a := BdPublic [1; 2; 3; 4; 5; 6] in let b := BdRandom [1; 2; 3; 4; 5; 6] in
  let cs := [CLeAddDeviceToWhiteList (V := test_vendor) a; CLeAddDeviceToWhiteList b; CLeRemoveDeviceFromWhiteList b;
             CLeAddAnonAdvertisingDevicesToWhiteList; CLeAddDeviceToWhiteList a] in
  stays (address_bytes a) [] cs /\ stays any_anonymous [] cs /\ ~ stays (address_bytes b) [] cs
  /\ white_list (fold_left asked cs after_reset) = [any_anonymous; address_bytes a].
Proof.
  cbv zeta. rewrite <- !(asked_history test_vendor _ _ after_reset).
  vm_compute. split; [auto|]. split; [auto|]. split; [|reflexivity]. intros [H|[H|[]]]; discriminate H.
Qed.
Example C77_split_case :
  let a := BdPublic [1; 2; 3; 4; 5; 6] in
  let os := [Send (CLeAddDeviceToWhiteList a); Send CLeClearWhiteList; Send (CLeAddDeviceToWhiteList a)] in
  let s := {| q_received := []; q_consumed := 0; q_arrivals := []; q_written := []; q_ready := [Ready; Busy; Ready] |} in
  Forall (typed_operation F41) os /\ possible queue_history s
  /\ let (s', log) := split_session F41 test_vendor queue_controller os s in
     parse_link_commands (q_written s') = Some [(0x2011, [0; 1; 2; 3; 4; 5; 6]); (0x2011, [0; 1; 2; 3; 4; 5; 6])]
     /\ length (split_sent log) = 2%nat.
Proof.
  cbv zeta. split; [repeat constructor|].
  split; [split; [constructor|split; [cbn; lia|repeat constructor]]|]. vm_compute. auto 10.
Qed.
