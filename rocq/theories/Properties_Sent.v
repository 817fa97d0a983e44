(** * What the host sends, and what it gets back (properties C59, C60). *)
From Verif Require Import Base Model_Types Model_Intervals Model_EventBase Model_Event Model_Host
  Spec_Wire Spec_Errors Spec_Interval Spec_Example Spec_Host Spec_Versions Spec_Conform Spec_Sent
  Proofs_Sent.
Open Scope list_scope.
Open Scope N_scope.

(** ** C59: every command sent conforms to the specification

    Refuted as stated: a connection handle above 0x0EFF, a supervision timeout of 100.5 ms
    (sent as 100 ms) for an interval of 50 ms, non-connectable advertising every 20 ms. *)
Theorem C59_refuted V : exists c c' c'' : command V,
  (forall x, In x [c; c'; c''] -> arguments_typed F41 x /\ command_exists F41 x = true
     /\ exists header params, sent F41 V uart_header x = [(header, params)]
        /\ ~ command_conforming F41 (command_opcode x) params)
  /\ c = CReadRssi 0x0F00
  /\ c' = CLeConnectionUpdate (Build_connection_update_parameters 1 tight_interval no_length)
  /\ exists p, c'' = CLeSetAdvertisingParameters p.
Proof. exact (sent_refuted V). Qed.
Print Assumptions C59_refuted.

(** Exactly: whatever is sent conforms except for [nonconforming_arguments]. *)
Theorem C59_exactly F V (c : command V) header params :
  arguments_typed F c -> command_exists F c = true ->
  In (header, params) (sent F V uart_header c) ->
  header = [0x01] ++ le 2 (command_opcode c) ++ [N.of_nat (length params)]
  /\ (command_conforming F (command_opcode c) params <-> ~ nonconforming_arguments F c).
Proof. exact (wire_conforming F V c header params). Qed.
Print Assumptions C59_exactly.

Example C59_case F V :
  arguments_typed F (CLeConnectionUpdate (V := V) (update_to wide_interval))
  /\ sent F V uart_header (CLeConnectionUpdate (update_to wide_interval))
     = [([0x01; 0x13; 0x20; 14], [1; 0; 40; 0; 0x90; 1; 1; 0; 250; 0; 0; 0; 0; 0])]
  /\ ~ nonconforming_arguments F (CLeConnectionUpdate (V := V) (update_to wide_interval))
  /\ ample wide_interval.
Proof. exact (wide_sent F V). Qed.

(** ** C60: a connection with the parameters the host asked for is reported

    Refuted as stated: an update to 50 ms with a timeout of 100.5 ms. *)
Theorem C60_refuted F V : exists p header params,
  arguments_typed F (CLeConnectionUpdate (V := V) p)
  /\ sent F V uart_header (CLeConnectionUpdate p) = [(header, params)]
  /\ let t := asked params 2 in asked_min t <= asked_max t
  /\ exists e, event_new F V (updated t (asked_min t) 1) = Err e.
Proof. exact (created_refuted F V). Qed.
Print Assumptions C60_refuted.

(** Exactly: the controller's choice is reported if it is a [reported_choice] and
    refused otherwise; [ample] parameters leave no choice that is refused. *)
Theorem C60_create F V p header params interval h role peer accuracy :
  arguments_typed F (CLeCreateConnection (V := V) p) ->
  In (header, params) (sent F V uart_header (CLeCreateConnection p)) ->
  let t := asked params 13 in
  asked_min t <= interval -> interval <= asked_max t -> u16 h -> address_typed peer ->
  let pkt := connected t interval h role peer accuracy in
  (reported_choice t interval ->
   event_new F V pkt = Ok (EvLeConnectionComplete (Build_le_connection_complete Success h role peer
     {| fci_interval := interval * interval_unit; fci_latency := asked_latency t;
        fci_timeout := asked_timeout t * timeout_unit |} accuracy)))
  /\ (~ reported_choice t interval -> exists e, event_new F V pkt = Err e)
  /\ (ample (cp_conn_interval p) -> reported_choice t interval).
Proof. exact (created_reported F V p header params interval h role peer accuracy). Qed.
Print Assumptions C60_create.

Theorem C60_update F V p header params interval h :
  arguments_typed F (CLeConnectionUpdate (V := V) p) ->
  In (header, params) (sent F V uart_header (CLeConnectionUpdate p)) ->
  let t := asked params 2 in
  asked_min t <= interval -> interval <= asked_max t -> u16 h ->
  let pkt := updated t interval h in
  (reported_choice t interval ->
   event_new F V pkt = Ok (EvLeConnectionUpdateComplete (Build_le_connection_update_complete Success h
     {| fci_interval := interval * interval_unit; fci_latency := asked_latency t;
        fci_timeout := asked_timeout t * timeout_unit |})))
  /\ (~ reported_choice t interval -> exists e, event_new F V pkt = Err e)
  /\ (ample (cu_conn_interval p) -> reported_choice t interval).
Proof. exact (updated_reported F V p header params interval h). Qed.
Print Assumptions C60_update.

(** The parameters of [C59_case] are ample; the choices are 40 to 400. *)
Example C60_case : asked [1; 0; 40; 0; 0x90; 1; 1; 0; 250; 0; 0; 0; 0; 0] 2
  = {| asked_min := 40; asked_max := 400; asked_latency := 1; asked_timeout := 250 |}.
Proof. reflexivity. Qed.
Definition C60_connect : connection_parameters :=
  {| cp_scan_window := {| sw_interval := ms 100; sw_window := ms 50 |};
     cp_initiator_filter_policy := UseAddress; cp_peer_address := PublicDeviceAddress [1; 2; 3; 4; 5; 6];
     cp_own_address_type := OwnPublic; cp_conn_interval := wide_interval;
     cp_expected_connection_length := no_length |}.
Example C60_reported_case :
  let t := {| asked_min := 40; asked_max := 400; asked_latency := 1; asked_timeout := 250 |} in
  arguments_typed F41 (CLeCreateConnection (V := test_vendor) C60_connect)
  /\ sent F41 test_vendor uart_header (CLeCreateConnection C60_connect)
     = [([0x01; 0x0D; 0x20; 25],
         [160; 0; 80; 0; 0; 0; 1; 2; 3; 4; 5; 6; 0; 40; 0; 0x90; 1; 1; 0; 250; 0; 0; 0; 0; 0])]
  /\ asked [160; 0; 80; 0; 0; 0; 1; 2; 3; 4; 5; 6; 0; 40; 0; 0x90; 1; 1; 0; 250; 0; 0; 0; 0; 0] 13 = t
  /\ reported_choice t 200
  /\ event_new F41 test_vendor (connected t 200 1 Central (BdPublic [1; 2; 3; 4; 5; 6]) Ppm50)
     = Ok (EvLeConnectionComplete (Build_le_connection_complete Success 1 Central (BdPublic [1; 2; 3; 4; 5; 6])
         {| fci_interval := ms 250; fci_latency := 1; fci_timeout := ms 2500 |} Ppm50))
  /\ event_new F41 test_vendor (updated t 200 1)
     = Ok (EvLeConnectionUpdateComplete (Build_le_connection_update_complete Success 1
         {| fci_interval := ms 250; fci_latency := 1; fci_timeout := ms 2500 |}))
  (* a timeout of 100 ms *)
  /\ ~ reported_choice {| asked_min := 10; asked_max := 10; asked_latency := 0; asked_timeout := 10 |} 10.
Proof.
  cbv zeta. split.
  { cbn [arguments_typed C60_connect cp_scan_window cp_peer_address cp_own_address_type cp_conn_interval
         cp_expected_connection_length].
    split; [exists (ms 100), (ms 50); split; vm_compute; reflexivity|].
    split; [split; [reflexivity|repeat constructor]|]. do 2 (split; [reflexivity|]).
    split; [exact wide_reachable|exact no_length_reachable]. }
  split; [vm_compute; reflexivity|]. split; [reflexivity|].
  split; [repeat split; vm_compute; congruence|].
  split; [vm_compute; reflexivity|]. split; [vm_compute; reflexivity|].
  intros (_ & H & _). vm_compute in H. discriminate H.
Qed.
