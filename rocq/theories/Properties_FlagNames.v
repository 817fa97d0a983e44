(** * What the named flag constants stand for: C46 - C50. *)
From Verif Require Import Base Model_Types Model_Bitflags Model_Intervals Model_FlagNames Model_EventBase
  Model_Command Model_Event Model_Host Spec_Wire Spec_Interval Spec_Errors Spec_Report Spec_Flags Spec_Host
  Spec_FlagNames Spec_Example Proofs_FlagNames.

(** ** C46 The named event flags enable the events they name *)

(** If a packet decodes to an event with a flag, the packet is one the controller
    sends exactly if the mask given to [set_event_mask] contains the flag. *)
Theorem C46_event_mask F V pkt ev name : event_new F V pkt = Ok ev -> event_flag ev = Some name ->
  exists c, event_constant F name = Some c
  /\ forall mask, u64 mask -> exists header params,
       sent F V uart_header (CSetEventMask mask) = [(header, params)]
       /\ event_enabled params pkt = bf_contains mask c.
Proof. exact (event_mask_named F V pkt ev name). Qed.
Print Assumptions C46_event_mask.

(** The same for LE events and [le_set_event_mask].  The flags for the two
    subevents of later versions exist in those versions only, though the events
    are decoded in all. *)
Theorem C46_le_event_mask F V pkt ev name : event_new F V pkt = Ok ev -> le_event_flag ev = Some name ->
  if le_event_known F ev then
    exists c, le_event_constant F name = Some c
    /\ forall mask, u64 mask -> exists header params,
         sent F V uart_header (CLeSetEventMask mask) = [(header, params)]
         /\ le_event_enabled params pkt = bf_contains mask c
  else le_event_constant F name = None.
Proof. exact (le_event_mask_named F V pkt ev name). Qed.
Print Assumptions C46_le_event_mask.

(** No flag concerns the events that cannot be masked. *)
Theorem C46_unmaskable F V pkt ev name c : event_new F V pkt = Ok ev -> event_flag ev = None ->
  event_constant F name = Some c -> event_enabled (le 8 c) pkt = false.
Proof. exact (unmaskable F V pkt ev name c). Qed.
Print Assumptions C46_unmaskable.
Example C46_case :
  event_new F41 test_vendor [0x10; 1; 0x42] = Ok (EvHardwareError (Build_hardware_error 0x42))
  /\ event_constant F41 "HARDWARE_ERROR"%string = Some 0x8000
  /\ event_enabled (le 8 0x8000) [0x10; 1; 0x42] = true
  /\ event_enabled (le 8 (bf_complement F41 EventFlags 0x8000)) [0x10; 1; 0x42] = false
  /\ le_event_constant F42 "PHY_UPDATE_COMPLETE"%string = None
  /\ le_event_constant F50 "PHY_UPDATE_COMPLETE"%string = Some 0x800
  /\ event_new F41 test_vendor [0x3E; 6; 0x0C; 0; 1; 0; 2; 1]
     = Ok (EvLePhyUpdateComplete (Build_le_phy_update_complete Success 1 LeCoded Le2M))
  /\ le_event_enabled (le 8 0x800) [0x3E; 6; 0x0C; 0; 1; 0; 2; 1] = true
  /\ event_new F41 test_vendor [0x0F; 4; 0; 1; 3; 0x0C]
     = Ok (EvCommandStatus (Build_command_status Success 1 0x0C03)).
Proof. repeat split; vm_compute; reflexivity. Qed.

(** ** C47 The named command flags tell which commands the controller supports *)
Theorem C47_supported F V (c : command V) name o b n sb cmds ev :
  command_flag c = Some name -> supported_bit c = Some (o, b) -> length cmds = 64%nat ->
  let pkt := framed 0x0E ([n] ++ le 2 (hci_opcode 0x04 0x002) ++ [sb] ++ cmds) in
  bytes pkt -> event_new F V pkt = Ok ev ->
  exists fl p, command_constant F name = Some fl
    /\ ev = EvCommandComplete (Build_command_complete n (RetReadLocalSupportedCommands p))
    /\ @ba_is_set Empty_set (lsc_commands p) fl = Ok (N.testbit (nth (N.to_nat o) cmds 0) b).
Proof. exact (command_supported F V c name o b n sb cmds ev). Qed.
Print Assumptions C47_supported.
Example C47_case :
  let cmds := (repeat 0 27 ++ [0x80] ++ repeat 0 36)%list in
  command_flag (V := test_vendor) CLeRand = Some "LE_RAND"%string
  /\ supported_bit (V := test_vendor) CLeRand = Some (27, 7)
  /\ command_constant F41 "LE_RAND"%string = Some (27%nat, 0x80)
  /\ event_new F41 test_vendor (framed 0x0E ([1] ++ le 2 (hci_opcode 0x04 0x002) ++ [0] ++ cmds))
     = Ok (EvCommandComplete (Build_command_complete 1
            (RetReadLocalSupportedCommands (Build_local_supported_commands Success cmds)))).
Proof. repeat split; vm_compute; reflexivity. Qed.

(** ** C48 The supported commands of every conforming controller can be read: refuted

    A controller may support Set Reserved LT_ADDR and Delete Reserved LT_ADDR
    (octet 31, bits 4 and 5), for which there are no flags: its whole reply is
    refused. *)
Theorem C48_refuted F V : vendor_total V -> exists cmds,
  bytes cmds /\ length cmds = 64%nat /\ only_defined (assigned_command_bit F) (array_bit cmds)
  /\ event_new F V (framed 0x0E ([1] ++ le 2 (hci_opcode 0x04 0x002) ++ [0] ++ cmds))
     = Err EBadCommandFlag.
Proof. exact (conforming_refused F V). Qed.
Print Assumptions C48_refuted.

(** Every other conforming reply is accepted, with exactly its bits. *)
Theorem C48_exactly F V n sb s m : vendor_total V -> byte n -> byte sb -> status_byte F V sb s ->
  bytes m -> length m = 64%nat -> only_defined (assigned_command_bit F) (array_bit m) ->
  let pkt := framed 0x0E ([n] ++ le 2 (hci_opcode 0x04 0x002) ++ [sb] ++ m) in
  if (array_bit m (31 * 8 + 4) || array_bit m (31 * 8 + 5))%bool
  then event_new F V pkt = Err EBadCommandFlag
  else event_new F V pkt = Ok (EvCommandComplete (Build_command_complete n
         (RetReadLocalSupportedCommands (Build_local_supported_commands s m)))).
Proof. exact (fun HV => conforming_commands F V HV n sb s m). Qed.
Print Assumptions C48_exactly.
Example C48_case : vendor_total test_vendor /\ status_byte F41 test_vendor 0 Success
  /\ length (repeat 0 31 ++ [0x30] ++ repeat 0 32)%list = 64%nat.
Proof. split; [apply test_vendor_total|]. split; reflexivity. Qed.

(** ** C49 The named features and states are those the controller reports *)
Theorem C49_lmp_features F V name i n sb v ev : lmp_feature_at name i -> u64 v ->
  let pkt := framed 0x0E ([n] ++ le 2 (hci_opcode 0x04 0x003) ++ [sb] ++ le 8 v) in
  bytes pkt -> event_new F V pkt = Ok ev ->
  exists c p, lmp_constant F name = Some c
    /\ ev = EvCommandComplete (Build_command_complete n (RetReadLocalSupportedFeatures p))
    /\ bf_contains (lsf_features p) c = N.testbit v i.
Proof. exact (lmp_named F V name i n sb v ev). Qed.
Print Assumptions C49_lmp_features.

(** The local and the remote LE features: the constants for bit [k] exist in both
    types if the version has the feature, and in neither otherwise. *)
Theorem C49_le_features F V k local remote : nth_error le_features_core k = Some (local, remote) ->
  if le_feature_defined F (N.of_nat k) then
    exists a b, le_feature_constant F local = Some a /\ link_layer_constant F remote = Some b
    /\ (forall n sb v ev, u64 v ->
          let pkt := framed 0x0E ([n] ++ le 2 (hci_opcode 0x08 0x003) ++ [sb] ++ le 8 v) in
          bytes pkt -> event_new F V pkt = Ok ev ->
          exists p, ev = EvCommandComplete (Build_command_complete n (RetLeReadLocalSupportedFeatures p))
            /\ bf_contains (lef_features p) a = N.testbit v (N.of_nat k))
    /\ (forall sb h v ev, u64 v ->
          let pkt := framed 0x3E ([0x04; sb] ++ le 2 h ++ le 8 v) in
          bytes pkt -> event_new F V pkt = Ok ev ->
          exists e, ev = EvLeReadRemoteUsedFeaturesComplete e
            /\ bf_contains (lrf_features e) b = N.testbit v (N.of_nat k))
  else le_feature_constant F local = None /\ link_layer_constant F remote = None.
Proof. exact (le_features_named F V k local remote). Qed.
Print Assumptions C49_le_features.

Theorem C49_le_states F V k p n sb v ev : nth_error le_states_core k = Some p -> u64 v ->
  let pkt := framed 0x0E ([n] ++ le 2 (hci_opcode 0x08 0x01C) ++ [sb] ++ le 8 v) in
  bytes pkt -> event_new F V pkt = Ok ev ->
  exists c q, le_states_constant F (states_name p) = Some c
    /\ ev = EvCommandComplete (Build_command_complete n (RetLeReadSupportedStates q))
    /\ bf_contains (lrs_states q) c = N.testbit v (N.of_nat k).
Proof. exact (states_named F V k p n sb v ev). Qed.
Print Assumptions C49_le_states.
Example C49_case :
  lmp_feature_at "SECURE_SIMPLE_PAIRING" 51
  /\ event_new F41 test_vendor (framed 0x0E ([1] ++ le 2 (hci_opcode 0x04 0x003) ++ [0] ++ le 8 (2 ^ 51 + 2 ^ 50)))
     = Ok (EvCommandComplete (Build_command_complete 1
            (RetReadLocalSupportedFeatures (Build_local_supported_features Success (2 ^ 51)))))
  /\ nth_error le_features_core 8 = Some ("PHY_2M", "LE_2M_PHY")%string
  /\ le_feature_defined F50 8 = true /\ le_feature_defined F42 8 = false
  /\ nth_error le_states_core 40 = Some (LowDutyDirectedAdvertising, Some PeripheralConnection)
  /\ states_name (LowDutyDirectedAdvertising, Some PeripheralConnection) = "DIR_AD_LDC_AND_PERIPH_CONN"%string
  /\ event_new F41 test_vendor (framed 0x0E ([1] ++ le 2 (hci_opcode 0x08 0x01C) ++ [0] ++ le 8 (2 ^ 40)))
     = Ok (EvCommandComplete (Build_command_complete 1
            (RetLeReadSupportedStates (Build_le_read_supported_states_params Success (2 ^ 40))))).
Proof.
  split.
  { exists 51, ["SECURE_SIMPLE_PAIRING"; "ENCAPSULATED_PDU"; "ERRONEOUS_DATA_REPORTING";
                "NON_FLUSHABLE_PACKET_BOUNDARY_FLAG"]%string, 0%nat.
    split; [cbn; tauto|]. now split. }
  repeat split; vm_compute; reflexivity.
Qed.

(** ** C50 The named channels are those on the wire *)
Theorem C50_channel_map F V n k sb h m ev : (k < 37)%nat -> length m = 5%nat ->
  let pkt := framed 0x0E ([n] ++ le 2 (hci_opcode 0x08 0x015) ++ [sb] ++ le 2 h ++ m) in
  bytes pkt -> event_new F V pkt = Ok ev ->
  exists fl p, channel_constant F (channel_name k) = Some fl
    /\ ev = EvCommandComplete (Build_command_complete n (RetLeReadChannelMap p))
    /\ @ba_is_set Empty_set (cmp_channel_map p) fl = Ok (array_bit m (N.of_nat k)).
Proof. exact (channel_map_named F V n k sb h m ev). Qed.
Print Assumptions C50_channel_map.

Theorem C50_classification F V k v : (k < 37)%nat -> obtainable F channel_table v ->
  existsb (array_bit v) (map N.of_nat (seq 0 37)) = true ->
  exists fl header params, channel_constant F (channel_name k) = Some fl
    /\ sent F V uart_header (CLeSetHostChannelClassification v) = [(header, params)]
    /\ Ok (array_bit params (N.of_nat k)) = @ba_is_set Empty_set v fl.
Proof. exact (classification_named F V k v). Qed.
Print Assumptions C50_classification.

Theorem C50_advertising F V k p : (37 <= k < 40)%nat ->
  arguments_typed F (CLeSetAdvertisingParameters (V := V) p) ->
  @rejection V unit (CLeSetAdvertisingParameters p) = None ->
  exists c header params, advertising_channel_constant F (channel_name k) = Some c
    /\ sent F V uart_header (CLeSetAdvertisingParameters p) = [(header, params)]
    /\ N.testbit (nth 13 params 0) (N.of_nat k - 37) = bf_contains (ap_channel_map p) c.
Proof. exact (advertising_named F V k p). Qed.
Print Assumptions C50_advertising.
Example C50_case :
  channel_name 36 = "CH_36"%string /\ channel_constant F41 "CH_36"%string = Some (4%nat, 0x10)
  /\ sent F41 test_vendor uart_header (CLeSetHostChannelClassification [0; 0; 0; 0; 0x10])
     = [([1; 0x14; 0x20; 5], [0; 0; 0; 0; 0x10])]
  /\ advertising_channel_constant F41 (channel_name 39) = Some 4
  /\ sent F41 test_vendor uart_header (CLeSetAdvertisingParameters
       {| ap_interval := {| ai_interval := (ms 20, ms 20); ai_type := ScannableUndirected |};
          ap_own_address_type := OwnPublic;
          ap_peer_address := BdPublic [1; 2; 3; 4; 5; 6];
          ap_channel_map := 4; ap_filter_policy := AllowConnectionAndScan |})
     = [([1; 6; 0x20; 15], [32; 0; 32; 0; 2; 0; 0; 1; 2; 3; 4; 5; 6; 4; 0])].
Proof. repeat split; vm_compute; reflexivity. Qed.
