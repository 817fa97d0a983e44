(** * The tests of the crate for Command Complete (tests/command_complete.rs),
    run on the model; see Tests_Event.v. *)
From Verif Require Import Base Model_Types Model_Bitflags Model_Intervals Model_FlagNames
  Model_EventBase Model_Command Model_Event Spec_Wire Spec_FlagNames Spec_Example Tests_Event.

(** tests/command_complete.rs:5-60.  [status_try_from] is that of the features of
    the test; the tests here use statuses that exist in all versions. *)
Definition test10_vendor : vendor := {|
  VStatus := mock_status; VEvent := Empty_set; VReturn := status mock_status; VError := unit;
  vstatus_try_from := vstatus_try_from mock_vendor;
  vstatus_into := vstatus_into mock_vendor;
  vevent_new := fun _ => Err (EVendor tt);
  vreturn_new := fun buffer =>
    if Nat.ltb (length buffer) 4 then Err (EVendor tt) else
    if negb (nth 1 buffer 0 =? 10) then Err (EVendor tt) else
    map_err (fun _ => EVendor tt) (status_try_from F41 (vstatus_try_from mock_vendor) (nth 3 buffer 0))
|}.

(** The union of the constants with these names in a type of [n] bytes. *)
Definition array_union_of (n : nat) (constant : String.string -> option array_flag)
    (names : list String.string) : option (list N) :=
  fold_left (fun acc name => match acc, constant name with
    | Some m, Some fl => match @ba_or Empty_set m fl with Ok m' => Some m' | _ => None end
    | _, _ => None end) names (Some (ba_empty n)).

Example set_event_mask : forall F, event_new F test10_vendor
  [0x0E; 4; 8; 0x01; 0x0C; 0]
  = Ok (@EvCommandComplete test10_vendor (Build_command_complete 8 (@RetSetEventMask test10_vendor Success))).
Proof. intros [[] []]; reflexivity. Qed.

Example reset : forall F, event_new F test10_vendor
  [0x0E; 4; 8; 0x03; 0x0C; 0]
  = Ok (@EvCommandComplete test10_vendor (Build_command_complete 8 (@RetReset test10_vendor Success))).
Proof. intros [[] []]; reflexivity. Qed.

Example le_set_event_mask : forall F, event_new F test10_vendor
  [0x0E; 4; 8; 0x01; 0x20; 0]
  = Ok (@EvCommandComplete test10_vendor (Build_command_complete 8 (@RetLeSetEventMask test10_vendor Success))).
Proof. intros [[] []]; reflexivity. Qed.

Example le_set_random_address : forall F, event_new F test10_vendor
  [0x0E; 4; 8; 0x05; 0x20; 0]
  = Ok (@EvCommandComplete test10_vendor (Build_command_complete 8 (@RetLeSetRandomAddress test10_vendor Success))).
Proof. intros [[] []]; reflexivity. Qed.

Example le_set_advertising_parameters : forall F, event_new F test10_vendor
  [0x0E; 4; 8; 0x06; 0x20; 0]
  = Ok (@EvCommandComplete test10_vendor (Build_command_complete 8 (@RetLeSetAdvertisingParameters test10_vendor Success))).
Proof. intros [[] []]; reflexivity. Qed.

Example le_set_advertising_data : forall F, event_new F test10_vendor
  [0x0E; 4; 8; 0x08; 0x20; 0]
  = Ok (@EvCommandComplete test10_vendor (Build_command_complete 8 (@RetLeSetAdvertisingData test10_vendor Success))).
Proof. intros [[] []]; reflexivity. Qed.

Example le_set_scan_response_data : forall F, event_new F test10_vendor
  [0x0E; 4; 8; 0x09; 0x20; 0]
  = Ok (@EvCommandComplete test10_vendor (Build_command_complete 8 (@RetLeSetScanResponseData test10_vendor Success))).
Proof. intros [[] []]; reflexivity. Qed.

Example le_set_advertise_enable : forall F, version_5_0 F = false ->
  event_new F test10_vendor [0x0E; 4; 8; 0x0A; 0x20; 0] = Ok (@EvCommandComplete test10_vendor (Build_command_complete 8 (@RetLeSetAdvertiseEnable test10_vendor Success))).
Proof. intros [[] []] H; try discriminate H; reflexivity. Qed.

Example le_set_advertising_enable : forall F, version_5_0 F = true ->
  event_new F test10_vendor [0x0E; 4; 8; 0x0A; 0x20; 0] = Ok (@EvCommandComplete test10_vendor (Build_command_complete 8 (@RetLeSetAdvertisingEnable test10_vendor Success))).
Proof. intros [[] []] H; try discriminate H; reflexivity. Qed.

Example le_set_scan_parameters : forall F, event_new F test10_vendor
  [0x0E; 4; 8; 0x0B; 0x20; 0]
  = Ok (@EvCommandComplete test10_vendor (Build_command_complete 8 (@RetLeSetScanParameters test10_vendor Success))).
Proof. intros [[] []]; reflexivity. Qed.

Example le_set_scan_enable : forall F, event_new F test10_vendor
  [0x0E; 4; 8; 0x0C; 0x20; 0]
  = Ok (@EvCommandComplete test10_vendor (Build_command_complete 8 (@RetLeSetScanEnable test10_vendor Success))).
Proof. intros [[] []]; reflexivity. Qed.

Example le_create_connection_cancel : forall F, event_new F test10_vendor
  [0x0E; 4; 8; 0x0E; 0x20; 0]
  = Ok (@EvCommandComplete test10_vendor (Build_command_complete 8 (@RetLeCreateConnectionCancel test10_vendor Success))).
Proof. intros [[] []]; reflexivity. Qed.

Example le_clear_white_list : forall F, event_new F test10_vendor
  [0x0E; 4; 8; 0x10; 0x20; 0]
  = Ok (@EvCommandComplete test10_vendor (Build_command_complete 8 (@RetLeClearWhiteList test10_vendor Success))).
Proof. intros [[] []]; reflexivity. Qed.

Example le_add_device_to_whitelist : forall F, event_new F test10_vendor
  [0x0E; 4; 8; 0x11; 0x20; 0]
  = Ok (@EvCommandComplete test10_vendor (Build_command_complete 8 (@RetLeAddDeviceToWhiteList test10_vendor Success))).
Proof. intros [[] []]; reflexivity. Qed.

Example le_remove_device_from_whitelist : forall F, event_new F test10_vendor
  [0x0E; 4; 8; 0x12; 0x20; 0]
  = Ok (@EvCommandComplete test10_vendor (Build_command_complete 8 (@RetLeRemoveDeviceFromWhiteList test10_vendor Success))).
Proof. intros [[] []]; reflexivity. Qed.

Example le_set_host_channel_classification : forall F, event_new F test10_vendor
  [0x0E; 4; 8; 0x14; 0x20; 0]
  = Ok (@EvCommandComplete test10_vendor (Build_command_complete 8 (@RetLeSetHostChannelClassification test10_vendor Success))).
Proof. intros [[] []]; reflexivity. Qed.

Example le_receiver_test : forall F, event_new F test10_vendor
  [0x0E; 4; 8; 0x1D; 0x20; 0]
  = Ok (@EvCommandComplete test10_vendor (Build_command_complete 8 (@RetLeReceiverTest test10_vendor Success))).
Proof. intros [[] []]; reflexivity. Qed.

Example le_transmitter_test : forall F, event_new F test10_vendor
  [0x0E; 4; 8; 0x1E; 0x20; 0]
  = Ok (@EvCommandComplete test10_vendor (Build_command_complete 8 (@RetLeTransmitterTest test10_vendor Success))).
Proof. intros [[] []]; reflexivity. Qed.

Example command_complete_failed : forall F, event_new F test10_vendor
  [0x0E; 3; 1; 0x67; 0x43]
  = Err (EUnknownOpcode 0x4367).
Proof. intros [[] []]; reflexivity. Qed.

Example unsolicited_command_complete : forall F, event_new F test10_vendor
  [0x0E; 3; 1; 0x00; 0x00]
  = Ok (@EvCommandComplete test10_vendor (Build_command_complete 1 (@RetSpontaneous test10_vendor))).
Proof. intros [[] []]; reflexivity. Qed.

Example read_tx_power_level : forall F, event_new F test10_vendor
  [0x0E; 7; 6; 0x2D; 0x0C; 0x00; 0x01; 0x02; 0x03]
  = Ok (@EvCommandComplete test10_vendor (Build_command_complete 6 (@RetReadTxPowerLevel test10_vendor (Build_tx_power_level Success 0x0201 0x03%Z)))).
Proof. intros [[] []]; reflexivity. Qed.

Example read_local_version_information : forall F, event_new F test10_vendor
  [0x0E; 12; 0x01; 0x01; 0x10; 0x00; 0x02; 0x03; 0x04; 0x05; 0x06; 0x07; 0x08; 0x09]
  = Ok (@EvCommandComplete test10_vendor (Build_command_complete 1 (@RetReadLocalVersionInformation test10_vendor (Build_local_version_info Success 2 0x0403 5 0x0706 0x0908)))).
Proof. intros [[] []]; reflexivity. Qed.

Example read_local_supported_commands_4_1 : exists m inq,
  array_union_of 64 (command_constant F41) ["INQUIRY"; "REJECT_CONNECTION_REQUEST"; "MASTER_LINK_KEY"; "PARK_STATE"; "FLOW_SPECIFICATION"; "WRITE_STORED_LINK_KEY"; "WRITE_SCAN_ENABLE"; "READ_PAGE_SCAN_ACTIVITY"; "WRITE_CLASS_OF_DEVICE"; "READ_TRANSMIT_POWER_LEVEL"; "READ_CURRENT_IAC_LAP"; "READ_INQUIRY_SCAN_TYPE"; "READ_LOCAL_EXTENDED_FEATURES"; "READ_CLOCK"; "READ_LOOPBACK_MODE"; "WRITE_EXTENDED_INQUIRY_RESPONSE"; "READ_DEFAULT_ERRONEOUS_DATA_REPORTING"; "USER_PASSKEY_REQUEST_NEGATIVE_REPLY"; "READ_ENCRYPTION_KEY_SIZE"; "DISCONNECT_LOGICAL_LINK"; "READ_LOCAL_AMP_ASSOC"; "AMP_TEST"; "READ_ENHANCED_TRANSMIT_POWER_LEVEL"; "LE_READ_BUFFER_SIZE"; "LE_SET_SCAN_PARAMETERS"; "LE_SET_HOST_CHANNEL_CLASSIFICATION"; "LE_RECEIVER_TEST"; "READ_LOCAL_SUPPORTED_CODECS"; "TRUNCATED_PAGE"; "READ_SYNCHRONIZATION_TRAIN_PARAMETERS"; "WRITE_SYNCHRONIZATION_TRAIN_PARAMETERS"; "WRITE_EXTENDED_PAGE_TIMEOUT"]%string = Some m
  /\ event_new F41 test10_vendor [0x0E; 68; 1; 0x02; 0x10; 0x00; 0x01; 0x02; 0x04; 0x00; 0x10; 0x20; 0x40; 0x80; 0x01; 0x02; 0x04; 0x08; 0x10; 0x00; 0x40; 0x80; 0x01; 0x02; 0x04; 0x08; 0x10; 0x20; 0x40; 0x80; 0x01; 0x02; 0x04; 0x08; 0x10; 0x20; 0x40; 0x80; 0x01; 0x02; 0x00; 0x00; 0x00; 0x00; 0x00; 0x00; 0x00; 0x00; 0x00; 0x00; 0x00; 0x00; 0x00; 0x00; 0x00; 0x00; 0x00; 0x00; 0x00; 0x00; 0x00; 0x00; 0x00; 0x00; 0x00; 0x00; 0x00; 0x00; 0x00; 0x00]
     = Ok (@EvCommandComplete test10_vendor (Build_command_complete 1 (@RetReadLocalSupportedCommands test10_vendor (Build_local_supported_commands Success m))))
  /\ command_constant F41 "INQUIRY"%string = Some inq /\ @ba_is_set Empty_set m inq = Ok true
  /\ exists both, array_union_of 64 (command_constant F41) ["INQUIRY"; "REJECT_CONNECTION_REQUEST"]%string = Some both
     /\ ba_contains m both = true.
Proof.
  eexists. eexists. split; [vm_compute; reflexivity|]. split; [vm_compute; reflexivity|].
  split; [vm_compute; reflexivity|]. split; [vm_compute; reflexivity|].
  eexists. split; vm_compute; reflexivity.
Qed.

Example read_local_supported_commands_failed_bad_command_flag_4_1 : event_new F41 test10_vendor
  [0x0E; 68; 1; 0x02; 0x10; 0x00; 0x01; 0x02; 0x04; 0x00; 0x10; 0x20; 0x40; 0x80; 0x01; 0x02; 0x04; 0x08; 0x10; 0x00; 0x40; 0x80; 0x01; 0x02; 0x04; 0x08; 0x10; 0x20; 0x40; 0x80; 0x01; 0x02; 0x04; 0x08; 0x10; 0x20; 0x40; 0x80; 0x01; 0x42; 0x00; 0x00; 0x00; 0x00; 0x00; 0x00; 0x00; 0x00; 0x00; 0x00; 0x00; 0x00; 0x00; 0x00; 0x00; 0x00; 0x00; 0x00; 0x00; 0x00; 0x00; 0x00; 0x00; 0x00; 0x00; 0x00; 0x00; 0x00; 0x00; 0x00]
  = Err EBadCommandFlag.
Proof. reflexivity. Qed.

Example read_local_supported_commands_4_2 : exists m inq,
  array_union_of 64 (command_constant F42) ["INQUIRY"; "REJECT_CONNECTION_REQUEST"; "MASTER_LINK_KEY"; "PARK_STATE"; "FLOW_SPECIFICATION"; "WRITE_STORED_LINK_KEY"; "WRITE_SCAN_ENABLE"; "READ_PAGE_SCAN_ACTIVITY"; "WRITE_CLASS_OF_DEVICE"; "READ_TRANSMIT_POWER_LEVEL"; "READ_CURRENT_IAC_LAP"; "READ_INQUIRY_SCAN_TYPE"; "READ_LOCAL_EXTENDED_FEATURES"; "READ_CLOCK"; "READ_LOOPBACK_MODE"; "WRITE_EXTENDED_INQUIRY_RESPONSE"; "READ_DEFAULT_ERRONEOUS_DATA_REPORTING"; "USER_PASSKEY_REQUEST_NEGATIVE_REPLY"; "READ_ENCRYPTION_KEY_SIZE"; "DISCONNECT_LOGICAL_LINK"; "READ_LOCAL_AMP_ASSOC"; "AMP_TEST"; "READ_ENHANCED_TRANSMIT_POWER_LEVEL"; "LE_READ_BUFFER_SIZE"; "LE_SET_SCAN_PARAMETERS"; "LE_SET_HOST_CHANNEL_CLASSIFICATION"; "LE_RECEIVER_TEST"; "READ_LOCAL_SUPPORTED_CODECS"; "TRUNCATED_PAGE"; "READ_SYNCHRONIZATION_TRAIN_PARAMETERS"; "WRITE_SYNCHRONIZATION_TRAIN_PARAMETERS"; "WRITE_EXTENDED_PAGE_TIMEOUT"; "LE_GENERATE_DH_KEY"; "LE_READ_MAXIMUM_DATA_LENGTH"]%string = Some m
  /\ event_new F42 test10_vendor [0x0E; 68; 1; 0x02; 0x10; 0x00; 0x01; 0x02; 0x04; 0x00; 0x10; 0x20; 0x40; 0x80; 0x01; 0x02; 0x04; 0x08; 0x10; 0x00; 0x40; 0x80; 0x01; 0x02; 0x04; 0x08; 0x10; 0x20; 0x40; 0x80; 0x01; 0x02; 0x04; 0x08; 0x10; 0x20; 0x40; 0x80; 0x01; 0x02; 0x04; 0x08; 0x00; 0x00; 0x00; 0x00; 0x00; 0x00; 0x00; 0x00; 0x00; 0x00; 0x00; 0x00; 0x00; 0x00; 0x00; 0x00; 0x00; 0x00; 0x00; 0x00; 0x00; 0x00; 0x00; 0x00; 0x00; 0x00; 0x00; 0x00]
     = Ok (@EvCommandComplete test10_vendor (Build_command_complete 1 (@RetReadLocalSupportedCommands test10_vendor (Build_local_supported_commands Success m))))
  /\ command_constant F42 "INQUIRY"%string = Some inq /\ @ba_is_set Empty_set m inq = Ok true
  /\ exists both, array_union_of 64 (command_constant F42) ["INQUIRY"; "REJECT_CONNECTION_REQUEST"]%string = Some both
     /\ ba_contains m both = true.
Proof.
  eexists. eexists. split; [vm_compute; reflexivity|]. split; [vm_compute; reflexivity|].
  split; [vm_compute; reflexivity|]. split; [vm_compute; reflexivity|].
  eexists. split; vm_compute; reflexivity.
Qed.

Example read_local_supported_commands_failed_bad_command_flag_4_2 : event_new F42 test10_vendor
  [0x0E; 68; 1; 0x02; 0x10; 0x00; 0x01; 0x02; 0x04; 0x00; 0x10; 0x20; 0x40; 0x80; 0x01; 0x02; 0x04; 0x08; 0x10; 0x00; 0x40; 0x80; 0x01; 0x02; 0x04; 0x08; 0x10; 0x20; 0x40; 0x80; 0x01; 0x02; 0x04; 0x08; 0x10; 0x20; 0x40; 0x80; 0x01; 0x02; 0x04; 0x10; 0x00; 0x00; 0x00; 0x00; 0x00; 0x00; 0x00; 0x00; 0x00; 0x00; 0x00; 0x00; 0x00; 0x00; 0x00; 0x00; 0x00; 0x00; 0x00; 0x00; 0x00; 0x00; 0x00; 0x00; 0x00; 0x00; 0x00; 0x00]
  = Err EBadCommandFlag.
Proof. reflexivity. Qed.

Example read_local_supported_commands_5_0 : exists m inq,
  array_union_of 64 (command_constant F50) ["INQUIRY"; "REJECT_CONNECTION_REQUEST"; "MASTER_LINK_KEY"; "PARK_STATE"; "FLOW_SPECIFICATION"; "WRITE_STORED_LINK_KEY"; "WRITE_SCAN_ENABLE"; "READ_PAGE_SCAN_ACTIVITY"; "WRITE_CLASS_OF_DEVICE"; "READ_TRANSMIT_POWER_LEVEL"; "READ_CURRENT_IAC_LAP"; "READ_INQUIRY_SCAN_TYPE"; "READ_LOCAL_EXTENDED_FEATURES"; "READ_CLOCK"; "READ_LOOPBACK_MODE"; "WRITE_EXTENDED_INQUIRY_RESPONSE"; "READ_DEFAULT_ERRONEOUS_DATA_REPORTING"; "USER_PASSKEY_REQUEST_NEGATIVE_REPLY"; "READ_ENCRYPTION_KEY_SIZE"; "DISCONNECT_LOGICAL_LINK"; "READ_LOCAL_AMP_ASSOC"; "AMP_TEST"; "READ_ENHANCED_TRANSMIT_POWER_LEVEL"; "LE_READ_BUFFER_SIZE"; "LE_SET_SCAN_PARAMETERS"; "LE_SET_HOST_CHANNEL_CLASSIFICATION"; "LE_RECEIVER_TEST"; "READ_LOCAL_SUPPORTED_CODECS"; "TRUNCATED_PAGE"; "READ_SYNCHRONIZATION_TRAIN_PARAMETERS"; "WRITE_SYNCHRONIZATION_TRAIN_PARAMETERS"; "WRITE_EXTENDED_PAGE_TIMEOUT"; "LE_GENERATE_DH_KEY"; "LE_READ_MAXIMUM_DATA_LENGTH"; "LE_SET_EXTENDED_SCAN_RESPONSE_DATA_COMMAND"; "LE_SET_EXTENDED_SCAN_PARAMETERS_COMMAND"; "LE_READ_PERIODIC_ADVERTISER_LIST_SIZE_COMMAND"]%string = Some m
  /\ event_new F50 test10_vendor [0x0E; 68; 1; 0x02; 0x10; 0x00; 0x01; 0x02; 0x04; 0x00; 0x10; 0x20; 0x40; 0x80; 0x01; 0x02; 0x04; 0x08; 0x10; 0x00; 0x40; 0x80; 0x01; 0x02; 0x04; 0x08; 0x10; 0x20; 0x40; 0x80; 0x01; 0x02; 0x04; 0x08; 0x10; 0x20; 0x40; 0x80; 0x01; 0x02; 0x04; 0x08; 0x10; 0x20; 0x40; 0x00; 0x00; 0x00; 0x00; 0x00; 0x00; 0x00; 0x00; 0x00; 0x00; 0x00; 0x00; 0x00; 0x00; 0x00; 0x00; 0x00; 0x00; 0x00; 0x00; 0x00; 0x00; 0x00; 0x00; 0x00]
     = Ok (@EvCommandComplete test10_vendor (Build_command_complete 1 (@RetReadLocalSupportedCommands test10_vendor (Build_local_supported_commands Success m))))
  /\ command_constant F50 "INQUIRY"%string = Some inq /\ @ba_is_set Empty_set m inq = Ok true
  /\ exists both, array_union_of 64 (command_constant F50) ["INQUIRY"; "REJECT_CONNECTION_REQUEST"]%string = Some both
     /\ ba_contains m both = true.
Proof.
  eexists. eexists. split; [vm_compute; reflexivity|]. split; [vm_compute; reflexivity|].
  split; [vm_compute; reflexivity|]. split; [vm_compute; reflexivity|].
  eexists. split; vm_compute; reflexivity.
Qed.

Example read_local_supported_commands_failed_bad_command_flag_5_0 : event_new F50 test10_vendor
  [0x0E; 68; 1; 0x02; 0x10; 0x00; 0x01; 0x02; 0x04; 0x00; 0x10; 0x20; 0x40; 0x80; 0x01; 0x02; 0x04; 0x08; 0x10; 0x00; 0x40; 0x80; 0x01; 0x02; 0x04; 0x08; 0x10; 0x20; 0x40; 0x80; 0x01; 0x02; 0x04; 0x08; 0x10; 0x20; 0x40; 0x80; 0x01; 0x02; 0x04; 0x08; 0x10; 0x20; 0x40; 0x80; 0x00; 0x00; 0x00; 0x00; 0x00; 0x00; 0x00; 0x00; 0x00; 0x00; 0x00; 0x00; 0x00; 0x00; 0x00; 0x00; 0x00; 0x00; 0x00; 0x00; 0x00; 0x00; 0x00; 0x00]
  = Err EBadCommandFlag.
Proof. reflexivity. Qed.

Example read_local_supported_features : forall F, exists v, union_of (lmp_constant F) ["THREE_SLOT_PACKETS"; "POWER_CONTROL_REQUESTS"; "POWER_CONTROL"; "ENHANCED_INQUIRY_SCAN"; "AFH_CLASSIFICATION_PERIPHERAL"; "ENHANCED_DATA_RATE_ESCO_2_MB_PER_S_MODE"; "NON_FLUSHABLE_PACKET_BOUNDARY_FLAG"; "EXTENDED_FEATURES"]%string = Some v
  /\ event_new F test10_vendor [0x0E; 12; 1; 0x03; 0x10; 0x00; 0x01; 0x02; 0x04; 0x08; 0x10; 0x20; 0x40; 0x80]
     = Ok (@EvCommandComplete test10_vendor (Build_command_complete 1 (@RetReadLocalSupportedFeatures test10_vendor (Build_local_supported_features Success v)))).
Proof. intros [[] []]; eexists; (split; [reflexivity|reflexivity]). Qed.

Example read_bd_addr : forall F, event_new F test10_vendor
  [0x0E; 10; 1; 0x09; 0x10; 0x00; 0x01; 0x02; 0x03; 0x04; 0x05; 0x06]
  = Ok (@EvCommandComplete test10_vendor (Build_command_complete 1 (@RetReadBdAddr test10_vendor (Build_read_bd_addr_params Success [0x01; 0x02; 0x03; 0x04; 0x05; 0x06])))).
Proof. intros [[] []]; reflexivity. Qed.

Example read_rssi : forall F, event_new F test10_vendor
  [0x0E; 7; 1; 0x05; 0x14; 0x00; 0x01; 0x02; 0x03]
  = Ok (@EvCommandComplete test10_vendor (Build_command_complete 1 (@RetReadRssi test10_vendor (Build_read_rssi_params Success 0x0201 0x03%Z)))).
Proof. intros [[] []]; reflexivity. Qed.

Example le_read_buffer_size : forall F, event_new F test10_vendor
  [0x0E; 7; 2; 0x02; 0x20; 0x00; 0x01; 0x02; 0x03]
  = Ok (@EvCommandComplete test10_vendor (Build_command_complete 2 (@RetLeReadBufferSize test10_vendor (Build_le_read_buffer_size_params Success 0x0201 0x03)))).
Proof. intros [[] []]; reflexivity. Qed.

Example le_read_local_supported_features_4_1 : exists v, union_of (le_feature_constant F41) ["ENCRYPTION"; "PING"]%string = Some v
  /\ event_new F41 test10_vendor [0x0E; 12; 1; 0x03; 0x20; 0x00; 0x11; 0x00; 0x00; 0x00; 0x00; 0x00; 0x00; 0x00]
     = Ok (@EvCommandComplete test10_vendor (Build_command_complete 1 (@RetLeReadLocalSupportedFeatures test10_vendor (Build_le_supported_features Success v)))).
Proof. eexists. split; reflexivity. Qed.

Example le_read_local_supported_features_4_2 : exists v, union_of (le_feature_constant F42) ["ENCRYPTION"; "EXTENDED_SCANNER_FILTER_POLICIES"]%string = Some v
  /\ event_new F42 test10_vendor [0x0E; 12; 1; 0x03; 0x20; 0x00; 0x81; 0x00; 0x00; 0x00; 0x00; 0x00; 0x00; 0x00]
     = Ok (@EvCommandComplete test10_vendor (Build_command_complete 1 (@RetLeReadLocalSupportedFeatures test10_vendor (Build_le_supported_features Success v)))).
Proof. eexists. split; reflexivity. Qed.

Example le_read_local_supported_features_5_0 : exists v, union_of (le_feature_constant F50) ["EXTENDED_REJECT_INDICATION"; "STABLE_MODULATION_INDEX_TX"; "MINIMUM_NUMBER_OF_USED_CHANNELS_PROCEDURE"]%string = Some v
  /\ event_new F50 test10_vendor [0x0E; 12; 1; 0x03; 0x20; 0x00; 0x04; 0x02; 0x01; 0x00; 0x00; 0x00; 0x00; 0x00]
     = Ok (@EvCommandComplete test10_vendor (Build_command_complete 1 (@RetLeReadLocalSupportedFeatures test10_vendor (Build_le_supported_features Success v)))).
Proof. eexists. split; reflexivity. Qed.

Example le_read_advertising_channel_tx_power : forall F, event_new F test10_vendor
  [0x0E; 5; 1; 0x07; 0x20; 0x00; 0x01]
  = Ok (@EvCommandComplete test10_vendor (Build_command_complete 1 (@RetLeReadAdvertisingChannelTxPower test10_vendor (Build_le_advertising_channel_tx_power Success 0x01%Z)))).
Proof. intros [[] []]; reflexivity. Qed.

Example le_read_white_list_size : forall F, event_new F test10_vendor
  [0x0E; 5; 1; 0x0F; 0x20; 0x00; 0x16]
  = Ok (@EvCommandComplete test10_vendor (Build_command_complete 1 (@RetLeReadWhiteListSize test10_vendor Success 0x16))).
Proof. intros [[] []]; reflexivity. Qed.

Example le_read_channel_map : forall F, exists m,
  array_union_of 5 (channel_constant F) ["CH_0"; "CH_4"; "CH_8"; "CH_12"; "CH_16"; "CH_20"; "CH_24"; "CH_28"; "CH_32"; "CH_36"]%string = Some m
  /\ event_new F test10_vendor [0x0E; 11; 1; 0x15; 0x20; 0x00; 0x01; 0x02; 0x11; 0x11; 0x11; 0x11; 0x11]
     = Ok (@EvCommandComplete test10_vendor (Build_command_complete 1 (@RetLeReadChannelMap test10_vendor (Build_channel_map_parameters Success 0x0201 m)))).
Proof. intros [[] []]; eexists; (split; [vm_compute; reflexivity|vm_compute; reflexivity]). Qed.

Example le_read_channel_map_failed_reserved : forall F, event_new F test10_vendor
  [0x0E; 11; 1; 0x15; 0x20; 0x00; 0x01; 0x02; 0x00; 0x00; 0x00; 0x00; 0x20]
  = Err (EInvalidChannelMap [0x00; 0x00; 0x00; 0x00; 0x20]).
Proof. intros [[] []]; reflexivity. Qed.

Example le_encrypt : forall F, event_new F test10_vendor
  [0x0E; 20; 1; 0x17; 0x20; 0x00; 1; 2; 3; 4; 5; 6; 7; 8; 9; 10; 11; 12; 13; 14; 15; 16]
  = Ok (@EvCommandComplete test10_vendor (Build_command_complete 1 (@RetLeEncrypt test10_vendor (Build_encrypted_return_parameters Success [1; 2; 3; 4; 5; 6; 7; 8; 9; 10; 11; 12; 13; 14; 15; 16])))).
Proof. intros [[] []]; reflexivity. Qed.

Example le_rand : forall F, event_new F test10_vendor
  [0x0E; 12; 1; 0x18; 0x20; 0x00; 0x01; 0x02; 0x03; 0x04; 0x05; 0x06; 0x07; 0x08]
  = Ok (@EvCommandComplete test10_vendor (Build_command_complete 1 (@RetLeRand test10_vendor (Build_le_random Success 0x0807060504030201)))).
Proof. intros [[] []]; reflexivity. Qed.

Example le_long_term_key_request_reply : forall F, event_new F test10_vendor
  [0x0E; 6; 1; 0x1A; 0x20; 0x00; 0x01; 0x02]
  = Ok (@EvCommandComplete test10_vendor (Build_command_complete 1 (@RetLeLongTermKeyRequestReply test10_vendor (Build_le_ltk_request_reply Success 0x0201)))).
Proof. intros [[] []]; reflexivity. Qed.

Example le_long_term_key_request_negative_reply : forall F, event_new F test10_vendor
  [0x0E; 6; 1; 0x1B; 0x20; 0x00; 0x01; 0x02]
  = Ok (@EvCommandComplete test10_vendor (Build_command_complete 1 (@RetLeLongTermKeyRequestNegativeReply test10_vendor (Build_le_ltk_request_reply Success 0x0201)))).
Proof. intros [[] []]; reflexivity. Qed.

Example le_read_supported_states : forall F, exists v, union_of (le_states_constant F) ["NON_CONNECTABLE_ADVERTISING"; "SCAN_AD_AND_PASS_SCAN"; "NONCONN_AD_AND_CENTRAL_CONN"; "ACT_SCAN_AND_PERIPH_CONN"; "DIR_AD_HDC_AND_CENTRAL_CONN"; "INITIATING_AND_PERIPH_CONN"]%string = Some v
  /\ event_new F test10_vendor [0x0E; 12; 1; 0x1C; 0x20; 0x00; 0x01; 0x02; 0x04; 0x08; 0x10; 0x02; 0x00; 0x00]
     = Ok (@EvCommandComplete test10_vendor (Build_command_complete 1 (@RetLeReadSupportedStates test10_vendor (Build_le_read_supported_states_params Success v)))).
Proof. intros [[] []]; eexists; (split; [reflexivity|reflexivity]). Qed.

Example le_read_supported_states_failed_reserved_flag : forall F, event_new F test10_vendor
  [0x0E; 12; 1; 0x1C; 0x20; 0x00; 0x01; 0x02; 0x04; 0x08; 0x10; 0x04; 0x00; 0x00]
  = Err (EInvalidLeStates 0x041008040201).
Proof. intros [[] []]; reflexivity. Qed.

Example le_test_end : forall F, event_new F test10_vendor
  [0x0E; 6; 1; 0x1F; 0x20; 0x00; 0x01; 0x02]
  = Ok (@EvCommandComplete test10_vendor (Build_command_complete 1 (@RetLeTestEnd test10_vendor (Build_le_test_end_params Success 0x0201)))).
Proof. intros [[] []]; reflexivity. Qed.

Example vendor_command : forall F, event_new F test10_vendor
  [0x0E; 4; 1; 0x0A; 0xFC; 0x00]
  = Ok (@EvCommandComplete test10_vendor (Build_command_complete 1 (@RetVendor test10_vendor Success))).
Proof. intros [[] []]; reflexivity. Qed.
