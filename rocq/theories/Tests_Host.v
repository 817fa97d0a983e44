(** * The tests of the crate for host commands (tests/host.rs), run on the model;
    see Tests_Event.v. *)
From Verif Require Import Base Model_Types Model_Bitflags Model_Intervals Model_FlagNames
  Model_EventBase Model_Command Model_Event Model_Host Spec_Wire Spec_FlagNames Spec_Example
  Tests_Event Tests_Command.

(** tests/vendor/mod.rs:72-96, [RecordingSink]: the state is [written_data]. *)
Definition recording_sink : controller (list N) unit := {|
  ctl_write := fun _ header payload => (header ++ payload, Ok tt);
  ctl_read_into := fun s _ => (s, Err (Other tt));
  ctl_peek := fun s _ => (s, Err (Other tt))
|}.
Definition run_on_sink (F : features) (c : command mock_vendor) :=
  run_command F mock_vendor uart_header recording_sink c [].

(** The command succeeds and these bytes are written. *)
Definition sends (F : features) (c : command mock_vendor) (written : list N) : Prop :=
  match run_on_sink F c with
  | (w, Plain (Ok tt)) | (w, Checked (Ok tt)) => w = written
  | _ => False
  end.
(** The command fails with this error and nothing is written. *)
Definition rejects (F : features) (c : command mock_vendor) (e : host_error unit mock_status) : Prop :=
  run_on_sink F c = ([], Checked (V := mock_vendor) (Err (Other e))).

(** [unwrap]. *)
Definition built {E A} (r : outcome E A) : option A :=
  match r with Ok a => Some a | _ => None end.

Example read_remote_version_information : forall F, sends F (CReadRemoteVersionInformation 0x0201) [1; 0x1D; 0x04; 2; 0x01; 0x02].
Proof. intros [[] []]; reflexivity. Qed.

Example read_rssi : forall F, sends F (CReadRssi 0x0201) [1; 0x05; 0x14; 2; 0x01; 0x02].
Proof. intros [[] []]; reflexivity. Qed.

Example le_read_channel_map : forall F, sends F (CLeReadChannelMap 0x0201) [1; 0x15; 0x20; 2; 0x01; 0x02].
Proof. intros [[] []]; reflexivity. Qed.

Example le_read_remote_used_features : forall F, sends F (CLeReadRemoteUsedFeatures 0x0201) [1; 0x16; 0x20; 2; 0x01; 0x02].
Proof. intros [[] []]; reflexivity. Qed.

Example le_long_term_key_request_negative_reply : forall F, sends F (CLeLongTermKeyRequestNegativeReply 0x0201) [1; 0x1B; 0x20; 2; 0x01; 0x02].
Proof. intros [[] []]; reflexivity. Qed.

Example reset : forall F, sends F (CReset) [1; 0x03; 0x0C; 0].
Proof. intros [[] []]; reflexivity. Qed.

Example read_local_version_information : forall F, sends F (CReadLocalVersionInformation) [1; 0x01; 0x10; 0].
Proof. intros [[] []]; reflexivity. Qed.

Example read_local_supported_commands : forall F, sends F (CReadLocalSupportedCommands) [1; 0x02; 0x10; 0].
Proof. intros [[] []]; reflexivity. Qed.

Example read_local_supported_features : forall F, sends F (CReadLocalSupportedFeatures) [1; 0x03; 0x10; 0].
Proof. intros [[] []]; reflexivity. Qed.

Example read_bd_addr : forall F, sends F (CReadBdAddr) [1; 0x09; 0x10; 0].
Proof. intros [[] []]; reflexivity. Qed.

Example le_read_buffer_size : forall F, sends F (CLeReadBufferSize) [1; 0x02; 0x20; 0].
Proof. intros [[] []]; reflexivity. Qed.

Example le_read_local_supported_features : forall F, sends F (CLeReadLocalSupportedFeatures) [1; 0x03; 0x20; 0].
Proof. intros [[] []]; reflexivity. Qed.

Example le_read_advertising_channel_tx_power : forall F, sends F (CLeReadAdvertisingChannelTxPower) [1; 0x07; 0x20; 0].
Proof. intros [[] []]; reflexivity. Qed.

Example le_create_connection_cancel : forall F, sends F (CLeCreateConnectionCancel) [1; 0x0E; 0x20; 0].
Proof. intros [[] []]; reflexivity. Qed.

Example le_read_white_list_size : forall F, sends F (CLeReadWhiteListSize) [1; 0x0F; 0x20; 0].
Proof. intros [[] []]; reflexivity. Qed.

Example le_clear_white_list : forall F, sends F (CLeClearWhiteList) [1; 0x10; 0x20; 0].
Proof. intros [[] []]; reflexivity. Qed.

Example le_rand : forall F, sends F (CLeRand) [1; 0x18; 0x20; 0].
Proof. intros [[] []]; reflexivity. Qed.

Example le_read_supported_states : forall F, sends F (CLeReadSupportedStates) [1; 0x1C; 0x20; 0].
Proof. intros [[] []]; reflexivity. Qed.

Example le_test_end : forall F, sends F (CLeTestEnd) [1; 0x1F; 0x20; 0].
Proof. intros [[] []]; reflexivity. Qed.

Example disconnect : forall F, 
  sends F (CDisconnect 0x0201 AuthFailure)
  [1; 0x06; 0x04; 3; 0x01; 0x02; 0x05].
Proof. intros [[] []]; vm_compute; reflexivity. Qed.

Example disconnect_bad_reason : forall F, 
  rejects F (CDisconnect 0x0201 UnknownCommand) (HBadDisconnectionReason UnknownCommand).
Proof. intros [[] []]; vm_compute; reflexivity. Qed.

Example set_event_mask : forall F, 
  exists m, union_of (event_constant F) ["INQUIRY_COMPLETE"; "AUTHENTICATION_COMPLETE"]%string = Some m /\
  sends F (CSetEventMask m)
  [1; 0x01; 0x0C; 8; 0x21; 0x00; 0x00; 0x00; 0x00; 0x00; 0x00; 0x00].
Proof. intros [[] []]; (eexists; split; [vm_compute; reflexivity|]); vm_compute; reflexivity. Qed.

Example read_tx_power_level : forall F, 
  sends F (CReadTxPowerLevel 0x0201 Current)
  [1; 0x2D; 0x0C; 3; 0x01; 0x02; 0x00].
Proof. intros [[] []]; vm_compute; reflexivity. Qed.

Example le_set_event_mask : forall F, 
  exists m, union_of (le_event_constant F) ["CONNECTION_COMPLETE"; "REMOTE_CONNECTION_PARAMETER_REQUEST"]%string = Some m /\
  sends F (CLeSetEventMask m)
  [1; 0x01; 0x20; 8; 0x21; 0x00; 0x00; 0x00; 0x00; 0x00; 0x00; 0x00].
Proof. intros [[] []]; (eexists; split; [vm_compute; reflexivity|]); vm_compute; reflexivity. Qed.

Example le_set_random_address : forall F, 
  sends F (CLeSetRandomAddress [0x01; 0x02; 0x04; 0x08; 0x10; 0x20])
  [1; 0x05; 0x20; 6; 0x01; 0x02; 0x04; 0x08; 0x10; 0x20].
Proof. intros [[] []]; vm_compute; reflexivity. Qed.

Example le_set_random_address_invalid_addr_type : forall F, Forall (fun a => rejects F (CLeSetRandomAddress a) (HBadRandomAddress a))
  [[0x01; 0x02; 0x04; 0x08; 0x10; 0x40];
   [0xFF; 0xFF; 0xFF; 0xFF; 0xFF; 0xFF];
   [0x00; 0x00; 0x00; 0x00; 0x00; 0xC0];
   [0xFF; 0xFF; 0xFF; 0xFF; 0xFF; 0x3F];
   [0x00; 0x00; 0x00; 0x00; 0x00; 0x00];
   [0x01; 0x02; 0x04; 0xFF; 0xFF; 0xBF];
   [0x01; 0x02; 0x04; 0x00; 0x00; 0x80]].
Proof. intros [[] []]; repeat (apply Forall_cons; [reflexivity|]); apply Forall_nil. Qed.

Example le_set_advertising_parameters : forall F, 
  exists i, built (ai_with_range F ConnectableUndirected (from_millis 21) (from_millis 1000)) = Some i /\
  exists c, union_of (advertising_channel_constant F) ["CH_37"; "CH_39"]%string = Some c /\
  sends F (CLeSetAdvertisingParameters (Build_advertising_parameters i OwnPublic (BdRandom [0x01; 0x02; 0x03; 0x04; 0x05; 0x06]) c AllowConnectionAndScan))
  [1; 0x06; 0x20; 15; 0x21; 0x00; 0x40; 0x06; 0x00; 0x00; 0x01; 0x01; 0x02; 0x03; 0x04; 0x05; 0x06; 0x05; 0x00].
Proof. intros [[] []]; (eexists; split; [vm_compute; reflexivity|]); (eexists; split; [vm_compute; reflexivity|]); vm_compute; reflexivity. Qed.

Example le_set_advertising_parameters_bad_channel_map : forall F, 
  exists i, built (ai_with_range F ConnectableUndirected (from_millis 20) (from_millis 1000)) = Some i /\
  rejects F (CLeSetAdvertisingParameters (Build_advertising_parameters i OwnPublic (BdRandom [0x01; 0x02; 0x03; 0x04; 0x05; 0x06]) 0 AllowConnectionAndScan)) (HBadChannelMap 0).
Proof. intros [[] []]; (eexists; split; [vm_compute; reflexivity|]); vm_compute; reflexivity. Qed.

Example le_set_advertising_data_empty : forall F, 
  sends F (CLeSetAdvertisingData [])
  [1; 0x08; 0x20; 32; 0; 0; 0; 0; 0; 0; 0; 0; 0; 0; 0; 0; 0; 0; 0; 0; 0; 0; 0; 0; 0; 0; 0; 0; 0; 0; 0; 0; 0; 0; 0; 0].
Proof. intros [[] []]; vm_compute; reflexivity. Qed.

Example le_set_advertising_data_partial : forall F, 
  sends F (CLeSetAdvertisingData [1; 2; 3; 4; 5; 6; 7; 8])
  [1; 0x08; 0x20; 32; 8; 1; 2; 3; 4; 5; 6; 7; 8; 0; 0; 0; 0; 0; 0; 0; 0; 0; 0; 0; 0; 0; 0; 0; 0; 0; 0; 0; 0; 0; 0; 0].
Proof. intros [[] []]; vm_compute; reflexivity. Qed.

Example le_set_advertising_data_full : forall F, 
  sends F (CLeSetAdvertisingData [1; 2; 3; 4; 5; 6; 7; 8; 9; 10; 11; 12; 13; 14; 15; 16; 17; 18; 19; 20; 21; 22; 23; 24; 25; 26; 27; 28; 29; 30; 31])
  [1; 0x08; 0x20; 32; 31; 1; 2; 3; 4; 5; 6; 7; 8; 9; 10; 11; 12; 13; 14; 15; 16; 17; 18; 19; 20; 21; 22; 23; 24; 25; 26; 27; 28; 29; 30; 31].
Proof. intros [[] []]; vm_compute; reflexivity. Qed.

Example le_set_advertising_data_too_long : forall F, 
  rejects F (CLeSetAdvertisingData (zeros 32)) (HAdvertisingDataTooLong 32).
Proof. intros [[] []]; vm_compute; reflexivity. Qed.

Example le_set_scan_response_data_empty : forall F, 
  sends F (CLeSetScanResponseData [])
  [1; 0x09; 0x20; 32; 0; 0; 0; 0; 0; 0; 0; 0; 0; 0; 0; 0; 0; 0; 0; 0; 0; 0; 0; 0; 0; 0; 0; 0; 0; 0; 0; 0; 0; 0; 0; 0].
Proof. intros [[] []]; vm_compute; reflexivity. Qed.

Example le_set_scan_response_data_partial : forall F, 
  sends F (CLeSetScanResponseData [1; 2; 3; 4; 5; 6; 7; 8])
  [1; 0x09; 0x20; 32; 8; 1; 2; 3; 4; 5; 6; 7; 8; 0; 0; 0; 0; 0; 0; 0; 0; 0; 0; 0; 0; 0; 0; 0; 0; 0; 0; 0; 0; 0; 0; 0].
Proof. intros [[] []]; vm_compute; reflexivity. Qed.

Example le_set_scan_response_data_full : forall F, 
  sends F (CLeSetScanResponseData [1; 2; 3; 4; 5; 6; 7; 8; 9; 10; 11; 12; 13; 14; 15; 16; 17; 18; 19; 20; 21; 22; 23; 24; 25; 26; 27; 28; 29; 30; 31])
  [1; 0x09; 0x20; 32; 31; 1; 2; 3; 4; 5; 6; 7; 8; 9; 10; 11; 12; 13; 14; 15; 16; 17; 18; 19; 20; 21; 22; 23; 24; 25; 26; 27; 28; 29; 30; 31].
Proof. intros [[] []]; vm_compute; reflexivity. Qed.

Example le_set_scan_response_data_too_long : forall F, 
  rejects F (CLeSetScanResponseData (zeros 32)) (HAdvertisingDataTooLong 32).
Proof. intros [[] []]; vm_compute; reflexivity. Qed.

Example le_set_advertise_enable : forall F, version_5_0 F = false -> 
  sends F (CLeSetAdvertiseEnable true)
  [1; 0x0A; 0x20; 1; 1].
Proof. intros [[] []] Hv; try discriminate Hv; vm_compute; reflexivity. Qed.

Example le_set_advertising_enable : forall F, version_5_0 F = true -> 
  sends F (CLeSetAdvertisingEnable true)
  [1; 0x0A; 0x20; 1; 1].
Proof. intros [[] []] Hv; try discriminate Hv; vm_compute; reflexivity. Qed.

Example le_set_scan_parameters : forall F, 
  exists w, built (bind (sw_start_every (from_millis 21)) (fun i => sw_open_for i (from_millis 10))) = Some w /\
  sends F (CLeSetScanParameters (Build_scan_parameters Passive w OwnPublic AcceptAll))
  [1; 0x0B; 0x20; 7; 0x00; 0x21; 0x00; 0x10; 0x00; 0x00; 0x00].
Proof. intros [[] []]; (eexists; split; [vm_compute; reflexivity|]); vm_compute; reflexivity. Qed.

Example le_set_scan_enable : forall F, 
  sends F (CLeSetScanEnable true false)
  [1; 0x0C; 0x20; 2; 1; 0].
Proof. intros [[] []]; vm_compute; reflexivity. Qed.

Example le_create_connection_no_whitelist : forall F, 
  exists w, built (bind (sw_start_every (from_millis 50)) (fun i => sw_open_for i (from_millis 25))) = Some w /\
  exists ci, built (cib_build (cib_with_supervision_timeout (cib_with_latency (cib_with_range cib_new (from_millis 50) (from_millis 500)) 10) (from_secs 15))) = Some ci /\
  exists ecl, built (ecl_new (from_millis 200) (from_millis 500)) = Some ecl /\
  sends F (CLeCreateConnection (Build_connection_parameters w UseAddress (PublicDeviceAddress [1; 2; 3; 4; 5; 6]) OwnPublic ci ecl))
  [1; 0x0D; 0x20; 25; 0x50; 0x00; 0x28; 0x00; 0x00; 0x00; 0x01; 0x02; 0x03; 0x04; 0x05; 0x06; 0x00; 0x28; 0x00; 0x90; 0x01; 0x0A; 0x00; 0xDC; 0x05; 0x40; 0x01; 0x20; 0x03].
Proof. intros [[] []]; (eexists; split; [vm_compute; reflexivity|]); (eexists; split; [vm_compute; reflexivity|]); (eexists; split; [vm_compute; reflexivity|]); vm_compute; reflexivity. Qed.

Example le_create_connection_use_whitelist : forall F, 
  exists w, built (bind (sw_start_every (from_millis 50)) (fun i => sw_open_for i (from_millis 25))) = Some w /\
  exists ci, built (cib_build (cib_with_supervision_timeout (cib_with_latency (cib_with_range cib_new (from_millis 50) (from_millis 500)) 10) (from_secs 15))) = Some ci /\
  exists ecl, built (ecl_new (from_millis 200) (from_millis 500)) = Some ecl /\
  sends F (CLeCreateConnection (Build_connection_parameters w UseWhiteList (PublicDeviceAddress [1; 2; 3; 4; 5; 6]) OwnPublic ci ecl))
  [1; 0x0D; 0x20; 25; 0x50; 0x00; 0x28; 0x00; 0x01; 0x00; 0x00; 0x00; 0x00; 0x00; 0x00; 0x00; 0x00; 0x28; 0x00; 0x90; 0x01; 0x0A; 0x00; 0xDC; 0x05; 0x40; 0x01; 0x20; 0x03].
Proof. intros [[] []]; (eexists; split; [vm_compute; reflexivity|]); (eexists; split; [vm_compute; reflexivity|]); (eexists; split; [vm_compute; reflexivity|]); vm_compute; reflexivity. Qed.

Example le_add_device_to_white_list : forall F, 
  sends F (CLeAddDeviceToWhiteList (BdPublic [1; 2; 3; 4; 5; 6]))
  [1; 0x11; 0x20; 7; 0x00; 1; 2; 3; 4; 5; 6].
Proof. intros [[] []]; vm_compute; reflexivity. Qed.

Example le_add_anon_advertising_devices_to_white_list : forall F, version_5_0 F = true -> 
  sends F (CLeAddAnonAdvertisingDevicesToWhiteList)
  [1; 0x11; 0x20; 7; 0xFF; 0; 0; 0; 0; 0; 0].
Proof. intros [[] []] Hv; try discriminate Hv; vm_compute; reflexivity. Qed.

Example le_remove_device_from_white_list : forall F, 
  sends F (CLeRemoveDeviceFromWhiteList (BdPublic [1; 2; 3; 4; 5; 6]))
  [1; 0x12; 0x20; 7; 0x00; 1; 2; 3; 4; 5; 6].
Proof. intros [[] []]; vm_compute; reflexivity. Qed.

Example le_remove_anon_advertising_devices_from_white_list : forall F, version_5_0 F = true -> 
  sends F (CLeRemoveAnonAdvertisingDevicesFromWhiteList)
  [1; 0x12; 0x20; 7; 0xFF; 0; 0; 0; 0; 0; 0].
Proof. intros [[] []] Hv; try discriminate Hv; vm_compute; reflexivity. Qed.

Example le_connection_update : forall F, 
  exists ci, built (cib_build (cib_with_supervision_timeout (cib_with_latency (cib_with_range cib_new (from_millis 50) (from_millis 500)) 10) (from_secs 15))) = Some ci /\
  exists ecl, built (ecl_new (from_millis 200) (from_millis 500)) = Some ecl /\
  sends F (CLeConnectionUpdate (Build_connection_update_parameters 0x0201 ci ecl))
  [1; 0x13; 0x20; 14; 0x01; 0x02; 0x28; 0x00; 0x90; 0x01; 0x0A; 0x00; 0xDC; 0x05; 0x40; 0x01; 0x20; 0x03].
Proof. intros [[] []]; (eexists; split; [vm_compute; reflexivity|]); (eexists; split; [vm_compute; reflexivity|]); vm_compute; reflexivity. Qed.

Example le_set_host_channel_classification : forall F, 
  exists m, array_union_of 5 (channel_constant F) ["CH_0"; "CH_4"; "CH_8"; "CH_12"; "CH_16"; "CH_20"; "CH_24"; "CH_28"; "CH_32"; "CH_36"]%string = Some m /\
  sends F (CLeSetHostChannelClassification m)
  [1; 0x14; 0x20; 5; 0x11; 0x11; 0x11; 0x11; 0x11].
Proof. intros [[] []]; (eexists; split; [vm_compute; reflexivity|]); vm_compute; reflexivity. Qed.

Example le_set_host_channel_classification_failed_empty : forall F, 
  rejects F (CLeSetHostChannelClassification (ba_empty 5)) (HNoValidChannel).
Proof. intros [[] []]; vm_compute; reflexivity. Qed.

Example le_encrypt : forall F, 
  sends F (CLeEncrypt (Build_aes_parameters [0x0; 0x1; 0x2; 0x3; 0x4; 0x5; 0x6; 0x7; 0x8; 0x9; 0xa; 0xb; 0xc; 0xd; 0xe; 0xf] [0x10; 0x11; 0x12; 0x13; 0x14; 0x15; 0x16; 0x17; 0x18; 0x19; 0x1a; 0x1b; 0x1c; 0x1d; 0x1e; 0x1f]))
  [1; 0x17; 0x20; 32; 0x00; 0x01; 0x02; 0x03; 0x04; 0x05; 0x06; 0x07; 0x08; 0x09; 0x0a; 0x0B; 0x0c; 0x0d; 0x0e; 0x0f; 0x10; 0x11; 0x12; 0x13; 0x14; 0x15; 0x16; 0x17; 0x18; 0x19; 0x1a; 0x1b; 0x1c; 0x1d; 0x1e; 0x1f].
Proof. intros [[] []]; vm_compute; reflexivity. Qed.

Example le_start_encryption : forall F, 
  sends F (CLeStartEncryption (Build_encryption_parameters 0x0201 0x0807060504030201 0x0a09 [0x0; 0x1; 0x2; 0x3; 0x4; 0x5; 0x6; 0x7; 0x8; 0x9; 0xa; 0xb; 0xc; 0xd; 0xe; 0xf]))
  [1; 0x19; 0x20; 28; 0x01; 0x02; 0x01; 0x02; 0x03; 0x04; 0x05; 0x06; 0x07; 0x08; 0x09; 0x0a; 0x0; 0x1; 0x2; 0x3; 0x4; 0x5; 0x6; 0x7; 0x8; 0x9; 0xa; 0xb; 0xc; 0xd; 0xe; 0xf].
Proof. intros [[] []]; vm_compute; reflexivity. Qed.

Example le_long_term_key_request_reply : forall F, 
  sends F (CLeLongTermKeyRequestReply 0x0201 [0x0; 0x1; 0x2; 0x3; 0x4; 0x5; 0x6; 0x7; 0x8; 0x9; 0xa; 0xb; 0xc; 0xd; 0xe; 0xf])
  [1; 0x1A; 0x20; 18; 0x01; 0x02; 0x0; 0x1; 0x2; 0x3; 0x4; 0x5; 0x6; 0x7; 0x8; 0x9; 0xa; 0xb; 0xc; 0xd; 0xe; 0xf].
Proof. intros [[] []]; vm_compute; reflexivity. Qed.

Example le_receiver_test : forall F, 
  sends F (CLeReceiverTest 0x27)
  [1; 0x1D; 0x20; 1; 0x27].
Proof. intros [[] []]; vm_compute; reflexivity. Qed.

Example le_receiver_test_out_of_range : forall F, 
  rejects F (CLeReceiverTest 0x28) (HInvalidTestChannel 0x28).
Proof. intros [[] []]; vm_compute; reflexivity. Qed.

Example le_transmitter_test : forall F, 
  sends F (CLeTransmitterTest 0x27 0x25 PrbS9)
  [1; 0x1E; 0x20; 3; 0x27; 0x25; 0x00].
Proof. intros [[] []]; vm_compute; reflexivity. Qed.

Example le_transmitter_test_channel_out_of_range : forall F, 
  rejects F (CLeTransmitterTest 0x28 0x25 PrbS9) (HInvalidTestChannel 0x28).
Proof. intros [[] []]; vm_compute; reflexivity. Qed.

Example le_transmitter_test_length_out_of_range : forall F, 
  rejects F (CLeTransmitterTest 0x27 0x26 PrbS9) (HInvalidTestPayloadLength 0x26).
Proof. intros [[] []]; vm_compute; reflexivity. Qed.
