(** * The tests of the crate for events (tests/event.rs), run on the model.

    These are checks that the model behaves as the crate's authors expect; they
    are no properties.  Each example has the name of its test; tests that exist
    with one feature only have the version at the end of the name. *)
From Verif Require Import Base Model_Types Model_Bitflags Model_Intervals Model_FlagNames
  Model_EventBase Model_Command Model_Event Spec_Wire Spec_Errors Spec_Report Spec_FlagNames Spec_Example.

(** tests/vendor/mod.rs *)
Inductive mock_status := FourFive | FiveZero.
Definition mock_vendor : vendor := {|
  VStatus := mock_status; VEvent := Empty_set; VReturn := Empty_set; VError := unit;
  vstatus_try_from := fun b => if b =? 0x45 then Ok FourFive else if b =? 0x50 then Ok FiveZero else Err b;
  vstatus_into := fun s => match s with FourFive => 0x45 | FiveZero => 0x50 end;
  vevent_new := fun _ => Err (EVendor tt);
  vreturn_new := fun _ => Err (EVendor tt)
|}.

(** The union of the constants with these names. *)
Definition union_of (constant : String.string -> option N) (names : list String.string) : option N :=
  fold_right (fun n acc => match constant n, acc with
                           | Some a, Some b => Some (bf_union a b) | _, _ => None end) (Some 0) names.

Example connection_complete : forall F, event_new F mock_vendor
  [0x03; 11; 0x00; 0x01; 0x02; 0x03; 0x04; 0x05; 0x06; 0x07; 0x08; 0x00; 0x00]
  = Ok (@EvConnectionComplete mock_vendor (Build_connection_complete Success 0x0201 [0x03; 0x04; 0x05; 0x06; 0x07; 0x08] Sco false)).
Proof. intros [[] []]; reflexivity. Qed.

Example connection_complete_failed_bad_status : forall F, event_new F mock_vendor
  [0x03; 11; 0x80; 0x01; 0x02; 0x03; 0x04; 0x05; 0x06; 0x07; 0x08; 0x00; 0x00]
  = Err (EBadStatus 0x80).
Proof. intros [[] []]; reflexivity. Qed.

Example connection_complete_failed_bad_link_type : forall F, event_new F mock_vendor
  [0x03; 11; 0x00; 0x01; 0x02; 0x03; 0x04; 0x05; 0x06; 0x07; 0x08; 0x02; 0x00]
  = Err (EBadLinkType 0x02).
Proof. intros [[] []]; reflexivity. Qed.

Example connection_complete_failed_encryption_enabled : forall F, event_new F mock_vendor
  [0x03; 11; 0x00; 0x01; 0x02; 0x03; 0x04; 0x05; 0x06; 0x07; 0x08; 0x01; 0x02]
  = Err (EBadEncryptionEnabledValue 0x02).
Proof. intros [[] []]; reflexivity. Qed.

Example disconnection_complete : forall F, event_new F mock_vendor
  [0x05; 4; 0; 0x01; 0x02; 0]
  = Ok (@EvDisconnectionComplete mock_vendor (Build_disconnection_complete Success 0x0201 Success)).
Proof. intros [[] []]; reflexivity. Qed.

Example disconnection_complete_failed_bad_status : forall F, event_new F mock_vendor
  [0x05; 4; 0x80; 0x01; 0x02; 0]
  = Err (EBadStatus 0x80).
Proof. intros [[] []]; reflexivity. Qed.

Example disconnection_complete_failed_bad_reason : forall F, event_new F mock_vendor
  [0x05; 4; 0; 0x01; 0x02; 0x80]
  = Err (EBadReason 0x80).
Proof. intros [[] []]; reflexivity. Qed.

Example encryption_change : forall F, event_new F mock_vendor
  [0x08; 4; 0x00; 0x01; 0x02; 0x00]
  = Ok (@EvEncryptionChange mock_vendor (Build_encryption_change Success 0x0201 EncOff)).
Proof. intros [[] []]; reflexivity. Qed.

Example encryption_change_failed_bad_status : forall F, event_new F mock_vendor
  [0x08; 4; 0x80; 0x01; 0x02; 0x00]
  = Err (EBadStatus 0x80).
Proof. intros [[] []]; reflexivity. Qed.

Example encryption_change_failed_bad_encryption : forall F, event_new F mock_vendor
  [0x08; 4; 0x00; 0x01; 0x02; 0x03]
  = Err (EBadEncryptionType 0x03).
Proof. intros [[] []]; reflexivity. Qed.

Example read_remote_version_complete : forall F, event_new F mock_vendor
  [0x0C; 8; 0x00; 0x01; 0x02; 0x03; 0x04; 0x05; 0x06; 0x07]
  = Ok (@EvReadRemoteVersionInformationComplete mock_vendor (Build_remote_version_information Success 0x0201 0x03 0x0504 0x0706)).
Proof. intros [[] []]; reflexivity. Qed.

Example read_remote_version_complete_failed_bad_status : forall F, event_new F mock_vendor
  [0x0C; 8; 0x80; 0x01; 0x02; 0x03; 0x04; 0x05; 0x06; 0x07]
  = Err (EBadStatus 0x80).
Proof. intros [[] []]; reflexivity. Qed.

Example command_status : forall F, event_new F mock_vendor
  [0x0F; 4; 0; 8; 0x01; 0x02]
  = Ok (@EvCommandStatus mock_vendor (Build_command_status Success 8 0x0201)).
Proof. intros [[] []]; reflexivity. Qed.

Example command_status_vendor_status : forall F, event_new F mock_vendor
  [0x0F; 4; 0x45; 8; 0x01; 0x02]
  = Ok (@EvCommandStatus mock_vendor (Build_command_status (Vendor FourFive) 8 0x0201)).
Proof. intros [[] []]; reflexivity. Qed.

Example hardware_error : forall F, event_new F mock_vendor
  [0x10; 1; 0x12]
  = Ok (@EvHardwareError mock_vendor (Build_hardware_error 0x12)).
Proof. intros [[] []]; reflexivity. Qed.

Example number_of_completed_packets : forall F, exists e, event_new F mock_vendor
  [0x13; 9; 2; 0x01; 0x02; 0x03; 0x04; 0x05; 0x06; 0x07; 0x08]
  = Ok (@EvNumberOfCompletedPackets mock_vendor e)
  /\ @calls Empty_set _ _ (ncp_next e) 3 0%nat = Ok [Some (Build_completed_packets_pair 0x0201 0x0403); Some (Build_completed_packets_pair 0x0605 0x0807); None].
Proof. intros [[] []]; eexists; (split; [reflexivity|reflexivity]). Qed.

Example data_buffer_overflow : forall F, event_new F mock_vendor
  [0x1A; 1; 0x00]
  = Ok (@EvDataBufferOverflow mock_vendor (Build_data_buffer_overflow Sco)).
Proof. intros [[] []]; reflexivity. Qed.

Example data_buffer_overflow_failed_bad_link_type : forall F, event_new F mock_vendor
  [0x1A; 1; 0x02]
  = Err (EBadLinkType 0x02).
Proof. intros [[] []]; reflexivity. Qed.

Example encryption_key_refresh_complete : forall F, event_new F mock_vendor
  [0x30; 3; 0; 0x01; 0x02]
  = Ok (@EvEncryptionKeyRefreshComplete mock_vendor (Build_encryption_key_refresh_complete Success 0x0201)).
Proof. intros [[] []]; reflexivity. Qed.

Example le_connection_complete : forall F, event_new F mock_vendor
  [0x3E; 19; 0x01; 0x00; 0x01; 0x02; 0x00; 0x00; 0x03; 0x04; 0x05; 0x06; 0x07; 0x08; 0x09; 0x00; 0x0B; 0x00; 0x0D; 0x0A; 0x00]
  = Ok (@EvLeConnectionComplete mock_vendor (Build_le_connection_complete Success 0x0201 Central (BdPublic [0x03; 0x04; 0x05; 0x06; 0x07; 0x08]) (Build_fixed_conn_interval (from_micros (0x0009 * 1250)) 0x000B (from_millis (0x0A0D * 10))) Ppm500)).
Proof. intros [[] []]; reflexivity. Qed.

Example le_connection_complete_failed_bad_role : forall F, event_new F mock_vendor
  [0x3E; 19; 0x01; 0x00; 0x01; 0x02; 0x02; 0x00; 0x03; 0x04; 0x05; 0x06; 0x07; 0x08; 0x09; 0x0A; 0x0B; 0x0C; 0x0D; 0x0E; 0x00]
  = Err (EBadLeConnectionRole 0x02).
Proof. intros [[] []]; reflexivity. Qed.

Example le_connection_complete_failed_bad_address_type : forall F, event_new F mock_vendor
  [0x3E; 19; 0x01; 0x00; 0x01; 0x02; 0x00; 0x02; 0x03; 0x04; 0x05; 0x06; 0x07; 0x08; 0x09; 0x0A; 0x0B; 0x0C; 0x0D; 0x0E; 0x00]
  = Err (EBadLeAddressType 0x02).
Proof. intros [[] []]; reflexivity. Qed.

Example le_connection_complete_failed_bad_central_clock_accuracy : forall F, event_new F mock_vendor
  [0x3E; 19; 0x01; 0x00; 0x01; 0x02; 0x00; 0x00; 0x03; 0x04; 0x05; 0x06; 0x07; 0x08; 0x07; 0x00; 0x0B; 0x00; 0x0D; 0x0B; 0x08]
  = Err (EBadLeCentralClockAccuracy 0x08).
Proof. intros [[] []]; reflexivity. Qed.

Example le_advertising_report : forall F, exists e, event_new F mock_vendor
  [0x3E; 27; 0x02; 2; 0; 0; 0x01; 0x02; 0x03; 0x04; 0x05; 0x06; 2; 0x07; 0x08; 0x09; 1; 1; 0x0A; 0x0B; 0x0C; 0x0D; 0x0E; 0x0F; 3; 0x10; 0x11; 0x12; 0x13]
  = Ok (@EvLeAdvertisingReport mock_vendor e)
  /\ @calls Empty_set _ _ (lar_next e) 3 0%nat =
     Ok [Some (Build_le_advertisement AdvAdvertisement (BdPublic [0x01; 0x02; 0x03; 0x04; 0x05; 0x06]) [0x07; 0x08] (Some 0x09%Z));
         Some (Build_le_advertisement AdvDirectAdvertisement (BdRandom [0x0A; 0x0B; 0x0C; 0x0D; 0x0E; 0x0F]) [0x10; 0x11; 0x12] (Some 0x13%Z)); None].
Proof. intros [[] []]; eexists; (split; [reflexivity|reflexivity]). Qed.

Example le_advertising_report_failed_incomplete : forall F, event_new F mock_vendor
  [0x3E; 27; 0x02; 2; 0; 0; 0x01; 0x02; 0x03; 0x04; 0x05; 0x06; 2; 0x07; 0x08; 0x09; 1; 1; 0x0A; 0x0B; 0x0C; 0x0D; 0x0E; 0x0F; 4; 0x10; 0x11; 0x12; 0x13]
  = Err ELeAdvertisementReportIncomplete.
Proof. intros [[] []]; reflexivity. Qed.

Example le_advertising_report_failed_bad_advertisement_type : forall F, event_new F mock_vendor
  [0x3E; 14; 0x02; 1; 5; 0; 0x01; 0x02; 0x03; 0x04; 0x05; 0x06; 2; 0x07; 0x08; 0x09]
  = Err (EBadLeAdvertisementType 5).
Proof. intros [[] []]; reflexivity. Qed.

Example le_advertising_report_failed_bad_addr_type : forall F, event_new F mock_vendor
  [0x3E; 14; 0x02; 1; 1; 4; 0x01; 0x02; 0x03; 0x04; 0x05; 0x06; 2; 0x07; 0x08; 0x09]
  = Err (EBadLeAddressType 4).
Proof. intros [[] []]; reflexivity. Qed.

Example le_connection_update_complete : forall F, event_new F mock_vendor
  [0x3E; 10; 0x03; 0x00; 0x01; 0x02; 0x03; 0x04; 0x05; 0x00; 0x07; 0x08]
  = Ok (@EvLeConnectionUpdateComplete mock_vendor (Build_le_connection_update_complete Success 0x0201 (Build_fixed_conn_interval (from_micros (0x0403 * 1250)) 0x0005 (from_millis (10 * 0x0807))))).
Proof. intros [[] []]; reflexivity. Qed.

Example le_read_remote_used_features_complete_4_1 : exists v, union_of (link_layer_constant F41) ["LE_ENCRYPTION"; "EXTENDED_REJECT_INDICATION"; "LE_PING"]%string = Some v
  /\ event_new F41 mock_vendor [0x3E; 12; 0x04; 0x00; 0x01; 0x02; 0x15; 0x00; 0x00; 0x00; 0x00; 0x00; 0x00; 0x00]
     = Ok (@EvLeReadRemoteUsedFeaturesComplete mock_vendor (Build_le_read_remote_used_features_complete Success 0x0201 v)).
Proof. eexists. split; reflexivity. Qed.

Example le_read_remote_used_features_complete_failed_bad_flag_4_1 : event_new F41 mock_vendor
  [0x3E; 12; 0x04; 0x00; 0x01; 0x02; 0x20; 0x00; 0x00; 0x00; 0x00; 0x00; 0x00; 0x00]
  = Err (EBadRemoteUsedFeatureFlag 0x0000000000000020).
Proof. reflexivity. Qed.

Example le_read_remote_used_features_complete_4_2 : exists v, union_of (link_layer_constant F42) ["LE_DATA_PACKET_LENGTH_EXTENSION"]%string = Some v
  /\ event_new F42 mock_vendor [0x3E; 12; 0x04; 0x00; 0x01; 0x02; 0x20; 0x00; 0x00; 0x00; 0x00; 0x00; 0x00; 0x00]
     = Ok (@EvLeReadRemoteUsedFeaturesComplete mock_vendor (Build_le_read_remote_used_features_complete Success 0x0201 v)).
Proof. eexists. split; reflexivity. Qed.

Example le_read_remote_used_features_complete_failed_bad_flag_4_2 : event_new F42 mock_vendor
  [0x3E; 12; 0x04; 0x00; 0x01; 0x02; 0x00; 0x01; 0x00; 0x00; 0x00; 0x00; 0x00; 0x00]
  = Err (EBadRemoteUsedFeatureFlag 0x0000000000000100).
Proof. reflexivity. Qed.

Example le_read_remote_used_features_complete_5_0 : exists v, union_of (link_layer_constant F50) ["LE_2M_PHY"]%string = Some v
  /\ event_new F50 mock_vendor [0x3E; 12; 0x04; 0x00; 0x01; 0x02; 0x00; 0x01; 0x00; 0x00; 0x00; 0x00; 0x00; 0x00]
     = Ok (@EvLeReadRemoteUsedFeaturesComplete mock_vendor (Build_le_read_remote_used_features_complete Success 0x0201 v)).
Proof. eexists. split; reflexivity. Qed.

Example le_read_remote_used_features_complete_failed_bad_flag_5_0 : event_new F50 mock_vendor
  [0x3E; 12; 0x04; 0x00; 0x01; 0x02; 0x00; 0x00; 0x02; 0x00; 0x00; 0x00; 0x00; 0x00]
  = Err (EBadRemoteUsedFeatureFlag 0x0000000000020000).
Proof. reflexivity. Qed.

Example le_long_term_key_request : forall F, event_new F mock_vendor
  [0x3E; 13; 0x05; 0x01; 0x02; 0x03; 0x04; 0x05; 0x06; 0x07; 0x08; 0x09; 0x0A; 0x0B; 0x0C]
  = Ok (@EvLeLongTermKeyRequest mock_vendor (Build_le_long_term_key_request 0x0201 0x0A09080706050403 0x0C0B)).
Proof. intros [[] []]; reflexivity. Qed.
