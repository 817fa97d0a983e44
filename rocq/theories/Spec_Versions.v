(** * Enabled versions, failed connections and loss of information (specification). *)
From Verif Require Import Base Model_Types Model_EventBase Model_Command Model_Event
  Spec_Wire Spec_Errors.

(** ** Versions

    Whatever [F] enables, [F'] enables too; 5.0 includes 4.2. *)
Definition newer (F F' : features) : Prop :=
  (version_4_2 F || version_5_0 F = true -> version_4_2 F' || version_5_0 F' = true)%bool
  /\ (version_5_0 F = true -> version_5_0 F' = true).
Definition same_version (F F' : features) : Prop := newer F F' /\ newer F' F.

Section Reread.
Context (F F' : features) (V : vendor).

(** The same byte, read as a status with [F] and with [F']. *)
Definition status_reread (s s' : status (VStatus V)) : Prop :=
  exists b, byte b /\ status_byte F V b s /\ status_byte F' V b s'.

(** The same return parameters: statuses reread, features that gain bits, one
    variant renamed; everything else unchanged. *)
Definition return_reread (r r' : return_parameters V) : Prop :=
  match r, r' with
  | RetSpontaneous, RetSpontaneous => True
  | RetSetEventMask s, RetSetEventMask s' => status_reread s s'
  | RetReset s, RetReset s' => status_reread s s'
  | RetReadTxPowerLevel p, RetReadTxPowerLevel p' =>
      status_reread (txp_status p) (txp_status p')
      /\ txp_conn_handle p' = txp_conn_handle p /\ txp_dbm p' = txp_dbm p
  | RetReadLocalVersionInformation p, RetReadLocalVersionInformation p' =>
      status_reread (lvi_status p) (lvi_status p')
      /\ lvi_hci_version p' = lvi_hci_version p /\ lvi_hci_revision p' = lvi_hci_revision p
      /\ lvi_lmp_version p' = lvi_lmp_version p
      /\ lvi_manufacturer_name p' = lvi_manufacturer_name p
      /\ lvi_lmp_subversion p' = lvi_lmp_subversion p
  | RetReadLocalSupportedCommands p, RetReadLocalSupportedCommands p' =>
      status_reread (lsc_status p) (lsc_status p') /\ lsc_commands p' = lsc_commands p
  | RetReadLocalSupportedFeatures p, RetReadLocalSupportedFeatures p' =>
      status_reread (lsf_status p) (lsf_status p') /\ lsf_features p' = lsf_features p
  | RetReadBdAddr p, RetReadBdAddr p' =>
      status_reread (rba_status p) (rba_status p') /\ rba_bd_addr p' = rba_bd_addr p
  | RetReadRssi p, RetReadRssi p' =>
      status_reread (rssi_status p) (rssi_status p')
      /\ rssi_conn_handle p' = rssi_conn_handle p /\ rssi_rssi p' = rssi_rssi p
  | RetLeSetEventMask s, RetLeSetEventMask s' => status_reread s s'
  | RetLeReadBufferSize p, RetLeReadBufferSize p' =>
      status_reread (lbs_status p) (lbs_status p')
      /\ lbs_data_packet_length p' = lbs_data_packet_length p
      /\ lbs_data_packet_count p' = lbs_data_packet_count p
  | RetLeReadLocalSupportedFeatures p, RetLeReadLocalSupportedFeatures p' =>
      (* what [F] defines is unchanged; [F'] may show more *)
      status_reread (lef_status p) (lef_status p')
      /\ forall i, N.testbit (lef_features p) i
                   = (N.testbit (lef_features p') i && le_feature_defined F i)%bool
  | RetLeSetRandomAddress s, RetLeSetRandomAddress s' => status_reread s s'
  | RetLeSetAdvertisingParameters s, RetLeSetAdvertisingParameters s' => status_reread s s'
  | RetLeReadAdvertisingChannelTxPower p, RetLeReadAdvertisingChannelTxPower p' =>
      status_reread (lat_status p) (lat_status p') /\ lat_power p' = lat_power p
  | RetLeSetAdvertisingData s, RetLeSetAdvertisingData s' => status_reread s s'
  | RetLeSetScanResponseData s, RetLeSetScanResponseData s' => status_reread s s'
  | RetLeSetAdvertiseEnable s, RetLeSetAdvertiseEnable s' => status_reread s s'
  | RetLeSetAdvertisingEnable s, RetLeSetAdvertisingEnable s' => status_reread s s'
  | RetLeSetAdvertiseEnable s, RetLeSetAdvertisingEnable s' =>
      (* renamed in 5.0 *)
      version_5_0 F = false /\ version_5_0 F' = true /\ status_reread s s'
  | RetLeSetScanParameters s, RetLeSetScanParameters s' => status_reread s s'
  | RetLeSetScanEnable s, RetLeSetScanEnable s' => status_reread s s'
  | RetLeCreateConnectionCancel s, RetLeCreateConnectionCancel s' => status_reread s s'
  | RetLeReadWhiteListSize s n, RetLeReadWhiteListSize s' n' => status_reread s s' /\ n' = n
  | RetLeClearWhiteList s, RetLeClearWhiteList s' => status_reread s s'
  | RetLeAddDeviceToWhiteList s, RetLeAddDeviceToWhiteList s' => status_reread s s'
  | RetLeRemoveDeviceFromWhiteList s, RetLeRemoveDeviceFromWhiteList s' => status_reread s s'
  | RetLeSetHostChannelClassification s, RetLeSetHostChannelClassification s' => status_reread s s'
  | RetLeReadChannelMap p, RetLeReadChannelMap p' =>
      status_reread (cmp_status p) (cmp_status p')
      /\ cmp_conn_handle p' = cmp_conn_handle p /\ cmp_channel_map p' = cmp_channel_map p
  | RetLeEncrypt p, RetLeEncrypt p' =>
      status_reread (enc_status p) (enc_status p') /\ enc_data p' = enc_data p
  | RetLeRand p, RetLeRand p' =>
      status_reread (rnd_status p) (rnd_status p') /\ rnd_number p' = rnd_number p
  | RetLeLongTermKeyRequestReply p, RetLeLongTermKeyRequestReply p'
  | RetLeLongTermKeyRequestNegativeReply p, RetLeLongTermKeyRequestNegativeReply p' =>
      status_reread (ltkr_status p) (ltkr_status p') /\ ltkr_conn_handle p' = ltkr_conn_handle p
  | RetLeReadSupportedStates p, RetLeReadSupportedStates p' =>
      status_reread (lrs_status p) (lrs_status p') /\ lrs_states p' = lrs_states p
  | RetLeReceiverTest s, RetLeReceiverTest s' => status_reread s s'
  | RetLeTransmitterTest s, RetLeTransmitterTest s' => status_reread s s'
  | RetLeTestEnd p, RetLeTestEnd p' =>
      status_reread (lte_status p) (lte_status p')
      /\ lte_number_of_packets p' = lte_number_of_packets p
  | RetVendor v, RetVendor v' => v' = v
  | _, _ => False
  end.

(** The same event: statuses reread, everything else unchanged. *)
Definition event_reread (ev ev' : event V) : Prop :=
  match ev, ev' with
  | EvConnectionComplete e, EvConnectionComplete e' =>
      exists s', status_reread (cnc_status e) s'
        /\ e' = Build_connection_complete s' (cnc_conn_handle e) (cnc_bd_addr e) (cnc_link_type e)
                  (cnc_encryption_enabled e)
  | EvDisconnectionComplete e, EvDisconnectionComplete e' =>
      exists s' r', status_reread (dsc_status e) s' /\ status_reread (dsc_reason e) r'
        /\ e' = Build_disconnection_complete s' (dsc_conn_handle e) r'
  | EvEncryptionChange e, EvEncryptionChange e' =>
      exists s', status_reread (ech_status e) s'
        /\ e' = Build_encryption_change s' (ech_conn_handle e) (ech_encryption e)
  | EvReadRemoteVersionInformationComplete e, EvReadRemoteVersionInformationComplete e' =>
      exists s', status_reread (rvi_status e) s'
        /\ e' = Build_remote_version_information s' (rvi_conn_handle e) (rvi_version e)
                  (rvi_mfgr_name e) (rvi_subversion e)
  | EvCommandComplete e, EvCommandComplete e' =>
      cc_num_hci_command_packets e' = cc_num_hci_command_packets e
      /\ return_reread (cc_return_params e) (cc_return_params e')
  | EvCommandStatus e, EvCommandStatus e' =>
      exists s', status_reread (cst_status e) s'
        /\ e' = Build_command_status s' (cst_num_hci_command_packets e) (cst_opcode e)
  | EvEncryptionKeyRefreshComplete e, EvEncryptionKeyRefreshComplete e' =>
      exists s', status_reread (ekr_status e) s'
        /\ e' = Build_encryption_key_refresh_complete s' (ekr_conn_handle e)
  | EvLeConnectionComplete e, EvLeConnectionComplete e' =>
      exists s', status_reread (lcc_status e) s'
        /\ e' = Build_le_connection_complete s' (lcc_conn_handle e) (lcc_role e)
                  (lcc_peer_bd_addr e) (lcc_conn_interval e) (lcc_central_clock_accuracy e)
  | EvLeConnectionUpdateComplete e, EvLeConnectionUpdateComplete e' =>
      exists s', status_reread (lcu_status e) s'
        /\ e' = Build_le_connection_update_complete s' (lcu_conn_handle e) (lcu_conn_interval e)
  | EvLeReadRemoteUsedFeaturesComplete e, EvLeReadRemoteUsedFeaturesComplete e' =>
      exists s', status_reread (lrf_status e) s'
        /\ e' = Build_le_read_remote_used_features_complete s' (lrf_conn_handle e) (lrf_features e)
  | EvLePhyUpdateComplete e, EvLePhyUpdateComplete e' =>
      exists s', status_reread (lpu_status e) s'
        /\ e' = Build_le_phy_update_complete s' (lpu_conn_handle e) (lpu_tx_phy e) (lpu_rx_phy e)
  | EvHardwareError _, _ | EvNumberOfCompletedPackets _, _ | EvDataBufferOverflow _, _
  | EvLeAdvertisingReport _, _ | EvLeLongTermKeyRequest _, _ | EvLeDataLengthChangeEvent _, _
  | EvVendor _, _ => ev' = ev
  | _, _ => False
  end.
End Reread.

(** ** Failed connections

    The fields after the status in LE Connection Complete and in LE Connection
    Update Complete: those for which the event is delivered. *)
Definition connection_fields_ok (p : list N) : Prop :=
  at_ p 2 <= 1 /\ at_ p 3 <= 1
  /\ legal_parameters (u16_le p 10) (u16_le p 10) (u16_le p 12) (u16_le p 14)
  /\ at_ p 16 <= 7.
Definition update_fields_ok (p : list N) : Prop :=
  legal_parameters (u16_le p 2) (u16_le p 2) (u16_le p 4) (u16_le p 6).

(** ** Loss of information

    The vendor does not use one status for several codes. *)
Definition vendor_statuses_distinct (V : vendor) : Prop :=
  forall b b' v, vstatus_try_from V b = Ok v -> vstatus_try_from V b' = Ok v -> b = b'.

Definition agree_on (defined : N -> bool) (v v' : N) : Prop :=
  forall i, defined i = true -> N.testbit v i = N.testbit v' i.

(** Different packets that mean the same. *)
Inductive alike (F : features) : list N -> list N -> Prop :=
| alike_spontaneous n ret ret' :
    (* the return parameters of a spontaneous Command Complete *)
    alike F (framed 0x0E ([n; 0; 0] ++ ret)) (framed 0x0E ([n; 0; 0] ++ ret'))
| alike_status n op sb rest rest' :
    (* what follows a status that should be alone *)
    In op status_only_opcodes ->
    alike F (framed 0x0E ([n] ++ le 2 op ++ sb :: rest))
            (framed 0x0E ([n] ++ le 2 op ++ sb :: rest'))
| alike_size n sb size rest rest' :
    (* what follows the size of the white list *)
    alike F (framed 0x0E ([n] ++ le 2 white_list_size_opcode ++ sb :: size :: rest))
            (framed 0x0E ([n] ++ le 2 white_list_size_opcode ++ sb :: size :: rest'))
| alike_lmp_features n sb v v' :
    (* undefined bits of the supported features *)
    u64 v -> u64 v' -> agree_on lmp_feature_defined v v' ->
    alike F (framed 0x0E ([n] ++ le 2 (hci_opcode 0x04 0x003) ++ sb :: le 8 v))
            (framed 0x0E ([n] ++ le 2 (hci_opcode 0x04 0x003) ++ sb :: le 8 v'))
| alike_le_features n sb v v' :
    u64 v -> u64 v' -> agree_on (le_feature_defined F) v v' ->
    alike F (framed 0x0E ([n] ++ le 2 (hci_opcode 0x08 0x003) ++ sb :: le 8 v))
            (framed 0x0E ([n] ++ le 2 (hci_opcode 0x08 0x003) ++ sb :: le 8 v'))
| alike_report count count' data :
    (* the number of reports in an advertising report *)
    alike F (framed 0x3E (0x02 :: count :: data)) (framed 0x3E (0x02 :: count' :: data)).
