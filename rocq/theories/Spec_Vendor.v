(** * Vendor extensions (specification). *)
From Verif Require Import Base Model_Types Model_EventBase Model_Command Model_Event.

(** The vendor [V] with its event and return-parameter decoders replaced. *)
Definition with_decoders (V : vendor)
    (fe : list N -> outcome (event_error (VError V)) (VEvent V))
    (fr : list N -> outcome (event_error (VError V)) (VReturn V)) : vendor :=
  {| VStatus := VStatus V; VEvent := VEvent V; VReturn := VReturn V; VError := VError V;
     vstatus_try_from := vstatus_try_from V; vstatus_into := vstatus_into V;
     vevent_new := fe; vreturn_new := fr |}.

(** The same event, as an event of the other vendor: every constructor is
    mapped to itself. *)
Definition same_return V fe fr (r : return_parameters V)
    : return_parameters (with_decoders V fe fr) :=
  let V' := with_decoders V fe fr in
  match r with
  | RetSpontaneous => @RetSpontaneous V'
  | RetSetEventMask a => @RetSetEventMask V' a
  | RetReset a => @RetReset V' a
  | RetReadTxPowerLevel a => @RetReadTxPowerLevel V' a
  | RetReadLocalVersionInformation a => @RetReadLocalVersionInformation V' a
  | RetReadLocalSupportedCommands a => @RetReadLocalSupportedCommands V' a
  | RetReadLocalSupportedFeatures a => @RetReadLocalSupportedFeatures V' a
  | RetReadBdAddr a => @RetReadBdAddr V' a
  | RetReadRssi a => @RetReadRssi V' a
  | RetLeSetEventMask a => @RetLeSetEventMask V' a
  | RetLeReadBufferSize a => @RetLeReadBufferSize V' a
  | RetLeReadLocalSupportedFeatures a => @RetLeReadLocalSupportedFeatures V' a
  | RetLeSetRandomAddress a => @RetLeSetRandomAddress V' a
  | RetLeSetAdvertisingParameters a => @RetLeSetAdvertisingParameters V' a
  | RetLeReadAdvertisingChannelTxPower a => @RetLeReadAdvertisingChannelTxPower V' a
  | RetLeSetAdvertisingData a => @RetLeSetAdvertisingData V' a
  | RetLeSetScanResponseData a => @RetLeSetScanResponseData V' a
  | RetLeSetAdvertiseEnable a => @RetLeSetAdvertiseEnable V' a
  | RetLeSetAdvertisingEnable a => @RetLeSetAdvertisingEnable V' a
  | RetLeSetScanParameters a => @RetLeSetScanParameters V' a
  | RetLeSetScanEnable a => @RetLeSetScanEnable V' a
  | RetLeCreateConnectionCancel a => @RetLeCreateConnectionCancel V' a
  | RetLeReadWhiteListSize a b => @RetLeReadWhiteListSize V' a b
  | RetLeClearWhiteList a => @RetLeClearWhiteList V' a
  | RetLeAddDeviceToWhiteList a => @RetLeAddDeviceToWhiteList V' a
  | RetLeRemoveDeviceFromWhiteList a => @RetLeRemoveDeviceFromWhiteList V' a
  | RetLeSetHostChannelClassification a => @RetLeSetHostChannelClassification V' a
  | RetLeReadChannelMap a => @RetLeReadChannelMap V' a
  | RetLeEncrypt a => @RetLeEncrypt V' a
  | RetLeRand a => @RetLeRand V' a
  | RetLeLongTermKeyRequestReply a => @RetLeLongTermKeyRequestReply V' a
  | RetLeLongTermKeyRequestNegativeReply a => @RetLeLongTermKeyRequestNegativeReply V' a
  | RetLeReadSupportedStates a => @RetLeReadSupportedStates V' a
  | RetLeReceiverTest a => @RetLeReceiverTest V' a
  | RetLeTransmitterTest a => @RetLeTransmitterTest V' a
  | RetLeTestEnd a => @RetLeTestEnd V' a
  | RetVendor a => @RetVendor V' a
  end.
Definition same_event V fe fr (ev : event V) : event (with_decoders V fe fr) :=
  let V' := with_decoders V fe fr in
  match ev with
  | EvConnectionComplete a => @EvConnectionComplete V' a
  | EvDisconnectionComplete a => @EvDisconnectionComplete V' a
  | EvEncryptionChange a => @EvEncryptionChange V' a
  | EvReadRemoteVersionInformationComplete a => @EvReadRemoteVersionInformationComplete V' a
  | EvCommandComplete cc =>
      @EvCommandComplete V' (@Build_command_complete V' (cc_num_hci_command_packets cc)
                           (same_return V fe fr (cc_return_params cc)))
  | EvCommandStatus a => @EvCommandStatus V' a
  | EvHardwareError a => @EvHardwareError V' a
  | EvNumberOfCompletedPackets a => @EvNumberOfCompletedPackets V' a
  | EvDataBufferOverflow a => @EvDataBufferOverflow V' a
  | EvEncryptionKeyRefreshComplete a => @EvEncryptionKeyRefreshComplete V' a
  | EvLeConnectionComplete a => @EvLeConnectionComplete V' a
  | EvLeAdvertisingReport a => @EvLeAdvertisingReport V' a
  | EvLeConnectionUpdateComplete a => @EvLeConnectionUpdateComplete V' a
  | EvLeReadRemoteUsedFeaturesComplete a => @EvLeReadRemoteUsedFeaturesComplete V' a
  | EvLeLongTermKeyRequest a => @EvLeLongTermKeyRequest V' a
  | EvLeDataLengthChangeEvent a => @EvLeDataLengthChangeEvent V' a
  | EvLePhyUpdateComplete a => @EvLePhyUpdateComplete V' a
  | EvVendor a => @EvVendor V' a
  end.
Definition same_result V fe fr (m : outcome (event_error (VError V)) (event V))
    : outcome (event_error (VError V)) (event (with_decoders V fe fr)) :=
  match m with
  | Ok ev => Ok (same_event V fe fr ev)
  | Err e => Err e
  | Panic => Panic
  end.

(** The packets that are the vendor's: events with code FF, and Command Complete
    events for an opcode with OGF 3F (the OGF is the top 6 bits of the opcode,
    whose high byte is the third byte of the payload). *)
Definition vendor_packet (pkt : list N) : Prop :=
  match pkt with
  | 0xFF :: _ => True
  | 0x0E :: _ :: _ :: _ :: hi :: _ => hi / 4 = 0x3F
  | _ => False
  end.
