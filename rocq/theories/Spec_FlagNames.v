(** * What the named flag constants stand for (specification).

    Written from the Bluetooth specification 5.0; the names are those of the
    crate's constants. *)
From Verif Require Import Base Model_Types Model_Bitflags Model_FlagNames Model_EventBase
  Model_Command Model_Event Model_Host Spec_Wire Spec_Report Spec_Flags Spec_Host.
From Coq Require Import String.
Open Scope string_scope.
Open Scope list_scope.
Open Scope N_scope.

(** ** Event masks (Vol 2, Part E, 7.3.1 and 7.8.1)

    The name of the flag for an event, and for the subevent of an LE event.
    Command Complete, Command Status, Number Of Completed Packets and vendor
    events cannot be masked. *)
Definition event_flag {V} (ev : event V) : option string :=
  match ev with
  | EvConnectionComplete _ => Some "CONNECTION_COMPLETE"
  | EvDisconnectionComplete _ => Some "DISCONNECTION_COMPLETE"
  | EvEncryptionChange _ => Some "ENCRYPTION_CHANGE"
  | EvReadRemoteVersionInformationComplete _ => Some "READ_REMOTE_VERSION_INFORMATION_COMPLETE"
  | EvHardwareError _ => Some "HARDWARE_ERROR"
  | EvDataBufferOverflow _ => Some "DATA_BUFFER_OVERFLOW"
  | EvEncryptionKeyRefreshComplete _ => Some "ENCRYPTION_KEY_REFRESH_COMPLETE"
  | EvLeConnectionComplete _ | EvLeAdvertisingReport _ | EvLeConnectionUpdateComplete _
  | EvLeReadRemoteUsedFeaturesComplete _ | EvLeLongTermKeyRequest _
  | EvLeDataLengthChangeEvent _ | EvLePhyUpdateComplete _ => Some "LE_META_EVENT"
  | EvCommandComplete _ | EvCommandStatus _ | EvNumberOfCompletedPackets _ | EvVendor _ => None
  end.
Definition le_event_flag {V} (ev : event V) : option string :=
  match ev with
  | EvLeConnectionComplete _ => Some "CONNECTION_COMPLETE"
  | EvLeAdvertisingReport _ => Some "ADVERTISING_REPORT"
  | EvLeConnectionUpdateComplete _ => Some "CONNECTION_UPDATE_COMPLETE"
  | EvLeReadRemoteUsedFeaturesComplete _ => Some "READ_REMOTE_FEATURES_COMPLETE"
  | EvLeLongTermKeyRequest _ => Some "LONG_TERM_KEY_REQUEST"
  | EvLeDataLengthChangeEvent _ => Some "DATA_LENGTH_CHANGE"
  | EvLePhyUpdateComplete _ => Some "PHY_UPDATE_COMPLETE"
  | _ => None
  end.

(** The version of Bluetooth that introduced the subevent is enabled. *)
Definition le_event_known (F : features) {V} (ev : event V) : bool :=
  match ev with
  | EvLeDataLengthChangeEvent _ => version_4_2 F || version_5_0 F
  | EvLePhyUpdateComplete _ => version_5_0 F
  | _ => true
  end.

(** What a controller does with the parameters of Set Event Mask: a packet with
    event code [n] is sent if bit [n - 1] is set.  With those of LE Set Event
    Mask: an LE event with subevent code [n] is sent if bit [n - 1] is set. *)
Definition event_enabled (params packet : list N) : bool :=
  match packet with code :: _ => array_bit params (code - 1) | [] => false end.
Definition le_event_enabled (params packet : list N) : bool :=
  match packet with _ :: _ :: sub :: _ => array_bit params (sub - 1) | _ => false end.

(** A constant of the types of the two masks. *)
Definition event_constant (F : features) : string -> option N :=
  bf_constant F EventFlags_names EventFlags.
Definition le_event_constant (F : features) : string -> option N :=
  bf_constant F LeEventFlags_names LeEventFlags.

(** ** Supported commands (Vol 2, Part E, 6.27)

    The octet and bit for a command, and the name of the constant. Read Local
    Supported Commands has none. *)
Definition supported_bit {V} (c : command V) : option (N * N) :=
  match c with
  | CDisconnect _ _ => Some (0, 5)
  | CReadRemoteVersionInformation _ => Some (2, 7)
  | CSetEventMask _ => Some (5, 6)
  | CReset => Some (5, 7)
  | CReadTxPowerLevel _ _ => Some (10, 2)
  | CReadLocalVersionInformation => Some (14, 3)
  | CReadLocalSupportedCommands => None
  | CReadLocalSupportedFeatures => Some (14, 5)
  | CReadBdAddr => Some (15, 1)
  | CReadRssi _ => Some (15, 5)
  | CLeSetEventMask _ => Some (25, 0)
  | CLeReadBufferSize => Some (25, 1)
  | CLeReadLocalSupportedFeatures => Some (25, 2)
  | CLeSetRandomAddress _ => Some (25, 4)
  | CLeSetAdvertisingParameters _ => Some (25, 5)
  | CLeReadAdvertisingChannelTxPower => Some (25, 6)
  | CLeSetAdvertisingData _ => Some (25, 7)
  | CLeSetScanResponseData _ => Some (26, 0)
  | CLeSetAdvertiseEnable _ => Some (26, 1)
  | CLeSetAdvertisingEnable _ => Some (26, 1)
  | CLeSetScanParameters _ => Some (26, 2)
  | CLeSetScanEnable _ _ => Some (26, 3)
  | CLeCreateConnection _ => Some (26, 4)
  | CLeCreateConnectionCancel => Some (26, 5)
  | CLeReadWhiteListSize => Some (26, 6)
  | CLeClearWhiteList => Some (26, 7)
  | CLeAddDeviceToWhiteList _ => Some (27, 0)
  | CLeAddAnonAdvertisingDevicesToWhiteList => Some (27, 0)
  | CLeRemoveDeviceFromWhiteList _ => Some (27, 1)
  | CLeRemoveAnonAdvertisingDevicesFromWhiteList => Some (27, 1)
  | CLeConnectionUpdate _ => Some (27, 2)
  | CLeSetHostChannelClassification _ => Some (27, 3)
  | CLeReadChannelMap _ => Some (27, 4)
  | CLeReadRemoteUsedFeatures _ => Some (27, 5)
  | CLeEncrypt _ => Some (27, 6)
  | CLeRand => Some (27, 7)
  | CLeStartEncryption _ => Some (28, 0)
  | CLeLongTermKeyRequestReply _ _ => Some (28, 1)
  | CLeLongTermKeyRequestNegativeReply _ => Some (28, 2)
  | CLeReadSupportedStates => Some (28, 3)
  | CLeReceiverTest _ => Some (28, 4)
  | CLeTransmitterTest _ _ _ => Some (28, 5)
  | CLeTestEnd => Some (28, 6)
  end.
Definition command_flag {V} (c : command V) : option string :=
  match c with
  | CDisconnect _ _ => Some "DISCONNECT"
  | CReadRemoteVersionInformation _ => Some "READ_REMOTE_VERSION_INFORMATION"
  | CSetEventMask _ => Some "SET_EVENT_MASK"
  | CReset => Some "RESET"
  | CReadTxPowerLevel _ _ => Some "READ_TRANSMIT_POWER_LEVEL"
  | CReadLocalVersionInformation => Some "READ_LOCAL_VERSION_INFORMATION"
  | CReadLocalSupportedCommands => None
  | CReadLocalSupportedFeatures => Some "READ_LOCAL_SUPPORTED_FEATURES"
  | CReadBdAddr => Some "READ_BD_ADDR"
  | CReadRssi _ => Some "READ_RSSI"
  | CLeSetEventMask _ => Some "LE_SET_EVENT_MASK"
  | CLeReadBufferSize => Some "LE_READ_BUFFER_SIZE"
  | CLeReadLocalSupportedFeatures => Some "LE_READ_LOCAL_SUPPORTED_FEATURES"
  | CLeSetRandomAddress _ => Some "LE_SET_RANDOM_ADDRESS"
  | CLeSetAdvertisingParameters _ => Some "LE_SET_ADVERTISING_PARAMETERS"
  | CLeReadAdvertisingChannelTxPower => Some "LE_READ_ADVERTISING_CHANNEL_TX_POWER"
  | CLeSetAdvertisingData _ => Some "LE_SET_ADVERTISING_DATA"
  | CLeSetScanResponseData _ => Some "LE_SET_SCAN_RESPONSE_DATA"
  | CLeSetAdvertiseEnable _ => Some "LE_SET_ADVERTISE_ENABLE"
  | CLeSetAdvertisingEnable _ => Some "LE_SET_ADVERTISE_ENABLE"
  | CLeSetScanParameters _ => Some "LE_SET_SCAN_PARAMETERS"
  | CLeSetScanEnable _ _ => Some "LE_SET_SCAN_ENABLE"
  | CLeCreateConnection _ => Some "LE_CREATE_CONNECTION"
  | CLeCreateConnectionCancel => Some "LE_CREATE_CONNECTION_CANCEL"
  | CLeReadWhiteListSize => Some "LE_READ_WHITE_LIST_SIZE"
  | CLeClearWhiteList => Some "LE_CLEAR_WHITE_LIST"
  | CLeAddDeviceToWhiteList _ => Some "LE_ADD_DEVICE_TO_WHITE_LIST"
  | CLeAddAnonAdvertisingDevicesToWhiteList => Some "LE_ADD_DEVICE_TO_WHITE_LIST"
  | CLeRemoveDeviceFromWhiteList _ => Some "LE_REMOVE_DEVICE_FROM_WHITE_LIST"
  | CLeRemoveAnonAdvertisingDevicesFromWhiteList => Some "LE_REMOVE_DEVICE_FROM_WHITE_LIST"
  | CLeConnectionUpdate _ => Some "LE_CONNECTION_UPDATE"
  | CLeSetHostChannelClassification _ => Some "LE_SET_HOST_CHANNEL_CLASSIFICATION"
  | CLeReadChannelMap _ => Some "LE_READ_CHANNEL_MAP"
  | CLeReadRemoteUsedFeatures _ => Some "LE_READ_REMOTE_USED_FEATURES"
  | CLeEncrypt _ => Some "LE_ENCRYPT"
  | CLeRand => Some "LE_RAND"
  | CLeStartEncryption _ => Some "LE_START_ENCRYPTION"
  | CLeLongTermKeyRequestReply _ _ => Some "LE_LONG_TERM_KEY_REQUEST_REPLY"
  | CLeLongTermKeyRequestNegativeReply _ => Some "LE_LONG_TERM_KEY_REQUEST_NEGATIVE_REPLY"
  | CLeReadSupportedStates => Some "LE_READ_SUPPORTED_STATES"
  | CLeReceiverTest _ => Some "LE_RECEIVER_TEST"
  | CLeTransmitterTest _ _ _ => Some "LE_TRANSMITTER_TEST"
  | CLeTestEnd => Some "LE_TEST_END"
  end.
Definition command_constant (F : features) : string -> option array_flag :=
  declared F CommandFlags_names CommandFlags_decl.

(** The bits that Bluetooth 5.0 assigns and the crate does not declare: octet
    31, Set Reserved LT_ADDR (bit 4) and Delete Reserved LT_ADDR (bit 5). *)
Definition undeclared_command_bits : list N := [31 * 8 + 4; 31 * 8 + 5].
Definition assigned_command_bit (F : features) (i : N) : bool :=
  command_bit_defined F i || existsb (N.eqb i) undeclared_command_bits.

(** ** LE features (Vol 6, Part B, 4.6): bits 0, 1, ... in order, as named by the
    type for the local controller and by the type for the remote one. *)
Definition le_features_core : list (string * string) :=
  [ ("ENCRYPTION", "LE_ENCRYPTION");
    ("CONNECTION_PARAMETERS_REQUEST_PROCEDURE", "CONNECTION_PARAMETERS_REQUEST_PROCEDURE");
    ("EXTENDED_REJECT_INDICATION", "EXTENDED_REJECT_INDICATION");
    ("PERIPHERALINITIATED_FEATURES_EXCHANGE", "PERIPHERAL_INITIATED_FEATURES_EXCHANGE");
    ("PING", "LE_PING");
    ("DATA_PACKET_LENGTH_EXTENSION", "LE_DATA_PACKET_LENGTH_EXTENSION");
    ("LL_PRIVACY", "LL_PRIVACY");
    ("EXTENDED_SCANNER_FILTER_POLICIES", "EXTENDED_SCANNER_FILTER_POLICIES");
    ("PHY_2M", "LE_2M_PHY");
    ("STABLE_MODULATION_INDEX_TX", "STABLE_MODULATION_INDEX_TX");
    ("STABLE_MODULATION_INDEX_RX", "STABLE_MODULATION_INDEX_RX");
    ("CODED_PHY", "LE_CODED_PHY");
    ("EXTENDED_ADVERTISING", "LE_EXTENDED_ADVERTISING");
    ("PERIODIC_ADVERTISING", "LE_PERIODIC_ADVERTISING");
    ("CHANNEL_SELECTION_ALGORITHM_2", "CHANNEL_SELECTION_ALGORITHM_2");
    ("POWER_CLASS_1", "LE_POWER_CLASS_1");
    ("MINIMUM_NUMBER_OF_USED_CHANNELS_PROCEDURE", "MINIMUM_NUMBER_OF_USED_CHANNELS_PROCEDURE") ].
Definition le_feature_constant (F : features) : string -> option N :=
  bf_constant F LeFeatures_names LeFeatures.
Definition link_layer_constant (F : features) : string -> option N :=
  bf_constant F LinkLayerFeature_names LinkLayerFeature.

(** ** LMP features, page 0 (Vol 2, Part C, 3.3): each group starts at a bit. *)
Definition lmp_features_core : list (N * list string) :=
  [ (0, ["THREE_SLOT_PACKETS"; "FIVE_SLOT_PACKETS"; "ENCRYPTION"; "SLOT_OFFSET";
         "TIMING_ACCURACY"; "ROLE_SWITCH"; "HOLD_MODE"; "SNIFF_MODE"]);
    (9, ["POWER_CONTROL_REQUESTS"; "CHANNEL_QUALITY_DRIVEN_DATA_RATE_CQDDR"; "SCO_LINK";
         "HV2_PACKETS"; "HV3_PACKETS"; "MU_LAW_LOG_SYNCHRONOUS_DATA"; "A_LAW_LOG_SYNCHRONOUS_DATA"]);
    (16, ["CVSD_SYNCHRONOUS_DATA"; "PAGING_PARAMETER_NEGOTIATION"; "POWER_CONTROL";
          "TRANSPARENT_SYNCHRONOUS_DATA"; "FLOW_CONTROL_LAG_LSB"; "FLOW_CONTROL_LAG_MID";
          "FLOW_CONTROL_LAG_MSB"; "BROADCAST_ENCRYPTION"]);
    (25, ["ENHANCED_DATA_RATE_ACL_2_MB_PER_S_MODE"; "ENHANCED_DATA_RATE_ACL_3_MB_PER_S_MODE";
          "ENHANCED_INQUIRY_SCAN"; "INTERLACED_INQUIRY_SCAN"; "INTERLACED_PAGE_SCAN";
          "RSSI_WITH_INQUIRY_RESULTS"; "EXTENDED_SCO_LINK_EV3_PACKETS"]);
    (32, ["EV4_PACKETS"; "EV5_PACKETS"]);
    (35, ["AFH_CAPABLE_PERIPHERAL"; "AFH_CLASSIFICATION_PERIPHERAL"; "BR_EDR_NOT_SUPPORTED";
          "LE_SUPPORTED_BY_CONTROLLER"; "THREE_SLOT_ENHANCED_DATA_RATE_ACL_PACKETS"]);
    (40, ["FIVE_SLOT_ENHANCED_DATA_RATE_ACL_PACKETS"; "SNIFF_SUBRATING"; "PAUSE_ENCRYPTION";
          "AFH_CAPABLE_CENTRAL_DEVICE"; "AFH_CLASSIFICATION_CENTRAL_DEVICE";
          "ENHANCED_DATA_RATE_ESCO_2_MB_PER_S_MODE"; "ENHANCED_DATA_RATE_ESCO_3_MB_PER_S_MODE";
          "THREE_SLOT_ENHANCED_DATA_RATE_ESCO_PACKETS"]);
    (48, ["EXTENDED_INQUIRY_RESPONSE"; "SIMULTANEOUS_LE_AND_BR_EDR_TO_SAME_DEVICE_CAPABLE"]);
    (51, ["SECURE_SIMPLE_PAIRING"; "ENCAPSULATED_PDU"; "ERRONEOUS_DATA_REPORTING";
          "NON_FLUSHABLE_PACKET_BOUNDARY_FLAG"]);
    (56, ["LINK_SUPERVISION_TIMEOUT_CHANGED_EVENT"; "INQUIRY_TX_POWER_LEVEL";
          "ENHANCED_POWER_CONTROL"]);
    (63, ["EXTENDED_FEATURES"]) ].
Definition lmp_feature_at (name : string) (i : N) : Prop :=
  exists start names k, In (start, names) lmp_features_core /\ nth_error names k = Some name
    /\ i = start + N.of_nat k.
Definition lmp_constant (F : features) : string -> option N :=
  bf_constant F LmpFeatures_names LmpFeatures.

(** ** LE states (Vol 2, Part E, 7.8.27): a state, or two at once. *)
Inductive link_state :=
| NonConnectableAdvertising | ScannableAdvertising | ConnectableAdvertising
| HighDutyDirectedAdvertising | LowDutyDirectedAdvertising
| PassiveScanning | ActiveScanning | InitiatingState | CentralConnection | PeripheralConnection.
Definition le_states_core : list (link_state * option link_state) :=
  [ (NonConnectableAdvertising, None); (ScannableAdvertising, None);
    (ConnectableAdvertising, None); (HighDutyDirectedAdvertising, None);
    (PassiveScanning, None); (ActiveScanning, None); (InitiatingState, None);
    (PeripheralConnection, None);
    (NonConnectableAdvertising, Some PassiveScanning); (ScannableAdvertising, Some PassiveScanning);
    (ConnectableAdvertising, Some PassiveScanning); (HighDutyDirectedAdvertising, Some PassiveScanning);
    (NonConnectableAdvertising, Some ActiveScanning); (ScannableAdvertising, Some ActiveScanning);
    (ConnectableAdvertising, Some ActiveScanning); (HighDutyDirectedAdvertising, Some ActiveScanning);
    (NonConnectableAdvertising, Some InitiatingState); (ScannableAdvertising, Some InitiatingState);
    (NonConnectableAdvertising, Some CentralConnection); (ScannableAdvertising, Some CentralConnection);
    (NonConnectableAdvertising, Some PeripheralConnection);
    (ScannableAdvertising, Some PeripheralConnection);
    (PassiveScanning, Some InitiatingState); (ActiveScanning, Some InitiatingState);
    (PassiveScanning, Some CentralConnection); (ActiveScanning, Some CentralConnection);
    (PassiveScanning, Some PeripheralConnection); (ActiveScanning, Some PeripheralConnection);
    (InitiatingState, Some CentralConnection); (LowDutyDirectedAdvertising, None);
    (LowDutyDirectedAdvertising, Some PassiveScanning);
    (LowDutyDirectedAdvertising, Some ActiveScanning);
    (ConnectableAdvertising, Some InitiatingState); (HighDutyDirectedAdvertising, Some InitiatingState);
    (LowDutyDirectedAdvertising, Some InitiatingState);
    (ConnectableAdvertising, Some CentralConnection);
    (HighDutyDirectedAdvertising, Some CentralConnection);
    (LowDutyDirectedAdvertising, Some CentralConnection);
    (ConnectableAdvertising, Some PeripheralConnection);
    (HighDutyDirectedAdvertising, Some PeripheralConnection);
    (LowDutyDirectedAdvertising, Some PeripheralConnection);
    (InitiatingState, Some PeripheralConnection) ].

(** The names: of a state alone, and of two states joined by AND. *)
Definition state_name (s : link_state) : string :=
  match s with
  | NonConnectableAdvertising => "NON_CONNECTABLE_ADVERTISING"
  | ScannableAdvertising => "SCANNABLE_ADVERTISING"
  | ConnectableAdvertising => "CONNECTABLE_ADVERTISING"
  | HighDutyDirectedAdvertising => "DIRECTED_ADVERTISING_HIGH_DUTY_CYCLE"
  | LowDutyDirectedAdvertising => "DIRECTED_ADVERTISING_LOW_DUTY_CYCLE"
  | PassiveScanning => "PASSIVE_SCANNING"
  | ActiveScanning => "ACTIVE_SCANNING"
  | InitiatingState => "INITIATING"
  | CentralConnection => "CENTRAL_CONNECTION"
  | PeripheralConnection => "PERIPHERAL_CONNECTION"
  end.
Definition state_abbreviation (s : link_state) : string :=
  match s with
  | NonConnectableAdvertising => "NONCONN_AD"
  | ScannableAdvertising => "SCAN_AD"
  | ConnectableAdvertising => "CONN_AD"
  | HighDutyDirectedAdvertising => "DIR_AD_HDC"
  | LowDutyDirectedAdvertising => "DIR_AD_LDC"
  | PassiveScanning => "PASS_SCAN"
  | ActiveScanning => "ACT_SCAN"
  | InitiatingState => "INITIATING"
  | CentralConnection => "CENTRAL_CONN"
  | PeripheralConnection => "PERIPH_CONN"
  end.
Definition states_name (p : link_state * option link_state) : string :=
  match p with
  | (s, None) => state_name s
  | (s, Some s') => (state_abbreviation s ++ "_AND_" ++ state_abbreviation s')%string
  end.
Definition le_states_constant (F : features) : string -> option N :=
  bf_constant F LeStates_names LeStates.

(** ** Data channels and advertising channels: channel [i] is bit [i], and
    advertising channel 37, 38, 39 is bit 0, 1, 2 (Vol 2, Part E, 7.8.5). *)
Definition digit_name (n : nat) : string := String (Ascii.ascii_of_nat (48 + n)) EmptyString.
Definition channel_name (n : nat) : string :=
  ("CH_" ++ (if Nat.ltb n 10 then digit_name n
             else digit_name (n / 10) ++ digit_name (n mod 10)))%string.
Definition channel_constant (F : features) : string -> option array_flag :=
  declared F ChannelClassification_names ChannelClassification_decl.
Definition advertising_channel_constant (F : features) : string -> option N :=
  bf_constant F Channels_names Channels.
