(** * Comparison with [==]: the derived [PartialEq] of the types that have it.

    A derived [==] of an enum is true if both are the same variant and what they
    contain is equal; of a struct, if all fields are.  [[u8; N]] is compared byte by
    byte, [Duration] (a number of nanoseconds here) by its value.  [ScanWindow] and
    [AdvertisingType] are in Model_Access.v and Model_Intervals.v, the flag arrays in
    Model_Bitflags.v. *)
From Verif Require Import Base Model_Types Model_Intervals Model_Access Model_EventBase Model_Event Model_Host.

(** [==] of two arrays (e.g. for src/lib.rs:711). *)
Fixpoint bytes_eqb (a b : list N) : bool :=
  match a, b with
  | [], [] => true
  | x :: a, y :: b => (x =? y) && bytes_eqb a b
  | _, _ => false
  end.

(** ** src/lib.rs and src/opcode.rs *)

(** src/lib.rs:330-483: the number of the variant, in the order of the enum. *)
Definition status_variant {V} (s : status V) : N :=
  match s with
  | Success => 0
  | UnknownCommand => 1
  | UnknownConnectionId => 2
  | HardwareFailure => 3
  | PageTimeout => 4
  | AuthFailure => 5
  | PinOrKeyMissing => 6
  | OutOfMemory => 7
  | ConnectionTimeout => 8
  | ConnectionLimitExceeeded => 9
  | SyncConnectionLimitExceeded => 10
  | ConnectionAlreadyExists => 11
  | CommandDisallowed => 12
  | LimitedResources => 13
  | ConnectionRejectedSecurity => 14
  | UnacceptableBdAddr => 15
  | AcceptTimeoutExceeded => 16
  | UnsupportedFeature => 17
  | InvalidParameters => 18
  | RemoteTerminationByUser => 19
  | RemoteTerminationLowResources => 20
  | RemoteTerminationPowerOff => 21
  | ConnectionTerminatedByHost => 22
  | RepeatedAttempts => 23
  | PairingNotAllowed => 24
  | UnknownLmpPdu => 25
  | UnsupportedRemoteFeature => 26
  | ScoOffsetRejected => 27
  | ScoIntervalRejected => 28
  | ScoAirModeRejected => 29
  | InvalidLmpParameters => 30
  | UnspecifiedError => 31
  | UnsupportedLmpParameterValue => 32
  | RoleChangeNotAllowed => 33
  | LmpResponseTimeout => 34
  | LmpTransactionCollision => 35
  | LmpPduNotAllowed => 36
  | EncryptionModeNotAcceptable => 37
  | LinkKeyCannotBeChanged => 38
  | RequestedQosNotSupported => 39
  | InstantPassed => 40
  | PairingWithUnitKeyNotSupported => 41
  | DifferentTransactionCollision => 42
  | ReservedforFutureUse => 43
  | QosUnacceptableParameter => 44
  | QosRejected => 45
  | ChannelClassificationNotSupported => 46
  | InsufficientSecurity => 47
  | ParameterOutOfMandatoryRange => 48
  | ReservedForFutureUse49 => 49
  | RoleSwitchPending => 50
  | ReservedForFutureUse51 => 51
  | ReservedSlotViolation => 52
  | RoleSwitchFailed => 53
  | ExtendedInquiryResponseTooLarge => 54
  | SecureSimplePairingNotSupportedByHost => 55
  | HostBusyPairing => 56
  | ConnectionRejectedNoSuitableChannel => 57
  | ControllerBusy => 58
  | UnacceptableConnectionParameters => 59
  | AdvertisingTimeout => 60
  | ConnectionTerminatedMicFailure => 61
  | ConnectionFailedToEstablish => 62
  | MacConnectionFailed => 63
  | CoarseClockAdjustmentRejectedDraggingAttempted => 64
  | Type0SubmapNotDefined => 65
  | UnknownAdvertisingId => 66
  | LimitReached => 67
  | OperationCancelledByHost => 68
  | Vendor _ => 69
  end.
(** src/lib.rs:329, derived for [Status]; [veq] is [==] of the vendor's status. *)
Definition status_eqb {V} (veq : V -> V -> bool) (a b : status V) : bool :=
  (status_variant a =? status_variant b)
  && match a, b with Vendor v, Vendor w => veq v w | _, _ => true end.
(** src/lib.rs:707, for [ConnectionHandle]. *)
Definition conn_handle_eqb (a b : conn_handle) : bool := a =? b.
(** src/lib.rs:711, for [BdAddr]. *)
Definition bd_addr_eqb (a b : bd_addr) : bool := bytes_eqb a b.
(** src/lib.rs:715, for [BdAddrType]. *)
Definition bd_addr_type_eqb (a b : bd_addr_type) : bool :=
  match a, b with
  | BdPublic x, BdPublic y => bd_addr_eqb x y
  | BdRandom x, BdRandom y => bd_addr_eqb x y
  | _, _ => false
  end.
(** src/opcode.rs:4, for [Opcode]. *)
Definition opcode_eqb (a b : opcode) : bool := a =? b.

(** ** src/event/mod.rs *)

(** src/event/mod.rs:382, for [LinkType]. *)
Definition link_type_eqb (a b : link_type) : bool :=
  match a, b with
  | Sco, Sco | Acl, Acl => true
  | _, _ => false
  end.
(** src/event/mod.rs:508, for [Encryption]. *)
Definition encryption_eqb (a b : encryption) : bool :=
  match a, b with
  | EncOff, EncOff | EncOn, EncOn | EncOnAesCcmForBrEdr, EncOnAesCcmForBrEdr => true
  | _, _ => false
  end.
(** src/event/mod.rs:836, for [ConnectionRole]. *)
Definition connection_role_eqb (a b : connection_role) : bool :=
  match a, b with
  | Central, Central | Peripheral, Peripheral => true
  | _, _ => false
  end.
(** src/event/mod.rs:861, for [CentralClockAccuracy]. *)
Definition clock_accuracy_eqb (a b : clock_accuracy) : bool :=
  match a, b with
  | Ppm500, Ppm500 | Ppm250, Ppm250 | Ppm150, Ppm150 | Ppm100, Ppm100 | Ppm75, Ppm75 | Ppm50, Ppm50 | Ppm30, Ppm30 | Ppm20, Ppm20 => true
  | _, _ => false
  end.
(** src/event/mod.rs:1084, for [AdvertisementEvent]. *)
Definition advertisement_event_eqb (a b : advertisement_event) : bool :=
  match a, b with
  | AdvAdvertisement, AdvAdvertisement | AdvDirectAdvertisement, AdvDirectAdvertisement | AdvScan, AdvScan | AdvNonConnectableAdvertisement, AdvNonConnectableAdvertisement | AdvScanResponse, AdvScanResponse => true
  | _, _ => false
  end.

(** ** src/types *)

(** src/types/common.rs:8, for [CommonDataType]: the variants are numbered by the
    codes they have (lines 9-104), which all differ. *)
Definition common_data_type_eqb (a b : common_data_type) : bool :=
  common_data_type_as_u8 a =? common_data_type_as_u8 b.
(** src/types/connection_interval.rs:256, for [ConnectionIntervalError]. *)
Definition conn_interval_error_eqb (a b : conn_interval_error) : bool :=
  match a, b with
  | Incomplete, Incomplete => true
  | IntervalTooShort x, IntervalTooShort y => x =? y
  | IntervalTooLong x, IntervalTooLong y => x =? y
  | IntervalInverted x x', IntervalInverted y y' => (x =? y) && (x' =? y')
  | BadConnectionLatency x, BadConnectionLatency y => x =? y
  | SupervisionTimeoutTooShort x x', SupervisionTimeoutTooShort y y' => (x =? y) && (x' =? y')
  | SupervisionTimeoutTooLong x, SupervisionTimeoutTooLong y => x =? y
  | ImpossibleSupervisionTimeout x, ImpossibleSupervisionTimeout y => x =? y
  | _, _ => false
  end.
(** src/types/expected_connection_length.rs:63, for [ExpectedConnectionLengthError]. *)
Definition expected_conn_length_error_eqb (a b : expected_conn_length_error) : bool :=
  match a, b with
  | ECL_TooLong x, ECL_TooLong y => x =? y
  | ECL_Inverted x x', ECL_Inverted y y' => (x =? y) && (x' =? y')
  | _, _ => false
  end.
(** src/types/advertising_interval.rs:148, for [AdvertisingIntervalError]. *)
Definition advertising_interval_error_eqb (a b : advertising_interval_error) : bool :=
  match a, b with
  | AI_TooShort x, AI_TooShort y => x =? y
  | AI_TooLong x, AI_TooLong y => x =? y
  | AI_Inverted x x', AI_Inverted y y' => (x =? y) && (x' =? y')
  | AI_NoRange, AI_NoRange => true
  | _, _ => false
  end.
(** src/types/scan_window.rs:113, for [ScanWindowError]. *)
Definition scan_window_error_eqb (a b : scan_window_error) : bool :=
  match a, b with
  | SW_TooShort x, SW_TooShort y => x =? y
  | SW_TooLong x, SW_TooLong y => x =? y
  | SW_Inverted x x', SW_Inverted y y' => (x =? y) && (x' =? y')
  | _, _ => false
  end.

(** src/event/mod.rs:164, for [Error]; [veq] is [==] of the vendor's error. *)
Definition event_error_eqb {VE} (veq : VE -> VE -> bool) (a b : event_error VE) : bool :=
  match a, b with
  | EUnknownEvent x, EUnknownEvent y => x =? y
  | EBadLength x x', EBadLength y y' => Nat.eqb x y && Nat.eqb x' y'
  | EBadStatus x, EBadStatus y => x =? y
  | EBadLinkType x, EBadLinkType y => x =? y
  | EBadEncryptionEnabledValue x, EBadEncryptionEnabledValue y => x =? y
  | EBadReason x, EBadReason y => x =? y
  | EBadEncryptionType x, EBadEncryptionType y => x =? y
  | EUnknownOpcode x, EUnknownOpcode y => opcode_eqb x y
  | EBadCommandFlag, EBadCommandFlag => true
  | EInvalidChannelMap x, EInvalidChannelMap y => bytes_eqb x y
  | EInvalidLeStates x, EInvalidLeStates y => x =? y
  | EBadLeConnectionRole x, EBadLeConnectionRole y => x =? y
  | EBadLeAddressType x, EBadLeAddressType y => x =? y
  | EBadConnectionInterval x, EBadConnectionInterval y => conn_interval_error_eqb x y
  | EBadLeCentralClockAccuracy x, EBadLeCentralClockAccuracy y => x =? y
  | ELeAdvertisementReportIncomplete, ELeAdvertisementReportIncomplete => true
  | EBadLeAdvertisementType x, EBadLeAdvertisementType y => x =? y
  | EBadRemoteUsedFeatureFlag x, EBadRemoteUsedFeatureFlag y => x =? y
  | EBadPhy x, EBadPhy y => x =? y
  | EVendor x, EVendor y => veq x y
  | _, _ => false
  end.

(** ** src/host *)

(** src/host/mod.rs:1657, for [TxPowerLevel]. *)
Definition tx_power_level_type_eqb (a b : tx_power_level_type) : bool :=
  match a, b with
  | Current, Current | Maximum, Maximum => true
  | _, _ => false
  end.
(** src/host/mod.rs:1809, for [OwnAddressType]. *)
Definition own_address_type_eqb (a b : own_address_type) : bool :=
  match a, b with
  | OwnPublic, OwnPublic | OwnRandom, OwnRandom | PrivateFallbackPublic, PrivateFallbackPublic | PrivateFallbackRandom, PrivateFallbackRandom => true
  | _, _ => false
  end.
(** src/host/mod.rs:1848, for [AdvertisingFilterPolicy]. *)
Definition advertising_filter_policy_eqb (a b : advertising_filter_policy) : bool :=
  match a, b with
  | AllowConnectionAndScan, AllowConnectionAndScan | AllowConnectionWhiteListScan, AllowConnectionWhiteListScan | WhiteListConnectionAllowScan, WhiteListConnectionAllowScan | WhiteListConnectionAndScan, WhiteListConnectionAndScan => true
  | _, _ => false
  end.
(** src/host/mod.rs:1894, for [ScanType]. *)
Definition scan_type_eqb (a b : scan_type) : bool :=
  match a, b with
  | Passive, Passive | Active, Active => true
  | _, _ => false
  end.
(** src/host/mod.rs:1906, for [ScanFilterPolicy]. *)
Definition scan_filter_policy_eqb (a b : scan_filter_policy) : bool :=
  match a, b with
  | AcceptAll, AcceptAll | ScanWhiteList, ScanWhiteList | AddressedToThisDevice, AddressedToThisDevice | WhiteListAddressedToThisDevice, WhiteListAddressedToThisDevice => true
  | _, _ => false
  end.
(** src/host/mod.rs:1864, for [ScanParameters]. *)
Definition scan_parameters_eqb (a b : scan_parameters) : bool :=
  scan_type_eqb (sp_scan_type a) (sp_scan_type b) && sw_eqb (sp_scan_window a) (sp_scan_window b)
  && own_address_type_eqb (sp_own_address_type a) (sp_own_address_type b)
  && scan_filter_policy_eqb (sp_filter_policy a) (sp_filter_policy b).
(** src/host/mod.rs:2129, for [EncryptionKey]. *)
Definition encryption_key_eqb (a b : list N) : bool := bytes_eqb a b.
(** src/host/mod.rs:1114, for [Error]; [eeq] is [==] of the transport's error. *)
Definition host_error_eqb {E VS} (eeq : E -> E -> bool) (veq : VS -> VS -> bool) (a b : host_error E VS) : bool :=
  match a, b with
  | HBadDisconnectionReason x, HBadDisconnectionReason y => status_eqb veq x y
  | HBadRandomAddress x, HBadRandomAddress y => bd_addr_eqb x y
  | HBadChannelMap x, HBadChannelMap y => x =? y
  | HAdvertisingDataTooLong x, HAdvertisingDataTooLong y => Nat.eqb x y
  | HBadConnectionLengthRange x x', HBadConnectionLengthRange y y' => (x =? y) && (x' =? y')
  | HNoValidChannel, HNoValidChannel => true
  | HInvalidTestChannel x, HInvalidTestChannel y => x =? y
  | HInvalidTestPayloadLength x, HInvalidTestPayloadLength y => x =? y
  | HComm x, HComm y => eeq x y
  | _, _ => false
  end.
(** src/host/uart.rs:15, for [Error]. *)
Definition uart_error_eqb {E VE} (eeq : E -> E -> bool) (veq : VE -> VE -> bool) (a b : uart_error E VE) : bool :=
  match a, b with
  | UBadPacketType x, UBadPacketType y => x =? y
  | UBLE x, UBLE y => event_error_eqb veq x y
  | UComm x, UComm y => eeq x y
  | _, _ => false
  end.
