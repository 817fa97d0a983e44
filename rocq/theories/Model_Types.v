(** * Features, statuses, opcodes and addresses (src/lib.rs, src/opcode.rs). *)
From Verif Require Import Base.

(** Cargo features that the source tests with [cfg] (Cargo.toml;
    e.g. src/lib.rs:461,779).  [version-4-1] is never tested. *)
Record features := { version_4_2 : bool; version_5_0 : bool }.

(** [any(feature = "version-4-2", feature = "version-5-0")] (e.g. src/lib.rs:779). *)
Definition any_4_2_5_0 (f : features) : bool := version_4_2 f || version_5_0 f.

(** src/lib.rs:330-483, [enum Status<V>].  The four constructors from
    [Type0SubmapNotDefined] on (lines 461-480) exist only with [version-5-0]:
    see [status_exists]. *)
Inductive status (V : Type) : Type :=
| Success
| UnknownCommand
| UnknownConnectionId
| HardwareFailure
| PageTimeout
| AuthFailure
| PinOrKeyMissing
| OutOfMemory
| ConnectionTimeout
| ConnectionLimitExceeeded
| SyncConnectionLimitExceeded
| ConnectionAlreadyExists
| CommandDisallowed
| LimitedResources
| ConnectionRejectedSecurity
| UnacceptableBdAddr
| AcceptTimeoutExceeded
| UnsupportedFeature
| InvalidParameters
| RemoteTerminationByUser
| RemoteTerminationLowResources
| RemoteTerminationPowerOff
| ConnectionTerminatedByHost
| RepeatedAttempts
| PairingNotAllowed
| UnknownLmpPdu
| UnsupportedRemoteFeature
| ScoOffsetRejected
| ScoIntervalRejected
| ScoAirModeRejected
| InvalidLmpParameters
| UnspecifiedError
| UnsupportedLmpParameterValue
| RoleChangeNotAllowed
| LmpResponseTimeout
| LmpTransactionCollision
| LmpPduNotAllowed
| EncryptionModeNotAcceptable
| LinkKeyCannotBeChanged
| RequestedQosNotSupported
| InstantPassed
| PairingWithUnitKeyNotSupported
| DifferentTransactionCollision
| ReservedforFutureUse
| QosUnacceptableParameter
| QosRejected
| ChannelClassificationNotSupported
| InsufficientSecurity
| ParameterOutOfMandatoryRange
| ReservedForFutureUse49
| RoleSwitchPending
| ReservedForFutureUse51
| ReservedSlotViolation
| RoleSwitchFailed
| ExtendedInquiryResponseTooLarge
| SecureSimplePairingNotSupportedByHost
| HostBusyPairing
| ConnectionRejectedNoSuitableChannel
| ControllerBusy
| UnacceptableConnectionParameters
| AdvertisingTimeout
| ConnectionTerminatedMicFailure
| ConnectionFailedToEstablish
| MacConnectionFailed
| CoarseClockAdjustmentRejectedDraggingAttempted
| Type0SubmapNotDefined
| UnknownAdvertisingId
| LimitReached
| OperationCancelledByHost
| Vendor (v : V).

Arguments Success {V}.
Arguments UnknownCommand {V}.
Arguments UnknownConnectionId {V}.
Arguments HardwareFailure {V}.
Arguments PageTimeout {V}.
Arguments AuthFailure {V}.
Arguments PinOrKeyMissing {V}.
Arguments OutOfMemory {V}.
Arguments ConnectionTimeout {V}.
Arguments ConnectionLimitExceeeded {V}.
Arguments SyncConnectionLimitExceeded {V}.
Arguments ConnectionAlreadyExists {V}.
Arguments CommandDisallowed {V}.
Arguments LimitedResources {V}.
Arguments ConnectionRejectedSecurity {V}.
Arguments UnacceptableBdAddr {V}.
Arguments AcceptTimeoutExceeded {V}.
Arguments UnsupportedFeature {V}.
Arguments InvalidParameters {V}.
Arguments RemoteTerminationByUser {V}.
Arguments RemoteTerminationLowResources {V}.
Arguments RemoteTerminationPowerOff {V}.
Arguments ConnectionTerminatedByHost {V}.
Arguments RepeatedAttempts {V}.
Arguments PairingNotAllowed {V}.
Arguments UnknownLmpPdu {V}.
Arguments UnsupportedRemoteFeature {V}.
Arguments ScoOffsetRejected {V}.
Arguments ScoIntervalRejected {V}.
Arguments ScoAirModeRejected {V}.
Arguments InvalidLmpParameters {V}.
Arguments UnspecifiedError {V}.
Arguments UnsupportedLmpParameterValue {V}.
Arguments RoleChangeNotAllowed {V}.
Arguments LmpResponseTimeout {V}.
Arguments LmpTransactionCollision {V}.
Arguments LmpPduNotAllowed {V}.
Arguments EncryptionModeNotAcceptable {V}.
Arguments LinkKeyCannotBeChanged {V}.
Arguments RequestedQosNotSupported {V}.
Arguments InstantPassed {V}.
Arguments PairingWithUnitKeyNotSupported {V}.
Arguments DifferentTransactionCollision {V}.
Arguments ReservedforFutureUse {V}.
Arguments QosUnacceptableParameter {V}.
Arguments QosRejected {V}.
Arguments ChannelClassificationNotSupported {V}.
Arguments InsufficientSecurity {V}.
Arguments ParameterOutOfMandatoryRange {V}.
Arguments ReservedForFutureUse49 {V}.
Arguments RoleSwitchPending {V}.
Arguments ReservedForFutureUse51 {V}.
Arguments ReservedSlotViolation {V}.
Arguments RoleSwitchFailed {V}.
Arguments ExtendedInquiryResponseTooLarge {V}.
Arguments SecureSimplePairingNotSupportedByHost {V}.
Arguments HostBusyPairing {V}.
Arguments ConnectionRejectedNoSuitableChannel {V}.
Arguments ControllerBusy {V}.
Arguments UnacceptableConnectionParameters {V}.
Arguments AdvertisingTimeout {V}.
Arguments ConnectionTerminatedMicFailure {V}.
Arguments ConnectionFailedToEstablish {V}.
Arguments MacConnectionFailed {V}.
Arguments CoarseClockAdjustmentRejectedDraggingAttempted {V}.
Arguments Type0SubmapNotDefined {V}.
Arguments UnknownAdvertisingId {V}.
Arguments LimitReached {V}.
Arguments OperationCancelledByHost {V}.
Arguments Vendor {V} v.

(** Which constructors the enum has (src/lib.rs:461-480). *)
Definition status_exists {V} (f : features) (s : status V) : Prop :=
  match s with
  | Type0SubmapNotDefined | UnknownAdvertisingId | LimitReached
  | OperationCancelledByHost => version_5_0 f = true
  | _ => True
  end.

(** src/lib.rs:486-489: [BadStatusError::BadValue(u8)] is represented by the
    byte it carries. *)
Definition bad_status_error : Type := N.

(** src/lib.rs:491-607, [TryFrom<u8> for Status<V>].  [vendor_try_from] is
    [V::try_from], with [V::Error = BadStatusError] as required by the trait
    [Vendor] (line 320). *)
Definition status_try_from {V} (f : features)
    (vendor_try_from : N -> outcome bad_status_error V) (value : N)
    : outcome bad_status_error (status V) :=
  let vendor := let! v := vendor_try_from value in Ok (Vendor v) in
  match value with
  | 0x00 => Ok Success
  | 0x01 => Ok UnknownCommand
  | 0x02 => Ok UnknownConnectionId
  | 0x03 => Ok HardwareFailure
  | 0x04 => Ok PageTimeout
  | 0x05 => Ok AuthFailure
  | 0x06 => Ok PinOrKeyMissing
  | 0x07 => Ok OutOfMemory
  | 0x08 => Ok ConnectionTimeout
  | 0x09 => Ok ConnectionLimitExceeeded
  | 0x0a => Ok SyncConnectionLimitExceeded
  | 0x0b => Ok ConnectionAlreadyExists
  | 0x0c => Ok CommandDisallowed
  | 0x0d => Ok LimitedResources
  | 0x0e => Ok ConnectionRejectedSecurity
  | 0x0f => Ok UnacceptableBdAddr
  | 0x10 => Ok AcceptTimeoutExceeded
  | 0x11 => Ok UnsupportedFeature
  | 0x12 => Ok InvalidParameters
  | 0x13 => Ok RemoteTerminationByUser
  | 0x14 => Ok RemoteTerminationLowResources
  | 0x15 => Ok RemoteTerminationPowerOff
  | 0x16 => Ok ConnectionTerminatedByHost
  | 0x17 => Ok RepeatedAttempts
  | 0x18 => Ok PairingNotAllowed
  | 0x19 => Ok UnknownLmpPdu
  | 0x1a => Ok UnsupportedRemoteFeature
  | 0x1b => Ok ScoOffsetRejected
  | 0x1c => Ok ScoIntervalRejected
  | 0x1d => Ok ScoAirModeRejected
  | 0x1e => Ok InvalidLmpParameters
  | 0x1f => Ok UnspecifiedError
  | 0x20 => Ok UnsupportedLmpParameterValue
  | 0x21 => Ok RoleChangeNotAllowed
  | 0x22 => Ok LmpResponseTimeout
  | 0x23 => Ok LmpTransactionCollision
  | 0x24 => Ok LmpPduNotAllowed
  | 0x25 => Ok EncryptionModeNotAcceptable
  | 0x26 => Ok LinkKeyCannotBeChanged
  | 0x27 => Ok RequestedQosNotSupported
  | 0x28 => Ok InstantPassed
  | 0x29 => Ok PairingWithUnitKeyNotSupported
  | 0x2a => Ok DifferentTransactionCollision
  | 0x2b => Ok ReservedforFutureUse
  | 0x2c => Ok QosUnacceptableParameter
  | 0x2d => Ok QosRejected
  | 0x2e => Ok ChannelClassificationNotSupported
  | 0x2f => Ok InsufficientSecurity
  | 0x30 => Ok ParameterOutOfMandatoryRange
  | 0x31 => Ok ReservedForFutureUse49
  | 0x32 => Ok RoleSwitchPending
  | 0x33 => Ok ReservedForFutureUse51
  | 0x34 => Ok ReservedSlotViolation
  | 0x35 => Ok RoleSwitchFailed
  | 0x36 => Ok ExtendedInquiryResponseTooLarge
  | 0x37 => Ok SecureSimplePairingNotSupportedByHost
  | 0x38 => Ok HostBusyPairing
  | 0x39 => Ok ConnectionRejectedNoSuitableChannel
  | 0x3a => Ok ControllerBusy
  | 0x3b => Ok UnacceptableConnectionParameters
  | 0x3c => Ok AdvertisingTimeout
  | 0x3d => Ok ConnectionTerminatedMicFailure
  | 0x3e => Ok ConnectionFailedToEstablish
  | 0x3f => Ok MacConnectionFailed
  | 0x40 => Ok CoarseClockAdjustmentRejectedDraggingAttempted
  | 0x41 => if version_5_0 f then Ok Type0SubmapNotDefined else vendor
  | 0x42 => if version_5_0 f then Ok UnknownAdvertisingId else vendor
  | 0x43 => if version_5_0 f then Ok LimitReached else vendor
  | 0x44 => if version_5_0 f then Ok OperationCancelledByHost else vendor
  | _ => vendor
  end.

(** src/lib.rs:609-704, [Into<u8> for Status<V>].  Without [version-5-0] the
    four constructors of lines 461-480 do not exist; the value given to them
    here is that of the catch-all at line 698. *)
Definition status_into {V} (f : features) (vendor_into : V -> N) (s : status V) : N :=
  match s with
  | Success => 0x00
  | UnknownCommand => 0x01
  | UnknownConnectionId => 0x02
  | HardwareFailure => 0x03
  | PageTimeout => 0x04
  | AuthFailure => 0x05
  | PinOrKeyMissing => 0x06
  | OutOfMemory => 0x07
  | ConnectionTimeout => 0x08
  | ConnectionLimitExceeeded => 0x09
  | SyncConnectionLimitExceeded => 0x0a
  | ConnectionAlreadyExists => 0x0b
  | CommandDisallowed => 0x0c
  | LimitedResources => 0x0d
  | ConnectionRejectedSecurity => 0x0e
  | UnacceptableBdAddr => 0x0f
  | AcceptTimeoutExceeded => 0x10
  | UnsupportedFeature => 0x11
  | InvalidParameters => 0x12
  | RemoteTerminationByUser => 0x13
  | RemoteTerminationLowResources => 0x14
  | RemoteTerminationPowerOff => 0x15
  | ConnectionTerminatedByHost => 0x16
  | RepeatedAttempts => 0x17
  | PairingNotAllowed => 0x18
  | UnknownLmpPdu => 0x19
  | UnsupportedRemoteFeature => 0x1a
  | ScoOffsetRejected => 0x1b
  | ScoIntervalRejected => 0x1c
  | ScoAirModeRejected => 0x1d
  | InvalidLmpParameters => 0x1e
  | UnspecifiedError => 0x1f
  | UnsupportedLmpParameterValue => 0x20
  | RoleChangeNotAllowed => 0x21
  | LmpResponseTimeout => 0x22
  | LmpTransactionCollision => 0x23
  | LmpPduNotAllowed => 0x24
  | EncryptionModeNotAcceptable => 0x25
  | LinkKeyCannotBeChanged => 0x26
  | RequestedQosNotSupported => 0x27
  | InstantPassed => 0x28
  | PairingWithUnitKeyNotSupported => 0x29
  | DifferentTransactionCollision => 0x2a
  | ReservedforFutureUse => 0x2b
  | QosUnacceptableParameter => 0x2c
  | QosRejected => 0x2d
  | ChannelClassificationNotSupported => 0x2e
  | InsufficientSecurity => 0x2f
  | ParameterOutOfMandatoryRange => 0x30
  | ReservedForFutureUse49 => 0x31
  | RoleSwitchPending => 0x32
  | ReservedForFutureUse51 => 0x33
  | ReservedSlotViolation => 0x34
  | RoleSwitchFailed => 0x35
  | ExtendedInquiryResponseTooLarge => 0x36
  | SecureSimplePairingNotSupportedByHost => 0x37
  | HostBusyPairing => 0x38
  | ConnectionRejectedNoSuitableChannel => 0x39
  | ControllerBusy => 0x3a
  | UnacceptableConnectionParameters => 0x3b
  | AdvertisingTimeout => 0x3c
  | ConnectionTerminatedMicFailure => 0x3d
  | ConnectionFailedToEstablish => 0x3e
  | MacConnectionFailed => 0x3f
  | CoarseClockAdjustmentRejectedDraggingAttempted => 0x40
  | Type0SubmapNotDefined => if version_5_0 f then 0x41 else 0xff
  | UnknownAdvertisingId => if version_5_0 f then 0x42 else 0xff
  | LimitReached => if version_5_0 f then 0x43 else 0xff
  | OperationCancelledByHost => if version_5_0 f then 0x44 else 0xff
  | Vendor v => vendor_into v
  end.

(** src/opcode.rs:5, [struct Opcode(pub u16)]. *)
Definition opcode : Type := N.

(** src/opcode.rs:9-11.  [<<] on [u16] drops the bits shifted out. *)
Definition opcode_new (ogf ocf : N) : opcode :=
  N.lor (as_u16 (N.shiftl ogf 10)) (N.land ocf 0x03ff).

(** src/opcode.rs:14-16. *)
Definition opcode_ogf (o : opcode) : N := N.shiftr o 10.

(** src/opcode.rs:19-21. *)
Definition opcode_ocf (o : opcode) : N := N.land o 0x03ff.

(** src/opcode.rs:39-99, [opcodes!]. *)
Definition DISCONNECT : opcode := opcode_new 0x0001 0x0006. (* line 42 *)
Definition READ_REMOTE_VERSION_INFO : opcode := opcode_new 0x0001 0x001D. (* line 43 *)
Definition SET_EVENT_MASK : opcode := opcode_new 0x0003 0x0001. (* line 48 *)
Definition RESET : opcode := opcode_new 0x0003 0x0003. (* line 49 *)
Definition READ_TX_POWER_LEVEL : opcode := opcode_new 0x0003 0x002D. (* line 50 *)
Definition READ_LOCAL_VERSION_INFO : opcode := opcode_new 0x0004 0x0001. (* line 55 *)
Definition READ_LOCAL_SUPPORTED_COMMANDS : opcode := opcode_new 0x0004 0x0002. (* line 56 *)
Definition READ_LOCAL_SUPPORTED_FEATURES : opcode := opcode_new 0x0004 0x0003. (* line 57 *)
Definition READ_BD_ADDR : opcode := opcode_new 0x0004 0x0009. (* line 58 *)
Definition READ_RSSI : opcode := opcode_new 0x0005 0x0005. (* line 63 *)
Definition LE_SET_EVENT_MASK : opcode := opcode_new 0x0008 0x0001. (* line 68 *)
Definition LE_READ_BUFFER_SIZE : opcode := opcode_new 0x0008 0x0002. (* line 69 *)
Definition LE_READ_LOCAL_SUPPORTED_FEATURES : opcode := opcode_new 0x0008 0x0003. (* line 70 *)
Definition LE_SET_RANDOM_ADDRESS : opcode := opcode_new 0x0008 0x0005. (* line 71 *)
Definition LE_SET_ADVERTISING_PARAMETERS : opcode := opcode_new 0x0008 0x0006. (* line 72 *)
Definition LE_READ_ADVERTISING_CHANNEL_TX_POWER : opcode := opcode_new 0x0008 0x0007. (* line 73 *)
Definition LE_SET_ADVERTISING_DATA : opcode := opcode_new 0x0008 0x0008. (* line 74 *)
Definition LE_SET_SCAN_RESPONSE_DATA : opcode := opcode_new 0x0008 0x0009. (* line 75 *)
Definition LE_SET_ADVERTISE_ENABLE : opcode := opcode_new 0x0008 0x000A. (* line 76 *)
Definition LE_SET_SCAN_PARAMETERS : opcode := opcode_new 0x0008 0x000B. (* line 77 *)
Definition LE_SET_SCAN_ENABLE : opcode := opcode_new 0x0008 0x000C. (* line 78 *)
Definition LE_CREATE_CONNECTION : opcode := opcode_new 0x0008 0x000D. (* line 79 *)
Definition LE_CREATE_CONNECTION_CANCEL : opcode := opcode_new 0x0008 0x000E. (* line 80 *)
Definition LE_READ_WHITE_LIST_SIZE : opcode := opcode_new 0x0008 0x000F. (* line 81 *)
Definition LE_CLEAR_WHITE_LIST : opcode := opcode_new 0x0008 0x0010. (* line 82 *)
Definition LE_ADD_DEVICE_TO_WHITE_LIST : opcode := opcode_new 0x0008 0x0011. (* line 83 *)
Definition LE_REMOVE_DEVICE_FROM_WHITE_LIST : opcode := opcode_new 0x0008 0x0012. (* line 84 *)
Definition LE_CONNECTION_UPDATE : opcode := opcode_new 0x0008 0x0013. (* line 85 *)
Definition LE_SET_HOST_CHANNEL_CLASSIFICATION : opcode := opcode_new 0x0008 0x0014. (* line 86 *)
Definition LE_READ_CHANNEL_MAP : opcode := opcode_new 0x0008 0x0015. (* line 87 *)
Definition LE_READ_REMOTE_USED_FEATURES : opcode := opcode_new 0x0008 0x0016. (* line 88 *)
Definition LE_ENCRYPT : opcode := opcode_new 0x0008 0x0017. (* line 89 *)
Definition LE_RAND : opcode := opcode_new 0x0008 0x0018. (* line 90 *)
Definition LE_START_ENCRYPTION : opcode := opcode_new 0x0008 0x0019. (* line 91 *)
Definition LE_LTK_REQUEST_REPLY : opcode := opcode_new 0x0008 0x001A. (* line 92 *)
Definition LE_LTK_REQUEST_NEGATIVE_REPLY : opcode := opcode_new 0x0008 0x001B. (* line 93 *)
Definition LE_READ_STATES : opcode := opcode_new 0x0008 0x001C. (* line 94 *)
Definition LE_RECEIVER_TEST : opcode := opcode_new 0x0008 0x001D. (* line 95 *)
Definition LE_TRANSMITTER_TEST : opcode := opcode_new 0x0008 0x001E. (* line 96 *)
Definition LE_TEST_END : opcode := opcode_new 0x0008 0x001F. (* line 97 *)

(** src/lib.rs:708, [struct ConnectionHandle(pub u16)]. *)
Definition conn_handle : Type := N.

(** src/lib.rs:712, [struct BdAddr(pub [u8; 6])]. *)
Definition bd_addr : Type := list N.

(** The Rust type [[u8; 6]] (src/lib.rs:712). *)
Definition bd_addr_ok (a : bd_addr) : Prop := length a = 6%nat /\ bytes a.

(** src/lib.rs:716-722, [enum BdAddrType]. *)
Inductive bd_addr_type : Type :=
| BdPublic (a : bd_addr)
| BdRandom (a : bd_addr).

Definition bd_addr_type_ok (a : bd_addr_type) : Prop :=
  match a with BdPublic a | BdRandom a => bd_addr_ok a end.

(** src/lib.rs:727-739, [BdAddrType::copy_into_slice]. *)
Definition bd_addr_type_copy {E} (a : bd_addr_type) (buf : list N) : outcome E (list N) :=
  let! _ := assert (Nat.eqb (length buf) 7) in
  match a with
  | BdPublic addr =>
      let! buf := set_idx buf 0 0 in
      update_range buf 1 7 (copy_from_slice addr)
  | BdRandom addr =>
      let! buf := set_idx buf 0 1 in
      update_range buf 1 7 (copy_from_slice addr)
  end.

(** src/lib.rs:753-759, [to_bd_addr_type]; the error carries the byte
    ([BdAddrTypeError(pub u8)], line 745). *)
Definition to_bd_addr_type (t : N) (addr : bd_addr) : outcome N bd_addr_type :=
  if t =? 0 then Ok (BdPublic addr)
  else if t =? 1 then Ok (BdRandom addr)
  else Err t.
