(** * The derived [Debug] implementations of events, errors and parameters.

    The output of [{:?}] (without [#]).  [derive(Debug)] prints a struct with its
    name and its fields in the order of the source, a tuple struct or a variant
    with its name and its arguments, with [debug_struct] and [debug_tuple] of
    [core::fmt::Formatter].  The hand-written implementations are in
    Model_Debug.v. *)
From Verif Require Import Base Model_Types Model_Bitflags Model_FlagNames Model_Intervals Model_EventBase
  Model_Command Model_Event Model_Host Model_Debug.
From Coq Require Import String Ascii.
Open Scope list_scope.
Open Scope N_scope.
Open Scope string_scope.

(** [core::fmt::builders]: [DebugTuple] (also of tuples, which have no name),
    [DebugStruct] (e.g. of the derives in src/event/mod.rs:164 and src/types/connection_interval.rs:10). *)
Definition debug_tuple (name : string) (args : list string) : string :=
  name ++ "(" ++ concat ", " args ++ ")".
Definition debug_field (f : string * string) : string := fst f ++ ": " ++ snd f.
Definition debug_struct (name : string) (fields : list (string * string)) : string :=
  name ++ " { " ++ concat ", " (map debug_field fields) ++ " }".
(** A variant of an enum: a name, and arguments unless there are none
    (e.g. of the derive in src/event/mod.rs:63). *)
Definition debug_variant (v : string * list string) : string :=
  match snd v with [] => fst v | args => debug_tuple (fst v) args end.

(** [Debug for bool] in core (e.g. for src/event/mod.rs:378). *)
Definition debug_bool (b : bool) : string := if b then "true" else "false".

(** [Debug for Duration] in core: seconds, milliseconds, microseconds or
    nanoseconds, with as many decimals as needed.  [divisor] starts at
    [10 ^ (k - 1)].  The micro sign is encoded in UTF-8.  (Used e.g. for the
    derive in src/types/connection_interval.rs:10.) *)
Fixpoint debug_decimals (k : nat) (fraction : N) : string :=
  match k with
  | O => ""
  | S k' => if N.eqb fraction 0 then ""
            else String (ascii_of_N (48 + fraction / 10 ^ N.of_nat k'))
                   (debug_decimals k' (fraction mod 10 ^ N.of_nat k'))
  end.
Definition debug_decimal (integer : N) (k : nat) (fraction : N) : string :=
  debug_uint integer ++ match debug_decimals k fraction with EmptyString => "" | s => "." ++ s end.
Definition debug_duration (d : duration) : string :=
  let secs := as_secs d in
  let nanos := d mod 1000000000 in
  if (0 <? secs)%N then debug_decimal secs 9 nanos ++ "s"
  else if (1000000 <=? nanos)%N then debug_decimal (nanos / 1000000) 6 (nanos mod 1000000) ++ "ms"
  else if (1000 <=? nanos)%N then debug_decimal (nanos / 1000) 3 (nanos mod 1000)
                              ++ String (ascii_of_N 194) (String (ascii_of_N 181) "s")
  else debug_decimal nanos 0 0 ++ "ns".
Definition debug_durations (p : duration * duration) : string :=
  debug_tuple "" [debug_duration (fst p); debug_duration (snd p)].

(** [Debug] of a [bitflags!] type (crate bitflags 1.2): the names of the
    constants contained, in the order of declaration.  No constant is 0.
    (Undeclared bits, which only the unsafe [from_bits_unchecked] can set, are
    left out; e.g. src/lib.rs:761.) *)
Fixpoint bf_names (F : features) (names : list string) (decl : flag_decl) (v : N) : list string :=
  match names, decl with
  | n :: names, (bit, c) :: decl =>
      if (cfg_on F c && bf_contains v (N.shiftl 1 bit))%bool then n :: bf_names F names decl v
      else bf_names F names decl v
  | _, _ => []
  end.
Definition debug_bitflags (F : features) (names : list string) (decl : flag_decl) (v : N) : string :=
  match bf_names F names decl v with [] => "(empty)" | l => concat " | " l end.

(** src/opcode.rs:4, src/lib.rs:707. *)
Definition debug_opcode (o : opcode) : string := debug_tuple "Opcode" [debug_uint o].
Definition debug_conn_handle (h : conn_handle) : string := debug_tuple "ConnectionHandle" [debug_uint h].

(** src/lib.rs:329-483, derived for [Status<V>]; [show] is [Debug for V]. *)
Definition status_variant {VS} (show : VS -> string) (s : status VS) : string * list string :=
  match s with
  | Success => ("Success", [])
  | UnknownCommand => ("UnknownCommand", [])
  | UnknownConnectionId => ("UnknownConnectionId", [])
  | HardwareFailure => ("HardwareFailure", [])
  | PageTimeout => ("PageTimeout", [])
  | AuthFailure => ("AuthFailure", [])
  | PinOrKeyMissing => ("PinOrKeyMissing", [])
  | OutOfMemory => ("OutOfMemory", [])
  | ConnectionTimeout => ("ConnectionTimeout", [])
  | ConnectionLimitExceeeded => ("ConnectionLimitExceeeded", [])
  | SyncConnectionLimitExceeded => ("SyncConnectionLimitExceeded", [])
  | ConnectionAlreadyExists => ("ConnectionAlreadyExists", [])
  | CommandDisallowed => ("CommandDisallowed", [])
  | LimitedResources => ("LimitedResources", [])
  | ConnectionRejectedSecurity => ("ConnectionRejectedSecurity", [])
  | UnacceptableBdAddr => ("UnacceptableBdAddr", [])
  | AcceptTimeoutExceeded => ("AcceptTimeoutExceeded", [])
  | UnsupportedFeature => ("UnsupportedFeature", [])
  | InvalidParameters => ("InvalidParameters", [])
  | RemoteTerminationByUser => ("RemoteTerminationByUser", [])
  | RemoteTerminationLowResources => ("RemoteTerminationLowResources", [])
  | RemoteTerminationPowerOff => ("RemoteTerminationPowerOff", [])
  | ConnectionTerminatedByHost => ("ConnectionTerminatedByHost", [])
  | RepeatedAttempts => ("RepeatedAttempts", [])
  | PairingNotAllowed => ("PairingNotAllowed", [])
  | UnknownLmpPdu => ("UnknownLmpPdu", [])
  | UnsupportedRemoteFeature => ("UnsupportedRemoteFeature", [])
  | ScoOffsetRejected => ("ScoOffsetRejected", [])
  | ScoIntervalRejected => ("ScoIntervalRejected", [])
  | ScoAirModeRejected => ("ScoAirModeRejected", [])
  | InvalidLmpParameters => ("InvalidLmpParameters", [])
  | UnspecifiedError => ("UnspecifiedError", [])
  | UnsupportedLmpParameterValue => ("UnsupportedLmpParameterValue", [])
  | RoleChangeNotAllowed => ("RoleChangeNotAllowed", [])
  | LmpResponseTimeout => ("LmpResponseTimeout", [])
  | LmpTransactionCollision => ("LmpTransactionCollision", [])
  | LmpPduNotAllowed => ("LmpPduNotAllowed", [])
  | EncryptionModeNotAcceptable => ("EncryptionModeNotAcceptable", [])
  | LinkKeyCannotBeChanged => ("LinkKeyCannotBeChanged", [])
  | RequestedQosNotSupported => ("RequestedQosNotSupported", [])
  | InstantPassed => ("InstantPassed", [])
  | PairingWithUnitKeyNotSupported => ("PairingWithUnitKeyNotSupported", [])
  | DifferentTransactionCollision => ("DifferentTransactionCollision", [])
  | ReservedforFutureUse => ("ReservedforFutureUse", [])
  | QosUnacceptableParameter => ("QosUnacceptableParameter", [])
  | QosRejected => ("QosRejected", [])
  | ChannelClassificationNotSupported => ("ChannelClassificationNotSupported", [])
  | InsufficientSecurity => ("InsufficientSecurity", [])
  | ParameterOutOfMandatoryRange => ("ParameterOutOfMandatoryRange", [])
  | ReservedForFutureUse49 => ("ReservedForFutureUse49", [])
  | RoleSwitchPending => ("RoleSwitchPending", [])
  | ReservedForFutureUse51 => ("ReservedForFutureUse51", [])
  | ReservedSlotViolation => ("ReservedSlotViolation", [])
  | RoleSwitchFailed => ("RoleSwitchFailed", [])
  | ExtendedInquiryResponseTooLarge => ("ExtendedInquiryResponseTooLarge", [])
  | SecureSimplePairingNotSupportedByHost => ("SecureSimplePairingNotSupportedByHost", [])
  | HostBusyPairing => ("HostBusyPairing", [])
  | ConnectionRejectedNoSuitableChannel => ("ConnectionRejectedNoSuitableChannel", [])
  | ControllerBusy => ("ControllerBusy", [])
  | UnacceptableConnectionParameters => ("UnacceptableConnectionParameters", [])
  | AdvertisingTimeout => ("AdvertisingTimeout", [])
  | ConnectionTerminatedMicFailure => ("ConnectionTerminatedMicFailure", [])
  | ConnectionFailedToEstablish => ("ConnectionFailedToEstablish", [])
  | MacConnectionFailed => ("MacConnectionFailed", [])
  | CoarseClockAdjustmentRejectedDraggingAttempted => ("CoarseClockAdjustmentRejectedDraggingAttempted", [])
  | Type0SubmapNotDefined => ("Type0SubmapNotDefined", [])
  | UnknownAdvertisingId => ("UnknownAdvertisingId", [])
  | LimitReached => ("LimitReached", [])
  | OperationCancelledByHost => ("OperationCancelledByHost", [])
  | Vendor v => ("Vendor", [show v])
  end.
Definition debug_status {VS} (show : VS -> string) (s : status VS) : string :=
  debug_variant (status_variant show s).

(** ** Types of intervals *)

(** src/types/connection_interval.rs:10-15. *)
Definition debug_conn_interval (i : conn_interval) : string :=
  debug_struct "ConnectionInterval"
    [("interval_", debug_durations (ci_interval i)); ("conn_latency_", debug_uint (ci_latency i));
     ("supervision_timeout_", debug_duration (ci_timeout i))].
(** src/types/connection_interval.rs:285-290. *)
Definition debug_fixed_conn_interval (i : fixed_conn_interval) : string :=
  debug_struct "FixedConnectionInterval"
    [("interval_", debug_duration (fci_interval i)); ("conn_latency_", debug_uint (fci_latency i));
     ("supervision_timeout_", debug_duration (fci_timeout i))].
(** src/types/connection_interval.rs:256-281. *)
Definition debug_conn_interval_error (e : conn_interval_error) : string :=
  debug_variant
    match e with
    | Incomplete => ("Incomplete", [])
    | IntervalTooShort d => ("IntervalTooShort", [debug_duration d])
    | IntervalTooLong d => ("IntervalTooLong", [debug_duration d])
    | IntervalInverted a b => ("IntervalInverted", [debug_duration a; debug_duration b])
    | BadConnectionLatency l => ("BadConnectionLatency", [debug_uint l])
    | SupervisionTimeoutTooShort a b => ("SupervisionTimeoutTooShort", [debug_duration a; debug_duration b])
    | SupervisionTimeoutTooLong d => ("SupervisionTimeoutTooLong", [debug_duration d])
    | ImpossibleSupervisionTimeout d => ("ImpossibleSupervisionTimeout", [debug_duration d])
    end.
(** src/types/expected_connection_length.rs:10-13. *)
Definition debug_expected_conn_length (l : expected_conn_length) : string :=
  debug_struct "ExpectedConnectionLength" [("range", debug_durations (ecl_range l))].
(** src/types/expected_connection_length.rs:63-70. *)
Definition debug_expected_conn_length_error (e : expected_conn_length_error) : string :=
  debug_variant
    match e with
    | ECL_TooLong d => ("TooLong", [debug_duration d])
    | ECL_Inverted a b => ("Inverted", [debug_duration a; debug_duration b])
    end.
(** src/types/advertising_interval.rs:165-178. *)
Definition debug_advertising_type (t : advertising_type) : string :=
  match t with
  | ConnectableUndirected => "ConnectableUndirected"
  | ConnectableDirectedHighDutyCycle => "ConnectableDirectedHighDutyCycle"
  | ScannableUndirected => "ScannableUndirected"
  | NonConnectableUndirected => "NonConnectableUndirected"
  | ConnectableDirectedLowDutyCycle => "ConnectableDirectedLowDutyCycle"
  end.
(** src/types/advertising_interval.rs:21-26. *)
Definition debug_advertising_interval (i : advertising_interval) : string :=
  debug_struct "AdvertisingInterval"
    [("interval", debug_durations (ai_interval i)); ("_advertising_type", debug_advertising_type (ai_type i))].
(** src/types/advertising_interval.rs:148-160. *)
Definition debug_advertising_interval_error (e : advertising_interval_error) : string :=
  debug_variant
    match e with
    | AI_TooShort d => ("TooShort", [debug_duration d])
    | AI_TooLong d => ("TooLong", [debug_duration d])
    | AI_Inverted a b => ("Inverted", [debug_duration a; debug_duration b])
    | AI_NoRange => ("NoRange", [])
    end.
(** src/types/scan_window.rs:13-17. *)
Definition debug_scan_window (w : scan_window) : string :=
  debug_struct "ScanWindow"
    [("interval_width", debug_duration (sw_interval w)); ("window_width", debug_duration (sw_window w))].
(** src/types/scan_window.rs:113-128; [Inverted] has named fields. *)
Definition debug_scan_window_error (e : scan_window_error) : string :=
  match e with
  | SW_TooShort d => debug_variant ("TooShort", [debug_duration d])
  | SW_TooLong d => debug_variant ("TooLong", [debug_duration d])
  | SW_Inverted i w => debug_struct "Inverted" [("interval", debug_duration i); ("window", debug_duration w)]
  end.

(** ** Parameters of commands *)

(** src/host/mod.rs:1809-1824. *)
Definition debug_own_address_type (t : own_address_type) : string :=
  match t with
  | OwnPublic => "Public" | OwnRandom => "Random"
  | PrivateFallbackPublic => "PrivateFallbackPublic" | PrivateFallbackRandom => "PrivateFallbackRandom"
  end.
(** src/host/mod.rs:1848-1861. *)
Definition debug_advertising_filter_policy (p : advertising_filter_policy) : string :=
  match p with
  | AllowConnectionAndScan => "AllowConnectionAndScan"
  | AllowConnectionWhiteListScan => "AllowConnectionWhiteListScan"
  | WhiteListConnectionAllowScan => "WhiteListConnectionAllowScan"
  | WhiteListConnectionAndScan => "WhiteListConnectionAndScan"
  end.
(** src/host/mod.rs:1894-1901. *)
Definition debug_scan_type (t : scan_type) : string :=
  match t with Passive => "Passive" | Active => "Active" end.
(** src/host/mod.rs:1906-1931. *)
Definition debug_scan_filter_policy (p : scan_filter_policy) : string :=
  match p with
  | AcceptAll => "AcceptAll" | ScanWhiteList => "WhiteList"
  | AddressedToThisDevice => "AddressedToThisDevice"
  | WhiteListAddressedToThisDevice => "WhiteListAddressedToThisDevice"
  end.
(** src/host/mod.rs:2002-2012. *)
Definition debug_connection_filter_policy (p : connection_filter_policy) : string :=
  match p with UseAddress => "UseAddress" | UseWhiteList => "WhiteList" end.
(** src/host/mod.rs:2016-2032. *)
Definition debug_peer_addr_type (p : peer_addr_type) : string :=
  debug_variant
    match p with
    | PublicDeviceAddress a => ("PublicDeviceAddress", [debug_bd_addr a])
    | RandomDeviceAddress a => ("RandomDeviceAddress", [debug_bd_addr a])
    | PublicIdentityAddress a => ("PublicIdentityAddress", [debug_bd_addr a])
    | RandomIdentityAddress a => ("RandomIdentityAddress", [debug_bd_addr a])
    end.
(** src/host/mod.rs:1826-1836, the constants of [struct Channels]. *)
Definition debug_channels (F : features) (v : N) : string :=
  debug_bitflags F ["CH_37"; "CH_38"; "CH_39"] Channels v.
(** src/host/mod.rs:1756-1787. *)
Definition debug_advertising_parameters (F : features) (p : advertising_parameters) : string :=
  debug_struct "AdvertisingParameters"
    [("advertising_interval", debug_advertising_interval (ap_interval p));
     ("own_address_type", debug_own_address_type (ap_own_address_type p));
     ("peer_address", debug_bd_addr_type (ap_peer_address p));
     ("advertising_channel_map", debug_channels F (ap_channel_map p));
     ("advertising_filter_policy", debug_advertising_filter_policy (ap_filter_policy p))].
(** src/host/mod.rs:1864-1878. *)
Definition debug_scan_parameters (p : scan_parameters) : string :=
  debug_struct "ScanParameters"
    [("scan_type", debug_scan_type (sp_scan_type p)); ("scan_window", debug_scan_window (sp_scan_window p));
     ("own_address_type", debug_own_address_type (sp_own_address_type p));
     ("filter_policy", debug_scan_filter_policy (sp_filter_policy p))].
(** src/host/mod.rs:1934-1977. *)
Definition debug_connection_parameters (p : connection_parameters) : string :=
  debug_struct "ConnectionParameters"
    [("scan_window", debug_scan_window (cp_scan_window p));
     ("initiator_filter_policy", debug_connection_filter_policy (cp_initiator_filter_policy p));
     ("peer_address", debug_peer_addr_type (cp_peer_address p));
     ("own_address_type", debug_own_address_type (cp_own_address_type p));
     ("conn_interval", debug_conn_interval (cp_conn_interval p));
     ("expected_connection_length", debug_expected_conn_length (cp_expected_connection_length p))].

(** ** Events *)

(** src/event/mod.rs:382-389, 508-518, 836-842, 861-880 and 1277-1285. *)
Definition debug_link_type (t : link_type) : string := match t with Sco => "Sco" | Acl => "Acl" end.
Definition debug_encryption (e : encryption) : string :=
  match e with EncOff => "Off" | EncOn => "On" | EncOnAesCcmForBrEdr => "OnAesCcmForBrEdr" end.
Definition debug_connection_role (r : connection_role) : string :=
  match r with Central => "Central" | Peripheral => "Peripheral" end.
Definition debug_clock_accuracy (a : clock_accuracy) : string :=
  match a with
  | Ppm500 => "Ppm500" | Ppm250 => "Ppm250" | Ppm150 => "Ppm150" | Ppm100 => "Ppm100"
  | Ppm75 => "Ppm75" | Ppm50 => "Ppm50" | Ppm30 => "Ppm30" | Ppm20 => "Ppm20"
  end.
Definition debug_phy (p : phy) : string :=
  match p with Le1M => "Le1M" | Le2M => "Le2M" | LeCoded => "LeCoded" end.

(** [Debug] of the types that a vendor supplies (the bounds of
    src/lib.rs:320 and src/event/mod.rs:124-160): arbitrary. *)
Record vendor_debug (V : vendor) := {
  show_status : VStatus V -> string;
  show_event : VEvent V -> string;
  show_return : VReturn V -> string;
  show_error : VError V -> string
}.
Arguments show_status {V}.
Arguments show_event {V}.
Arguments show_return {V}.
Arguments show_error {V}.

Section Vendor.
Context (F : features) {V : vendor} (D : vendor_debug V).
Local Notation VS := (VStatus V).
Let status (s : status VS) : string * string := ("status", debug_status (show_status D) s).
Let handle (h : conn_handle) : string * string := ("conn_handle", debug_conn_handle h).

(** src/event/mod.rs:366-379. *)
Definition debug_connection_complete (e : connection_complete VS) : string :=
  debug_struct "ConnectionComplete"
    [status (cnc_status e); handle (cnc_conn_handle e); ("bd_addr", debug_bd_addr (cnc_bd_addr e));
     ("link_type", debug_link_type (cnc_link_type e));
     ("encryption_enabled", debug_bool (cnc_encryption_enabled e))].
(** src/event/mod.rs:443-458. *)
Definition debug_disconnection_complete (e : disconnection_complete VS) : string :=
  debug_struct "DisconnectionComplete"
    [status (dsc_status e); handle (dsc_conn_handle e);
     ("reason", debug_status (show_status D) (dsc_reason e))].
(** src/event/mod.rs:481-496. *)
Definition debug_encryption_change (e : encryption_change VS) : string :=
  debug_struct "EncryptionChange"
    [status (ech_status e); handle (ech_conn_handle e); ("encryption", debug_encryption (ech_encryption e))].
(** src/event/mod.rs:549-586. *)
Definition debug_remote_version_information (e : remote_version_information VS) : string :=
  debug_struct "RemoteVersionInformation"
    [status (rvi_status e); handle (rvi_conn_handle e); ("version", debug_uint (rvi_version e));
     ("mfgr_name", debug_uint (rvi_mfgr_name e)); ("subversion", debug_uint (rvi_subversion e))].
(** src/event/mod.rs:607-619. *)
Definition debug_command_status (e : command_status VS) : string :=
  debug_struct "CommandStatus"
    [status (cst_status e); ("num_hci_command_packets", debug_uint (cst_num_hci_command_packets e));
     ("opcode", debug_opcode (cst_opcode e))].
(** src/event/mod.rs:638-643. *)
Definition debug_hardware_error (e : hardware_error) : string :=
  debug_struct "HardwareError" [("code", debug_uint (hwe_code e))].
(** src/event/mod.rs:748-752. *)
Definition debug_data_buffer_overflow (e : data_buffer_overflow) : string :=
  debug_struct "DataBufferOverflow" [("link_type", debug_link_type (dbo_link_type e))].
(** src/event/mod.rs:780-786. *)
Definition debug_encryption_key_refresh_complete (e : encryption_key_refresh_complete VS) : string :=
  debug_struct "EncryptionKeyRefreshComplete" [status (ekr_status e); handle (ekr_conn_handle e)].
(** src/event/mod.rs:812-833. *)
Definition debug_le_connection_complete (e : le_connection_complete VS) : string :=
  debug_struct "LeConnectionComplete"
    [status (lcc_status e); handle (lcc_conn_handle e); ("role", debug_connection_role (lcc_role e));
     ("peer_bd_addr", debug_bd_addr_type (lcc_peer_bd_addr e));
     ("conn_interval", debug_fixed_conn_interval (lcc_conn_interval e));
     ("central_clock_accuracy", debug_clock_accuracy (lcc_central_clock_accuracy e))].
(** src/event/mod.rs:1144-1155. *)
Definition debug_le_connection_update_complete (e : le_connection_update_complete VS) : string :=
  debug_struct "LeConnectionUpdateComplete"
    [status (lcu_status e); handle (lcu_conn_handle e);
     ("conn_interval", debug_fixed_conn_interval (lcu_conn_interval e))].
(** src/event/mod.rs:1181-1189. *)
Definition debug_le_read_remote_used_features_complete
    (e : le_read_remote_used_features_complete VS) : string :=
  debug_struct "LeReadRemoteUsedFeaturesComplete"
    [status (lrf_status e); handle (lrf_conn_handle e);
     ("features", debug_bitflags F LinkLayerFeature_names LinkLayerFeature (lrf_features e))].
(** src/event/mod.rs:1213-1221. *)
Definition debug_le_long_term_key_request (e : le_long_term_key_request) : string :=
  debug_struct "LeLongTermKeyRequest"
    [handle (ltk_conn_handle e); ("random_value", debug_uint (ltk_random_value e));
     ("encrypted_diversifier", debug_uint (ltk_encrypted_diversifier e))].
(** src/event/mod.rs:1240-1256. *)
Definition debug_le_data_length_change_event (e : le_data_length_change_event) : string :=
  debug_struct "LeDataLengthChangeEvent"
    [handle (dlc_conn_handle e); ("max_tx_octets", debug_uint (dlc_max_tx_octets e));
     ("max_tx_time", debug_uint (dlc_max_tx_time e)); ("max_rx_octets", debug_uint (dlc_max_rx_octets e));
     ("max_rx_time", debug_uint (dlc_max_rx_time e))].
(** src/event/mod.rs:1307-1317. *)
Definition debug_le_phy_update_complete (e : le_phy_update_complete VS) : string :=
  debug_struct "LePhyUpdateComplete"
    [handle (lpu_conn_handle e); status (lpu_status e); ("tx_phy", debug_phy (lpu_tx_phy e));
     ("rx_phy", debug_phy (lpu_rx_phy e))].

(** ** Return parameters *)

(** src/event/command.rs:334-346. *)
Definition debug_tx_power_level (p : tx_power_level VS) : string :=
  debug_struct "TxPowerLevel"
    [status (txp_status p); handle (txp_conn_handle p); ("tx_power_level_dbm", debug_int (txp_dbm p))].
(** src/event/command.rs:362-393. *)
Definition debug_local_version_info (p : local_version_info VS) : string :=
  debug_struct "LocalVersionInfo"
    [status (lvi_status p); ("hci_version", debug_uint (lvi_hci_version p));
     ("hci_revision", debug_uint (lvi_hci_revision p)); ("lmp_version", debug_uint (lvi_lmp_version p));
     ("manufacturer_name", debug_uint (lvi_manufacturer_name p));
     ("lmp_subversion", debug_uint (lvi_lmp_subversion p))].
(** src/event/command.rs:415-422. *)
Definition debug_local_supported_commands {E} (p : local_supported_commands VS) : outcome E string :=
  let! t := debug_command_flags (lsc_commands p) in
  Ok (debug_struct "LocalSupportedCommands" [status (lsc_status p); ("supported_commands", t)]).
(** src/event/command.rs:1080-1087. *)
Definition debug_local_supported_features (p : local_supported_features VS) : string :=
  debug_struct "LocalSupportedFeatures"
    [status (lsf_status p); ("supported_features", debug_bitflags F LmpFeatures_names LmpFeatures (lsf_features p))].
(** src/event/command.rs:1219-1226. *)
Definition debug_read_bd_addr (p : read_bd_addr_params VS) : string :=
  debug_struct "ReadBdAddr" [status (rba_status p); ("bd_addr", debug_bd_addr (rba_bd_addr p))].
(** src/event/command.rs:1242-1264. *)
Definition debug_read_rssi (p : read_rssi_params VS) : string :=
  debug_struct "ReadRssi"
    [status (rssi_status p); handle (rssi_conn_handle p); ("rssi", debug_int (rssi_rssi p))].
(** src/event/command.rs:1279-1302. *)
Definition debug_le_read_buffer_size (p : le_read_buffer_size_params VS) : string :=
  debug_struct "LeReadBufferSize"
    [status (lbs_status p); ("data_packet_length", debug_uint (lbs_data_packet_length p));
     ("data_packet_count", debug_uint (lbs_data_packet_count p))].
(** src/event/command.rs:1320-1327. *)
Definition debug_le_supported_features (p : le_supported_features VS) : string :=
  debug_struct "LeSupportedFeatures"
    [status (lef_status p); ("supported_features", debug_bitflags F LeFeatures_names LeFeatures (lef_features p))].
(** src/event/command.rs:1399-1408. *)
Definition debug_le_advertising_channel_tx_power (p : le_advertising_channel_tx_power VS) : string :=
  debug_struct "LeAdvertisingChannelTxPower" [status (lat_status p); ("power", debug_int (lat_power p))].
(** src/event/command.rs:1440-1450, with [ChannelClassification] (src/lib.rs:822). *)
Definition debug_channel_map_parameters (p : channel_map_parameters VS) : string :=
  debug_struct "ChannelMapParameters"
    [status (cmp_status p); handle (cmp_conn_handle p);
     ("channel_map", debug_tuple "ChannelClassification" [debug_list debug_uint (cmp_channel_map p)])].
(** src/event/command.rs:1472-1482. *)
Definition debug_encrypted_return_parameters (p : encrypted_return_parameters VS) : string :=
  debug_struct "EncryptedReturnParameters"
    [status (enc_status p); ("encrypted_data", debug_encrypted_block (enc_data p))].
(** src/event/command.rs:1513-1520. *)
Definition debug_le_random (p : le_random VS) : string :=
  debug_struct "LeRandom" [status (rnd_status p); ("random_number", debug_uint (rnd_number p))].
(** src/event/command.rs:1536-1543. *)
Definition debug_le_ltk_request_reply (p : le_ltk_request_reply VS) : string :=
  debug_struct "LeLongTermRequestReply" [status (ltkr_status p); handle (ltkr_conn_handle p)].
(** src/event/command.rs:1561-1569. *)
Definition debug_le_read_supported_states (p : le_read_supported_states_params VS) : string :=
  debug_struct "LeReadSupportedStates"
    [status (lrs_status p); ("supported_states", debug_bitflags F LeStates_names LeStates (lrs_states p))].
(** src/event/command.rs:1679-1687. *)
Definition debug_le_test_end (p : le_test_end_params VS) : string :=
  debug_struct "LeTestEnd"
    [status (lte_status p); ("number_of_packets", debug_uint (lte_number_of_packets p))].

(** src/event/command.rs:183-323, derived for [ReturnParameters]. *)
Definition return_variant {E} (r : return_parameters V) : outcome E (string * list string) :=
  let st s := [debug_status (show_status D) s] in
  match r with
  | RetReadLocalSupportedCommands p =>
      let! t := debug_local_supported_commands p in Ok ("ReadLocalSupportedCommands", [t])
  | RetSpontaneous => Ok ("Spontaneous", [])
  | RetSetEventMask s => Ok ("SetEventMask", st s)
  | RetReset s => Ok ("Reset", st s)
  | RetReadTxPowerLevel p => Ok ("ReadTxPowerLevel", [debug_tx_power_level p])
  | RetReadLocalVersionInformation p => Ok ("ReadLocalVersionInformation", [debug_local_version_info p])
  | RetReadLocalSupportedFeatures p => Ok ("ReadLocalSupportedFeatures", [debug_local_supported_features p])
  | RetReadBdAddr p => Ok ("ReadBdAddr", [debug_read_bd_addr p])
  | RetReadRssi p => Ok ("ReadRssi", [debug_read_rssi p])
  | RetLeSetEventMask s => Ok ("LeSetEventMask", st s)
  | RetLeReadBufferSize p => Ok ("LeReadBufferSize", [debug_le_read_buffer_size p])
  | RetLeReadLocalSupportedFeatures p => Ok ("LeReadLocalSupportedFeatures", [debug_le_supported_features p])
  | RetLeSetRandomAddress s => Ok ("LeSetRandomAddress", st s)
  | RetLeSetAdvertisingParameters s => Ok ("LeSetAdvertisingParameters", st s)
  | RetLeReadAdvertisingChannelTxPower p =>
      Ok ("LeReadAdvertisingChannelTxPower", [debug_le_advertising_channel_tx_power p])
  | RetLeSetAdvertisingData s => Ok ("LeSetAdvertisingData", st s)
  | RetLeSetScanResponseData s => Ok ("LeSetScanResponseData", st s)
  | RetLeSetAdvertiseEnable s => Ok ("LeSetAdvertiseEnable", st s)
  | RetLeSetAdvertisingEnable s => Ok ("LeSetAdvertisingEnable", st s)
  | RetLeSetScanParameters s => Ok ("LeSetScanParameters", st s)
  | RetLeSetScanEnable s => Ok ("LeSetScanEnable", st s)
  | RetLeCreateConnectionCancel s => Ok ("LeCreateConnectionCancel", st s)
  | RetLeReadWhiteListSize s n => Ok ("LeReadWhiteListSize", st s ++ [debug_uint n])%list
  | RetLeClearWhiteList s => Ok ("LeClearWhiteList", st s)
  | RetLeAddDeviceToWhiteList s => Ok ("LeAddDeviceToWhiteList", st s)
  | RetLeRemoveDeviceFromWhiteList s => Ok ("LeRemoveDeviceFromWhiteList", st s)
  | RetLeSetHostChannelClassification s => Ok ("LeSetHostChannelClassification", st s)
  | RetLeReadChannelMap p => Ok ("LeReadChannelMap", [debug_channel_map_parameters p])
  | RetLeEncrypt p => Ok ("LeEncrypt", [debug_encrypted_return_parameters p])
  | RetLeRand p => Ok ("LeRand", [debug_le_random p])
  | RetLeLongTermKeyRequestReply p => Ok ("LeLongTermKeyRequestReply", [debug_le_ltk_request_reply p])
  | RetLeLongTermKeyRequestNegativeReply p =>
      Ok ("LeLongTermKeyRequestNegativeReply", [debug_le_ltk_request_reply p])
  | RetLeReadSupportedStates p => Ok ("LeReadSupportedStates", [debug_le_read_supported_states p])
  | RetLeReceiverTest s => Ok ("LeReceiverTest", st s)
  | RetLeTransmitterTest s => Ok ("LeTransmitterTest", st s)
  | RetLeTestEnd p => Ok ("LeTestEnd", [debug_le_test_end p])
  | RetVendor x => Ok ("Vendor", [show_return D x])
  end.
(** src/event/command.rs:26-44. *)
Definition debug_command_complete {E} (e : command_complete V) : outcome E string :=
  let! v := return_variant (cc_return_params e) in
  Ok (debug_struct "CommandComplete"
        [("num_hci_command_packets", debug_uint (cc_num_hci_command_packets e));
         ("return_params", debug_variant v)]).

(** src/event/mod.rs:63-121, derived for [Event].  [None] means that an
    iterator did not end within [fuel] steps. *)
Definition debug_event {E} (fuel : nat) (e : event V) : option (outcome E string) :=
  let variant name (t : string) := Some (Ok (debug_variant (name, [t]))) in
  let within name (o : option (outcome E string)) :=
    match o with
    | Some (Ok t) => Some (Ok (debug_variant (name, [t])))
    | other => other
    end in
  match e with
  | EvConnectionComplete e => variant "ConnectionComplete" (debug_connection_complete e)
  | EvDisconnectionComplete e => variant "DisconnectionComplete" (debug_disconnection_complete e)
  | EvEncryptionChange e => variant "EncryptionChange" (debug_encryption_change e)
  | EvReadRemoteVersionInformationComplete e =>
      variant "ReadRemoteVersionInformationComplete" (debug_remote_version_information e)
  | EvCommandComplete e => within "CommandComplete" (Some (debug_command_complete e))
  | EvCommandStatus e => variant "CommandStatus" (debug_command_status e)
  | EvHardwareError e => variant "HardwareError" (debug_hardware_error e)
  | EvNumberOfCompletedPackets e =>
      within "NumberOfCompletedPackets" (debug_number_of_completed_packets fuel e)
  | EvDataBufferOverflow e => variant "DataBufferOverflow" (debug_data_buffer_overflow e)
  | EvEncryptionKeyRefreshComplete e =>
      variant "EncryptionKeyRefreshComplete" (debug_encryption_key_refresh_complete e)
  | EvLeConnectionComplete e => variant "LeConnectionComplete" (debug_le_connection_complete e)
  | EvLeAdvertisingReport e => within "LeAdvertisingReport" (debug_le_advertising_report fuel e)
  | EvLeConnectionUpdateComplete e =>
      variant "LeConnectionUpdateComplete" (debug_le_connection_update_complete e)
  | EvLeReadRemoteUsedFeaturesComplete e =>
      variant "LeReadRemoteUsedFeaturesComplete" (debug_le_read_remote_used_features_complete e)
  | EvLeLongTermKeyRequest e => variant "LeLongTermKeyRequest" (debug_le_long_term_key_request e)
  | EvLeDataLengthChangeEvent e => variant "LeDataLengthChangeEvent" (debug_le_data_length_change_event e)
  | EvLePhyUpdateComplete e => variant "LePhyUpdateComplete" (debug_le_phy_update_complete e)
  | EvVendor x => variant "Vendor" (show_event D x)
  end.
(** src/host/uart.rs:27-37, derived for [Packet]. *)
Definition debug_uart_packet {E} (fuel : nat) (p : uart_packet V) : option (outcome E string) :=
  match p with
  | PEvent e => match debug_event fuel e with
                | Some (Ok t) => Some (Ok (debug_variant ("Event", [t])))
                | other => other
                end
  end.

(** ** Errors *)

(** src/event/mod.rs:164-250, derived for [Error]. *)
Definition debug_event_error (e : event_error (VError V)) : string :=
  debug_variant
    match e with
    | EUnknownEvent b => ("UnknownEvent", [debug_uint b])
    | EBadLength a b => ("BadLength", [debug_uint (N.of_nat a); debug_uint (N.of_nat b)])
    | EBadStatus b => ("BadStatus", [debug_uint b])
    | EBadLinkType b => ("BadLinkType", [debug_uint b])
    | EBadEncryptionEnabledValue b => ("BadEncryptionEnabledValue", [debug_uint b])
    | EBadReason b => ("BadReason", [debug_uint b])
    | EBadEncryptionType b => ("BadEncryptionType", [debug_uint b])
    | EUnknownOpcode o => ("UnknownOpcode", [debug_opcode o])
    | EBadCommandFlag => ("BadCommandFlag", [])
    | EInvalidChannelMap m => ("InvalidChannelMap", [debug_list debug_uint m])
    | EInvalidLeStates v => ("InvalidLeStates", [debug_uint v])
    | EBadLeConnectionRole b => ("BadLeConnectionRole", [debug_uint b])
    | EBadLeAddressType b => ("BadLeAddressType", [debug_uint b])
    | EBadConnectionInterval e => ("BadConnectionInterval", [debug_conn_interval_error e])
    | EBadLeCentralClockAccuracy b => ("BadLeCentralClockAccuracy", [debug_uint b])
    | ELeAdvertisementReportIncomplete => ("LeAdvertisementReportIncomplete", [])
    | EBadLeAdvertisementType b => ("BadLeAdvertisementType", [debug_uint b])
    | EBadRemoteUsedFeatureFlag v => ("BadRemoteUsedFeatureFlag", [debug_uint v])
    | EBadPhy b => ("BadPhy", [debug_uint b])
    | EVendor e => ("Vendor", [show_error D e])
    end.
(** src/host/uart.rs:15-24 and src/host/event_link.rs:15-21; [show] is [Debug]
    of the controller's error. *)
Definition debug_uart_error {E} (show : E -> string) (e : uart_error E (VError V)) : string :=
  debug_variant
    match e with
    | UBadPacketType b => ("BadPacketType", [debug_uint b])
    | UBLE e => ("BLE", [debug_event_error e])
    | UComm e => ("Comm", [show e])
    end.
Definition debug_link_error {E} (show : E -> string) (e : link_error E (VError V)) : string :=
  debug_variant
    match e with
    | LBLE e => ("BLE", [debug_event_error e])
    | LComm e => ("Comm", [show e])
    end.
(** src/host/mod.rs:1114-1155. *)
Definition debug_host_error {E} (show : E -> string) (e : host_error E VS) : string :=
  debug_variant
    match e with
    | HBadDisconnectionReason s => ("BadDisconnectionReason", [debug_status (show_status D) s])
    | HBadRandomAddress a => ("BadRandomAddress", [debug_bd_addr a])
    | HBadChannelMap c => ("BadChannelMap", [debug_channels F c])
    | HAdvertisingDataTooLong n => ("AdvertisingDataTooLong", [debug_uint (N.of_nat n)])
    | HBadConnectionLengthRange a b => ("BadConnectionLengthRange", [debug_duration a; debug_duration b])
    | HNoValidChannel => ("NoValidChannel", [])
    | HInvalidTestChannel c => ("InvalidTestChannel", [debug_uint c])
    | HInvalidTestPayloadLength n => ("InvalidTestPayloadLength", [debug_uint n])
    | HComm e => ("Comm", [show e])
    end.
End Vendor.
