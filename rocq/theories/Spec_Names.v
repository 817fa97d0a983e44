(** * The words and numbers of log texts (specification).

    What [{:?}] is to write about a packet, from the bytes of the packet: the names
    are those of the crate's documentation, the codes, places and units those of the
    Bluetooth specification. *)
From Verif Require Import Base Model_Types Model_Intervals Model_EventBase Model_Command Model_Event Model_Host Model_Log
  Spec_Wire Spec_Numerals Spec_FlagNames.
From Coq Require Import String Ascii.
Open Scope list_scope.
Open Scope N_scope.

(** ** Numbers *)
Fixpoint every (P : ascii -> bool) (t : string) : bool :=
  match t with EmptyString => true | String c r => (P c && every P r)%bool end.
Definition is_digit (base : N) (c : ascii) : bool :=
  match digit_value base c with Some _ => true | None => false end.
(** Digits without needless zeros in front. *)
Definition in_digits (base v : N) (t : string) : Prop :=
  every (is_digit base) t = true /\ numbers base t = [v]
  /\ (forall r, t = String "0" r -> r = ""%string).
Definition signed_numeral (z : Z) (t : string) : Prop :=
  if (z <? 0)%Z then exists r, t = String "-" r /\ in_digits 10 (Z.to_N (- z)) r
  else in_digits 10 (Z.to_N z) t.

(** A time, given in nanoseconds: a number of seconds, or less than a thousand of the
    largest unit that it has one of; decimals only if needed. *)
Definition time_units : list (string * N) :=
  [("s", 1000000000); ("ms", 1000000);
   (String (ascii_of_N 0xC2) (String (ascii_of_N 0xB5) "s"), 1000); ("ns", 1)]%string.
Definition time_text (nanoseconds : N) (t : string) : Prop :=
  exists whole w decimals d name unit,
    t = (whole ++ decimals ++ name)%string /\ In (name, unit) time_units
    /\ in_digits 10 w whole
    /\ (decimals = ""%string /\ d = 0
        \/ exists r, decimals = String "." r /\ every (is_digit 10) r = true /\ numbers 10 r = [d]
           /\ forall s, r <> (s ++ "0")%string)
    /\ (0 < w \/ nanoseconds = 0 /\ unit = 1) /\ (w < 1000 \/ name = "s"%string)
    /\ nanoseconds * 10 ^ N.of_nat (String.length decimals - 1)
       = (w * 10 ^ N.of_nat (String.length decimals - 1) + d) * unit.

(** ** Words *)
Fixpoint joined (between : string) (l : list string) : string :=
  match l with
  | [] => ""
  | [t] => t
  | t :: l => t ++ between ++ joined between l
  end%string.
(** A name with arguments, and a name with fields: what each of them says. *)
Definition called (name : string) (args : list (string -> Prop)) (t : string) : Prop :=
  exists ts, Forall2 (fun says t => says t) args ts
    /\ t = (name ++ match ts with [] => "" | _ => "(" ++ joined ", " ts ++ ")" end)%string.
Definition written (name : string) (fields : list (string * (string -> Prop))) (t : string) : Prop :=
  exists ts, Forall2 (fun f t => exists v, snd f v /\ t = (fst f ++ ": " ++ v)%string) fields ts
    /\ t = (name ++ " { " ++ joined ", " ts ++ " }")%string.
Definition listed (base : N) (l : list N) (t : string) : Prop :=
  exists ts, Forall2 (in_digits base) l ts /\ t = ("[" ++ joined ", " ts ++ "]")%string.
Definition the (word t : string) : Prop := t = word.

(** The statuses in the order of their codes, as the crate spells them. *)
Definition status_names (F : features) : list string :=
  [ (* 00 *) "Success"; "UnknownCommand"; "UnknownConnectionId"; "HardwareFailure";
    (* 04 *) "PageTimeout"; "AuthFailure"; "PinOrKeyMissing"; "OutOfMemory";
    (* 08 *) "ConnectionTimeout"; "ConnectionLimitExceeeded";
             "SyncConnectionLimitExceeded"; "ConnectionAlreadyExists";
    (* 0C *) "CommandDisallowed"; "LimitedResources"; "ConnectionRejectedSecurity";
             "UnacceptableBdAddr";
    (* 10 *) "AcceptTimeoutExceeded"; "UnsupportedFeature"; "InvalidParameters";
             "RemoteTerminationByUser";
    (* 14 *) "RemoteTerminationLowResources"; "RemoteTerminationPowerOff";
             "ConnectionTerminatedByHost"; "RepeatedAttempts";
    (* 18 *) "PairingNotAllowed"; "UnknownLmpPdu"; "UnsupportedRemoteFeature";
             "ScoOffsetRejected";
    (* 1C *) "ScoIntervalRejected"; "ScoAirModeRejected"; "InvalidLmpParameters";
             "UnspecifiedError";
    (* 20 *) "UnsupportedLmpParameterValue"; "RoleChangeNotAllowed";
             "LmpResponseTimeout"; "LmpTransactionCollision";
    (* 24 *) "LmpPduNotAllowed"; "EncryptionModeNotAcceptable";
             "LinkKeyCannotBeChanged"; "RequestedQosNotSupported";
    (* 28 *) "InstantPassed"; "PairingWithUnitKeyNotSupported";
             "DifferentTransactionCollision"; "ReservedforFutureUse";
    (* 2C *) "QosUnacceptableParameter"; "QosRejected";
             "ChannelClassificationNotSupported"; "InsufficientSecurity";
    (* 30 *) "ParameterOutOfMandatoryRange"; "ReservedForFutureUse49";
             "RoleSwitchPending"; "ReservedForFutureUse51";
    (* 34 *) "ReservedSlotViolation"; "RoleSwitchFailed";
             "ExtendedInquiryResponseTooLarge"; "SecureSimplePairingNotSupportedByHost";
    (* 38 *) "HostBusyPairing"; "ConnectionRejectedNoSuitableChannel";
             "ControllerBusy"; "UnacceptableConnectionParameters";
    (* 3C *) "AdvertisingTimeout"; "ConnectionTerminatedMicFailure";
             "ConnectionFailedToEstablish"; "MacConnectionFailed";
    (* 40 *) "CoarseClockAdjustmentRejectedDraggingAttempted" ]%string
  ++ (if version_5_0 F then
  [ (* 41 *) "Type0SubmapNotDefined"; "UnknownAdvertisingId"; "LimitReached";
    (* 44 *) "OperationCancelledByHost" ]%string else []).

(** Bits and their names. *)
Definition numbered (names : list string) : list (N * string) :=
  combine (map N.of_nat (seq 0 (List.length names))) names.
Definition remote_feature_names (F : features) : list (N * string) :=
  filter (fun p => le_feature_defined F (fst p)) (numbered (map snd le_features_core)).
Definition local_feature_names (F : features) : list (N * string) :=
  filter (fun p => le_feature_defined F (fst p)) (numbered (map fst le_features_core)).
Definition lmp_feature_names : list (N * string) :=
  flat_map (fun g => map (fun p => (fst g + fst p, snd p)) (numbered (snd g))) lmp_features_core.
Definition state_names : list (N * string) := numbered (map states_name le_states_core).
Definition advertising_channel_names : list (N * string) := numbered ["CH_37"; "CH_38"; "CH_39"]%string.
Definition flags_text (names : list (N * string)) (v : N) (t : string) : Prop :=
  t = match filter (fun p => N.testbit v (fst p)) names with
      | [] => "(empty)"%string
      | l => joined " | " (map snd l)
      end.

(** ** The contents of a field, with its number of bytes *)
Inductive content :=
| IsStatus
| IsNumber (width : nat)
| IsSigned
| IsRssi
| IsHandle
| IsOpcode
| IsAddress
| IsTypedAddress
| IsInterval
| IsOneOf (words : list (N * string))
| IsFlags (names : list (N * string))
| IsChannels
| IsCommands
| IsBlock
| IsData (width : nat).
Definition width (c : content) : nat :=
  match c with
  | IsStatus | IsSigned | IsRssi | IsOneOf _ => 1
  | IsHandle | IsOpcode => 2
  | IsAddress | IsInterval => 6
  | IsTypedAddress => 7
  | IsFlags _ => 8
  | IsChannels => 5
  | IsCommands => 64
  | IsBlock => 16
  | IsNumber n | IsData n => n
  end.

Section Vendor.
Context (F : features) {V : vendor} (D : vendor_debug V).

Definition number_of (n : nat) (b : list N) (says : N -> string -> Prop) (t : string) : Prop :=
  exists v, v < 256 ^ N.of_nat n /\ b = le n v /\ says v t.
Definition status_text (code : N) (t : string) : Prop :=
  match nth_error (status_names F) (N.to_nat code) with
  | Some name => t = name
  | None => exists v, vstatus_try_from V code = Ok v /\ called "Vendor" [the (show_status D v)] t
  end.
Definition address_text (a : list N) : string -> Prop := called "BdAddr" [listed 10 a].
(** Intervals are in units of 1.25 ms, timeouts of 10 ms. *)
Definition interval_text (i latency timeout : N) : string -> Prop :=
  written "FixedConnectionInterval"
    [("interval_", time_text (i * 1250000)); ("conn_latency_", in_digits 10 latency);
     ("supervision_timeout_", time_text (timeout * 10000000))]%string.
Definition line_break : string := String "010" "".

Definition says (c : content) (b : list N) (t : string) : Prop :=
  List.length b = width c /\
  match c with
  | IsStatus => exists code, b = [code] /\ status_text code t
  | IsNumber n => number_of n b (in_digits 10) t
  | IsSigned => exists z, is_i8 z /\ b = [signed z] /\ signed_numeral z t
  | IsRssi => b = [127] /\ t = "None"%string
              \/ exists z, is_i8 z /\ z <> 127%Z /\ b = [signed z] /\ called "Some" [signed_numeral z] t
  | IsHandle => number_of 2 b (fun v => called "ConnectionHandle" [in_digits 10 v]) t
  | IsOpcode => number_of 2 b (fun v => called "Opcode" [in_digits 10 v]) t
  | IsAddress => address_text b t
  | IsTypedAddress => exists a, b = 0 :: a /\ called "Public" [address_text a] t
                             \/ b = 1 :: a /\ called "Random" [address_text a] t
  | IsInterval => exists i latency timeout, i < 65536 /\ latency < 65536 /\ timeout < 65536
                  /\ b = le 2 i ++ le 2 latency ++ le 2 timeout /\ interval_text i latency timeout t
  | IsOneOf words => exists code, b = [code] /\ In (code, t) words
  | IsFlags names => number_of 8 b (flags_text names) t
  | IsChannels => called "ChannelClassification" [listed 10 b] t
  | IsCommands => exists x y z, listed 10 (firstn 16 b) x /\ listed 10 (firstn 16 (skipn 16 b)) y
                  /\ listed 10 (firstn 7 (skipn 32 b)) z
                  /\ t = (x ++ line_break ++ y ++ line_break ++ z ++ line_break)%string
  | IsBlock => exists x, listed 16 b x /\ t = ("AES-128 Encrypted Data (" ++ x ++ ")" ++ line_break)%string
  | IsData _ => listed 10 b t
  end.

(** ** Packets

    Where a field is among the bytes [p], and what it contains. *)
Definition at_place (p : list N) (place : nat) (c : content) : string -> Prop :=
  says c (firstn (width c) (skipn place p)).
Definition fields := list (string * nat * content).
Definition fields_of (name : string) (l : fields) (p : list N) : string -> Prop :=
  written name (map (fun f => (fst (fst f), at_place p (snd (fst f)) (snd f))) l).

Open Scope string_scope.
Definition off_on : list (N * string) := [(0, "false"); (1, "true")].
Definition link_types : list (N * string) := [(0, "Sco"); (1, "Acl")].
Definition encryption_names : list (N * string) := [(0, "Off"); (1, "On"); (2, "OnAesCcmForBrEdr")].
Definition role_names : list (N * string) := [(0, "Central"); (1, "Peripheral")].
Definition accuracy_names : list (N * string) :=
  [(0, "Ppm500"); (1, "Ppm250"); (2, "Ppm150"); (3, "Ppm100"); (4, "Ppm75"); (5, "Ppm50"); (6, "Ppm30"); (7, "Ppm20")].
(** As the crate has them (see C51). *)
Definition phy_names : list (N * string) := [(0, "Le1M"); (1, "Le2M"); (2, "LeCoded")].
Definition advertisement_names : list (N * string) :=
  [(0, "Advertisement"); (1, "DirectAdvertisement"); (2, "Scan"); (3, "NonConnectableAdvertisement"); (4, "ScanResponse")].

(** The events of fixed form: the code, the name, the name of its parameters, and
    these. *)
Local Open Scope nat_scope.
Definition event_fields : list (N * (string * string * fields)) :=
  [ (0x03%N, ("ConnectionComplete", "ConnectionComplete",
      [("status", 0, IsStatus); ("conn_handle", 1, IsHandle); ("bd_addr", 3, IsAddress);
       ("link_type", 9, IsOneOf link_types); ("encryption_enabled", 10, IsOneOf off_on)]));
    (0x05%N, ("DisconnectionComplete", "DisconnectionComplete",
      [("status", 0, IsStatus); ("conn_handle", 1, IsHandle); ("reason", 3, IsStatus)]));
    (0x08%N, ("EncryptionChange", "EncryptionChange",
      [("status", 0, IsStatus); ("conn_handle", 1, IsHandle); ("encryption", 3, IsOneOf encryption_names)]));
    (0x0C%N, ("ReadRemoteVersionInformationComplete", "RemoteVersionInformation",
      [("status", 0, IsStatus); ("conn_handle", 1, IsHandle); ("version", 3, IsNumber 1);
       ("mfgr_name", 4, IsNumber 2); ("subversion", 6, IsNumber 2)]));
    (0x0F%N, ("CommandStatus", "CommandStatus",
      [("status", 0, IsStatus); ("num_hci_command_packets", 1, IsNumber 1); ("opcode", 2, IsOpcode)]));
    (0x10%N, ("HardwareError", "HardwareError", [("code", 0, IsNumber 1)]));
    (0x1A%N, ("DataBufferOverflow", "DataBufferOverflow", [("link_type", 0, IsOneOf link_types)]));
    (0x30%N, ("EncryptionKeyRefreshComplete", "EncryptionKeyRefreshComplete",
      [("status", 0, IsStatus); ("conn_handle", 1, IsHandle)])) ].
Definition le_event_fields : list (N * (string * string * fields)) :=
  [ (0x01%N, ("LeConnectionComplete", "LeConnectionComplete",
      [("status", 0, IsStatus); ("conn_handle", 1, IsHandle); ("role", 3, IsOneOf role_names);
       ("peer_bd_addr", 4, IsTypedAddress); ("conn_interval", 11, IsInterval);
       ("central_clock_accuracy", 17, IsOneOf accuracy_names)]));
    (0x03%N, ("LeConnectionUpdateComplete", "LeConnectionUpdateComplete",
      [("status", 0, IsStatus); ("conn_handle", 1, IsHandle); ("conn_interval", 3, IsInterval)]));
    (0x04%N, ("LeReadRemoteUsedFeaturesComplete", "LeReadRemoteUsedFeaturesComplete",
      [("status", 0, IsStatus); ("conn_handle", 1, IsHandle); ("features", 3, IsFlags (remote_feature_names F))]));
    (0x05%N, ("LeLongTermKeyRequest", "LeLongTermKeyRequest",
      [("conn_handle", 0, IsHandle); ("random_value", 2, IsNumber 8); ("encrypted_diversifier", 10, IsNumber 2)]));
    (0x07%N, ("LeDataLengthChangeEvent", "LeDataLengthChangeEvent",
      [("conn_handle", 0, IsHandle); ("max_tx_octets", 2, IsNumber 2); ("max_tx_time", 4, IsNumber 2);
       ("max_rx_octets", 6, IsNumber 2); ("max_rx_time", 8, IsNumber 2)]));
    (0x0C%N, ("LePhyUpdateComplete", "LePhyUpdateComplete",
      [("conn_handle", 1, IsHandle); ("status", 0, IsStatus); ("tx_phy", 3, IsOneOf phy_names);
       ("rx_phy", 4, IsOneOf phy_names)])) ].
Definition completed_fields : fields :=
  [("conn_handle", 0, IsHandle); ("num_completed_packets", 2, IsNumber 2)].
Definition advertisement_fields (data : nat) : fields :=
  [("event_type", 0, IsOneOf advertisement_names); ("address", 1, IsTypedAddress);
   ("data", 9, IsData data); ("rssi", 9 + data, IsRssi)].

(** The return parameters: one or more values, or a struct with fields.  One command
    is called differently since version 5.0. *)
Inductive returned :=
| Values (l : list (nat * content))
| Fields (name : string) (l : fields).
Definition status_alone : returned := Values [(0, IsStatus)].
Definition return_fields : list (N * (string * returned)) :=
  [ (0%N, ("Spontaneous", Values []));
    (hci_opcode 0x03 0x001, ("SetEventMask", status_alone));
    (hci_opcode 0x03 0x003, ("Reset", status_alone));
    (hci_opcode 0x03 0x02D, ("ReadTxPowerLevel", Fields "TxPowerLevel"
      [("status", 0, IsStatus); ("conn_handle", 1, IsHandle); ("tx_power_level_dbm", 3, IsSigned)]));
    (hci_opcode 0x04 0x001, ("ReadLocalVersionInformation", Fields "LocalVersionInfo"
      [("status", 0, IsStatus); ("hci_version", 1, IsNumber 1); ("hci_revision", 2, IsNumber 2);
       ("lmp_version", 4, IsNumber 1); ("manufacturer_name", 5, IsNumber 2); ("lmp_subversion", 7, IsNumber 2)]));
    (hci_opcode 0x04 0x002, ("ReadLocalSupportedCommands", Fields "LocalSupportedCommands"
      [("status", 0, IsStatus); ("supported_commands", 1, IsCommands)]));
    (hci_opcode 0x04 0x003, ("ReadLocalSupportedFeatures", Fields "LocalSupportedFeatures"
      [("status", 0, IsStatus); ("supported_features", 1, IsFlags lmp_feature_names)]));
    (hci_opcode 0x04 0x009, ("ReadBdAddr", Fields "ReadBdAddr"
      [("status", 0, IsStatus); ("bd_addr", 1, IsAddress)]));
    (hci_opcode 0x05 0x005, ("ReadRssi", Fields "ReadRssi"
      [("status", 0, IsStatus); ("conn_handle", 1, IsHandle); ("rssi", 3, IsSigned)]));
    (hci_opcode 0x08 0x001, ("LeSetEventMask", status_alone));
    (hci_opcode 0x08 0x002, ("LeReadBufferSize", Fields "LeReadBufferSize"
      [("status", 0, IsStatus); ("data_packet_length", 1, IsNumber 2); ("data_packet_count", 3, IsNumber 1)]));
    (hci_opcode 0x08 0x003, ("LeReadLocalSupportedFeatures", Fields "LeSupportedFeatures"
      [("status", 0, IsStatus); ("supported_features", 1, IsFlags (local_feature_names F))]));
    (hci_opcode 0x08 0x005, ("LeSetRandomAddress", status_alone));
    (hci_opcode 0x08 0x006, ("LeSetAdvertisingParameters", status_alone));
    (hci_opcode 0x08 0x007, ("LeReadAdvertisingChannelTxPower", Fields "LeAdvertisingChannelTxPower"
      [("status", 0, IsStatus); ("power", 1, IsSigned)]));
    (hci_opcode 0x08 0x008, ("LeSetAdvertisingData", status_alone));
    (hci_opcode 0x08 0x009, ("LeSetScanResponseData", status_alone));
    (hci_opcode 0x08 0x00A,
      (if version_5_0 F then "LeSetAdvertisingEnable" else "LeSetAdvertiseEnable", status_alone));
    (hci_opcode 0x08 0x00B, ("LeSetScanParameters", status_alone));
    (hci_opcode 0x08 0x00C, ("LeSetScanEnable", status_alone));
    (hci_opcode 0x08 0x00E, ("LeCreateConnectionCancel", status_alone));
    (hci_opcode 0x08 0x00F, ("LeReadWhiteListSize", Values [(0, IsStatus); (1, IsNumber 1)]));
    (hci_opcode 0x08 0x010, ("LeClearWhiteList", status_alone));
    (hci_opcode 0x08 0x011, ("LeAddDeviceToWhiteList", status_alone));
    (hci_opcode 0x08 0x012, ("LeRemoveDeviceFromWhiteList", status_alone));
    (hci_opcode 0x08 0x014, ("LeSetHostChannelClassification", status_alone));
    (hci_opcode 0x08 0x015, ("LeReadChannelMap", Fields "ChannelMapParameters"
      [("status", 0, IsStatus); ("conn_handle", 1, IsHandle); ("channel_map", 3, IsChannels)]));
    (hci_opcode 0x08 0x017, ("LeEncrypt", Fields "EncryptedReturnParameters"
      [("status", 0, IsStatus); ("encrypted_data", 1, IsBlock)]));
    (hci_opcode 0x08 0x018, ("LeRand", Fields "LeRandom"
      [("status", 0, IsStatus); ("random_number", 1, IsNumber 8)]));
    (hci_opcode 0x08 0x01A, ("LeLongTermKeyRequestReply", Fields "LeLongTermRequestReply"
      [("status", 0, IsStatus); ("conn_handle", 1, IsHandle)]));
    (hci_opcode 0x08 0x01B, ("LeLongTermKeyRequestNegativeReply", Fields "LeLongTermRequestReply"
      [("status", 0, IsStatus); ("conn_handle", 1, IsHandle)]));
    (hci_opcode 0x08 0x01C, ("LeReadSupportedStates", Fields "LeReadSupportedStates"
      [("status", 0, IsStatus); ("supported_states", 1, IsFlags state_names)]));
    (hci_opcode 0x08 0x01D, ("LeReceiverTest", status_alone));
    (hci_opcode 0x08 0x01E, ("LeTransmitterTest", status_alone));
    (hci_opcode 0x08 0x01F, ("LeTestEnd", Fields "LeTestEnd"
      [("status", 0, IsStatus); ("number_of_packets", 1, IsNumber 2)])) ].
Definition return_text (opcode : N) (ret : list N) (t : string) : Prop :=
  exists name r, In (opcode, (name, r)) return_fields /\
    match r with
    | Values l => called name (map (fun f => at_place ret (fst f) (snd f)) l) t
    | Fields struct l => called name [fields_of struct l ret] t
    end.

(** The text of a list of entries. *)
Definition entries (entry : list N -> string -> Prop) (l : list (list N)) (t : string) : Prop :=
  exists ts, Forall2 entry l ts /\ t = "{" ++ joined "" ts ++ "}".

(** The whole text for a packet. *)
Inductive log_line : list N -> string -> Prop :=
| log_event code len p name struct l t : In (code, (name, struct, l)) event_fields ->
    called name [fields_of struct l p] t -> log_line (code :: len :: p) t
| log_le_event code len p name struct l t : In (code, (name, struct, l)) le_event_fields ->
    called name [fields_of struct l p] t -> log_line (0x3E%N :: len :: code :: p) t
| log_completed_packets len count l t :
    Forall (fun e => List.length e = 4) l -> N.of_nat (List.length l) = count ->
    called "NumberOfCompletedPackets" [entries (fields_of "NumberOfCompletedPacketsPair" completed_fields) l] t ->
    log_line (0x13%N :: len :: count :: List.concat l) t
| log_advertisements len count l t :
    Forall (fun e => List.length e = 10 + N.to_nat (nth 8 e 0%N)) l ->
    called "LeAdvertisingReport"
      [entries (fun e => fields_of "LeAdvertisement" (advertisement_fields (N.to_nat (nth 8 e 0%N))) e) l] t ->
    log_line (0x3E%N :: len :: 0x02%N :: count :: List.concat l) t
| log_return len number opcode ret t : (opcode < 65536)%N ->
    called "CommandComplete" [written "CommandComplete"
      [("num_hci_command_packets", in_digits 10 number); ("return_params", return_text opcode ret)]] t ->
    log_line (0x0E%N :: len :: number :: (le 2 opcode ++ ret)%list) t
| log_vendor_return len number opcode ret v t : (opcode < 65536)%N -> (opcode / 1024 = 0x3F)%N ->
    vreturn_new V (number :: le 2 opcode ++ ret)%list = Ok v ->
    called "CommandComplete" [written "CommandComplete"
      [("num_hci_command_packets", in_digits 10 number);
       ("return_params", called "Vendor" [the (show_return D v)])]] t ->
    log_line (0x0E%N :: len :: number :: (le 2 opcode ++ ret)%list) t
| log_vendor_event len p v t : vevent_new V p = Ok v ->
    called "Vendor" [the (show_event D v)] t -> log_line (0xFF%N :: len :: p) t.

(** ** Errors *)
Definition conn_interval_error_text (e : conn_interval_error) : string -> Prop :=
  match e with
  | Incomplete => called "Incomplete" []
  | IntervalTooShort d => called "IntervalTooShort" [time_text d]
  | IntervalTooLong d => called "IntervalTooLong" [time_text d]
  | IntervalInverted a b => called "IntervalInverted" [time_text a; time_text b]
  | BadConnectionLatency l => called "BadConnectionLatency" [in_digits 10 l]
  | SupervisionTimeoutTooShort a b => called "SupervisionTimeoutTooShort" [time_text a; time_text b]
  | SupervisionTimeoutTooLong d => called "SupervisionTimeoutTooLong" [time_text d]
  | ImpossibleSupervisionTimeout d => called "ImpossibleSupervisionTimeout" [time_text d]
  end.
Definition event_error_text (e : event_error (VError V)) : string -> Prop :=
  let number name v := called name [in_digits 10 v] in
  match e with
  | EUnknownEvent b => number "UnknownEvent" b
  | EBadLength a b => called "BadLength" [in_digits 10 (N.of_nat a); in_digits 10 (N.of_nat b)]
  | EBadStatus b => number "BadStatus" b
  | EBadLinkType b => number "BadLinkType" b
  | EBadEncryptionEnabledValue b => number "BadEncryptionEnabledValue" b
  | EBadReason b => number "BadReason" b
  | EBadEncryptionType b => number "BadEncryptionType" b
  | EUnknownOpcode o => called "UnknownOpcode" [called "Opcode" [in_digits 10 o]]
  | EBadCommandFlag => called "BadCommandFlag" []
  | EInvalidChannelMap m => called "InvalidChannelMap" [listed 10 m]
  | EInvalidLeStates v => number "InvalidLeStates" v
  | EBadLeConnectionRole b => number "BadLeConnectionRole" b
  | EBadLeAddressType b => number "BadLeAddressType" b
  | EBadConnectionInterval e => called "BadConnectionInterval" [conn_interval_error_text e]
  | EBadLeCentralClockAccuracy b => number "BadLeCentralClockAccuracy" b
  | ELeAdvertisementReportIncomplete => called "LeAdvertisementReportIncomplete" []
  | EBadLeAdvertisementType b => number "BadLeAdvertisementType" b
  | EBadRemoteUsedFeatureFlag v => number "BadRemoteUsedFeatureFlag" v
  | EBadPhy b => number "BadPhy" b
  | EVendor e => called "Vendor" [the (show_error D e)]
  end.
(** The text of a status, and of the errors of commands and transports; [show] is
    that of the controller's own errors. *)
Definition status_value_text (s : status (VStatus V)) (t : string) : Prop :=
  match s with
  | Vendor v => called "Vendor" [the (show_status D v)] t
  | s => exists i, nth_error (@assigned_statuses (VStatus V) {| version_4_2 := true; version_5_0 := true |}) i = Some s
         /\ nth_error (status_names {| version_4_2 := true; version_5_0 := true |}) i = Some t
  end.
Definition host_error_text {E} (show : E -> string) (e : host_error E (VStatus V)) : string -> Prop :=
  match e with
  | HBadDisconnectionReason s => called "BadDisconnectionReason" [status_value_text s]
  | HBadRandomAddress a => called "BadRandomAddress" [address_text a]
  | HBadChannelMap c => called "BadChannelMap" [flags_text advertising_channel_names c]
  | HAdvertisingDataTooLong n => called "AdvertisingDataTooLong" [in_digits 10 (N.of_nat n)]
  | HBadConnectionLengthRange a b => called "BadConnectionLengthRange" [time_text a; time_text b]
  | HNoValidChannel => called "NoValidChannel" []
  | HInvalidTestChannel c => called "InvalidTestChannel" [in_digits 10 c]
  | HInvalidTestPayloadLength n => called "InvalidTestPayloadLength" [in_digits 10 n]
  | HComm e => called "Comm" [the (show e)]
  end.
Definition uart_error_text {E} (show : E -> string) (e : uart_error E (VError V)) : string -> Prop :=
  match e with
  | UBadPacketType b => called "BadPacketType" [in_digits 10 b]
  | UBLE e => called "BLE" [event_error_text e]
  | UComm e => called "Comm" [the (show e)]
  end.
Definition link_error_text {E} (show : E -> string) (e : link_error E (VError V)) : string -> Prop :=
  match e with
  | LBLE e => called "BLE" [event_error_text e]
  | LComm e => called "Comm" [the (show e)]
  end.
End Vendor.

(** ** What a user builds for commands *)
Definition times_text (p : N * N) : string -> Prop := called "" [time_text (fst p); time_text (snd p)].
Definition conn_interval_text (i : conn_interval) : string -> Prop :=
  written "ConnectionInterval"
    [("interval_", times_text (ci_interval i)); ("conn_latency_", in_digits 10 (ci_latency i));
     ("supervision_timeout_", time_text (ci_timeout i))]%string.
Definition fixed_conn_interval_text (i : fixed_conn_interval) : string -> Prop :=
  written "FixedConnectionInterval"
    [("interval_", time_text (fci_interval i)); ("conn_latency_", in_digits 10 (fci_latency i));
     ("supervision_timeout_", time_text (fci_timeout i))]%string.
Definition expected_length_text (l : expected_conn_length) : string -> Prop :=
  written "ExpectedConnectionLength" [("range", times_text (ecl_range l))]%string.
Definition expected_length_error_text (e : expected_conn_length_error) : string -> Prop :=
  match e with
  | ECL_TooLong d => called "TooLong" [time_text d]
  | ECL_Inverted a b => called "Inverted" [time_text a; time_text b]
  end.
Definition advertising_type_text (t : advertising_type) : string -> Prop :=
  the match t with
      | ConnectableUndirected => "ConnectableUndirected"
      | ConnectableDirectedHighDutyCycle => "ConnectableDirectedHighDutyCycle"
      | ScannableUndirected => "ScannableUndirected"
      | NonConnectableUndirected => "NonConnectableUndirected"
      | ConnectableDirectedLowDutyCycle => "ConnectableDirectedLowDutyCycle"
      end.
Definition advertising_interval_text (i : advertising_interval) : string -> Prop :=
  written "AdvertisingInterval"
    [("interval", times_text (ai_interval i)); ("_advertising_type", advertising_type_text (ai_type i))]%string.
Definition advertising_interval_error_text (e : advertising_interval_error) : string -> Prop :=
  match e with
  | AI_TooShort d => called "TooShort" [time_text d]
  | AI_TooLong d => called "TooLong" [time_text d]
  | AI_Inverted a b => called "Inverted" [time_text a; time_text b]
  | AI_NoRange => called "NoRange" []
  end.
Definition scan_window_text (w : scan_window) : string -> Prop :=
  written "ScanWindow" [("interval_width", time_text (sw_interval w)); ("window_width", time_text (sw_window w))]%string.
Definition scan_window_error_text (e : scan_window_error) : string -> Prop :=
  match e with
  | SW_TooShort d => called "TooShort" [time_text d]
  | SW_TooLong d => called "TooLong" [time_text d]
  | SW_Inverted i w => written "Inverted" [("interval", time_text i); ("window", time_text w)]%string
  end.
Definition own_address_text (t : own_address_type) : string -> Prop :=
  the match t with
      | OwnPublic => "Public"
      | OwnRandom => "Random"
      | PrivateFallbackPublic => "PrivateFallbackPublic"
      | PrivateFallbackRandom => "PrivateFallbackRandom"
      end.
Definition advertising_parameters_text (p : advertising_parameters) : string -> Prop :=
  written "AdvertisingParameters"
    [("advertising_interval", advertising_interval_text (ap_interval p));
     ("own_address_type", own_address_text (ap_own_address_type p));
     ("peer_address", match ap_peer_address p with
                      | BdPublic a => called "Public" [address_text a]
                      | BdRandom a => called "Random" [address_text a]
                      end);
     ("advertising_channel_map", flags_text advertising_channel_names (ap_channel_map p));
     ("advertising_filter_policy",
      the match ap_filter_policy p with
          | AllowConnectionAndScan => "AllowConnectionAndScan"
          | AllowConnectionWhiteListScan => "AllowConnectionWhiteListScan"
          | WhiteListConnectionAllowScan => "WhiteListConnectionAllowScan"
          | WhiteListConnectionAndScan => "WhiteListConnectionAndScan"
          end)]%string.
Definition scan_parameters_text (p : scan_parameters) : string -> Prop :=
  written "ScanParameters"
    [("scan_type", the match sp_scan_type p with Passive => "Passive" | Active => "Active" end);
     ("scan_window", scan_window_text (sp_scan_window p));
     ("own_address_type", own_address_text (sp_own_address_type p));
     ("filter_policy",
      the match sp_filter_policy p with
          | AcceptAll => "AcceptAll"
          | ScanWhiteList => "WhiteList"
          | AddressedToThisDevice => "AddressedToThisDevice"
          | WhiteListAddressedToThisDevice => "WhiteListAddressedToThisDevice"
          end)]%string.
Definition connection_parameters_text (p : connection_parameters) : string -> Prop :=
  written "ConnectionParameters"
    [("scan_window", scan_window_text (cp_scan_window p));
     ("initiator_filter_policy",
      the match cp_initiator_filter_policy p with UseAddress => "UseAddress" | UseWhiteList => "WhiteList" end);
     ("peer_address",
      match cp_peer_address p with
      | PublicDeviceAddress a => called "PublicDeviceAddress" [address_text a]
      | RandomDeviceAddress a => called "RandomDeviceAddress" [address_text a]
      | PublicIdentityAddress a => called "PublicIdentityAddress" [address_text a]
      | RandomIdentityAddress a => called "RandomIdentityAddress" [address_text a]
      end);
     ("own_address_type", own_address_text (cp_own_address_type p));
     ("conn_interval", conn_interval_text (cp_conn_interval p));
     ("expected_connection_length", expected_length_text (cp_expected_connection_length p))]%string.
