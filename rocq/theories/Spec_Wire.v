(** * Wire formats (specification).

    Written from the Bluetooth Core Specification (Vol 2, Part E, section 7 and
    Vol 2, Part D) and from the documentation of the crate.  Nothing here uses
    the decoders or encoders of the model; only its data types. *)
From Verif Require Import Base Model_Types Model_Bitflags Model_Intervals
  Model_EventBase Model_Command Model_Event.

(** ** Numbers *)

(** The [n] bytes of [v], least significant first. *)
Definition le (n : nat) (v : N) : list N :=
  map (fun i => v / 256 ^ N.of_nat i mod 256) (seq 0 n).

(** Two's complement byte of a number in -128 .. 127. *)
Definition signed (z : Z) : N := Z.to_N (z mod 256).
Definition is_i8 (z : Z) : Prop := (-128 <= z <= 127)%Z.

(** ** Status codes (Vol 2, Part D, section 1.3): the assigned statuses in code
    order, from 0x00; the last four since version 5.0. *)
Definition assigned_statuses {VS} (F : features) : list (status VS) :=
  [ (* 00 *) Success; UnknownCommand; UnknownConnectionId; HardwareFailure;
    (* 04 *) PageTimeout; AuthFailure; PinOrKeyMissing; OutOfMemory;
    (* 08 *) ConnectionTimeout; ConnectionLimitExceeeded;
             SyncConnectionLimitExceeded; ConnectionAlreadyExists;
    (* 0C *) CommandDisallowed; LimitedResources; ConnectionRejectedSecurity;
             UnacceptableBdAddr;
    (* 10 *) AcceptTimeoutExceeded; UnsupportedFeature; InvalidParameters;
             RemoteTerminationByUser;
    (* 14 *) RemoteTerminationLowResources; RemoteTerminationPowerOff;
             ConnectionTerminatedByHost; RepeatedAttempts;
    (* 18 *) PairingNotAllowed; UnknownLmpPdu; UnsupportedRemoteFeature;
             ScoOffsetRejected;
    (* 1C *) ScoIntervalRejected; ScoAirModeRejected; InvalidLmpParameters;
             UnspecifiedError;
    (* 20 *) UnsupportedLmpParameterValue; RoleChangeNotAllowed;
             LmpResponseTimeout; LmpTransactionCollision;
    (* 24 *) LmpPduNotAllowed; EncryptionModeNotAcceptable;
             LinkKeyCannotBeChanged; RequestedQosNotSupported;
    (* 28 *) InstantPassed; PairingWithUnitKeyNotSupported;
             DifferentTransactionCollision; ReservedforFutureUse;
    (* 2C *) QosUnacceptableParameter; QosRejected;
             ChannelClassificationNotSupported; InsufficientSecurity;
    (* 30 *) ParameterOutOfMandatoryRange; ReservedForFutureUse49;
             RoleSwitchPending; ReservedForFutureUse51;
    (* 34 *) ReservedSlotViolation; RoleSwitchFailed;
             ExtendedInquiryResponseTooLarge; SecureSimplePairingNotSupportedByHost;
    (* 38 *) HostBusyPairing; ConnectionRejectedNoSuitableChannel;
             ControllerBusy; UnacceptableConnectionParameters;
    (* 3C *) AdvertisingTimeout; ConnectionTerminatedMicFailure;
             ConnectionFailedToEstablish; MacConnectionFailed;
    (* 40 *) CoarseClockAdjustmentRejectedDraggingAttempted ]
  ++ (if version_5_0 F then
  [ (* 41 *) Type0SubmapNotDefined; UnknownAdvertisingId; LimitReached;
    (* 44 *) OperationCancelledByHost ] else []).

(** The byte [b] stands for the status [s]: an assigned code for its assigned
    status, any other byte for what the vendor makes of it. *)
Definition status_byte (F : features) (V : vendor) (b : N) (s : status (VStatus V)) : Prop :=
  match nth_error (assigned_statuses F) (N.to_nat b) with
  | Some s' => s = s'
  | None => exists v, vstatus_try_from V b = Ok v /\ s = Vendor v
  end.

(** A status byte that nothing makes sense of: unassigned, and the vendor
    refuses it with the error [e]. *)
Definition status_byte_refused (F : features) (V : vendor) (b e : N) : Prop :=
  nth_error (@assigned_statuses (VStatus V) F) (N.to_nat b) = None
  /\ vstatus_try_from V b = Err e.

(** ** Small codes *)
Definition link_type_code (l : link_type) : N := match l with Sco => 0 | Acl => 1 end.
Definition flag (b : bool) : N := if b then 1 else 0.
Definition encryption_code (e : encryption) : N :=
  match e with EncOff => 0 | EncOn => 1 | EncOnAesCcmForBrEdr => 2 end.
Definition role_code (r : connection_role) : N :=
  match r with Central => 0 | Peripheral => 1 end.
Definition clock_accuracy_code (c : clock_accuracy) : N :=
  match c with
  | Ppm500 => 0 | Ppm250 => 1 | Ppm150 => 2 | Ppm100 => 3
  | Ppm75 => 4 | Ppm50 => 5 | Ppm30 => 6 | Ppm20 => 7
  end.
(** As the crate documents it; the Bluetooth specification has 1, 2, 3. *)
Definition phy_code (p : phy) : N :=
  match p with Le1M => 0 | Le2M => 1 | LeCoded => 2 end.
Definition advertisement_event_code (e : advertisement_event) : N :=
  match e with
  | AdvAdvertisement => 0 | AdvDirectAdvertisement => 1 | AdvScan => 2
  | AdvNonConnectableAdvertisement => 3 | AdvScanResponse => 4
  end.
Definition address_bytes (a : bd_addr_type) : list N :=
  match a with BdPublic x => 0 :: x | BdRandom x => 1 :: x end.
Definition address_ok (a : bd_addr_type) : Prop :=
  match a with BdPublic x | BdRandom x => length x = 6%nat end.

(** ** Connection parameters

    In wire units: intervals in 1.25 ms, latency in events, timeout in 10 ms.
    The condition is the documented one of [ConnectionIntervalBuilder::build]:
    7.5 ms <= min <= max <= 4 s, latency <= 0x1F3, timeout <= 32 s, timeout more
    than 100 ms and more than 2 (1 + latency) max. *)
Definition legal_parameters (min max latency timeout : N) : Prop :=
  6 <= min /\ min <= max /\ max <= 3200 /\ latency <= 499 /\
  10 < timeout /\ timeout <= 3200 /\ (1 + latency) * max < 4 * timeout.

(** Nanoseconds in one unit. *)
Definition interval_unit : N := 1250000.
Definition timeout_unit : N := 10000000.

Definition fixed_interval_bytes (ci : fixed_conn_interval) (p : list N) : Prop :=
  exists i t,
    legal_parameters i i (fci_latency ci) t /\
    fci_interval ci = i * interval_unit /\
    fci_timeout ci = t * timeout_unit /\
    p = le 2 i ++ le 2 (fci_latency ci) ++ le 2 t.

(** ** Defined bits of bit fields, by enabled version *)

(** Link Layer features (Vol 6, Part B, 4.6), also the LE features of Local
    Supported Features: bits 0-4; 5-7 since 4.2; 8-16 since 5.0. *)
Definition le_feature_defined (F : features) (i : N) : bool :=
  (i <=? 4)
  || ((version_4_2 F || version_5_0 F) && (i <=? 7))
  || (version_5_0 F && (i <=? 16)).

(** LMP features, page 0 (Vol 2, Part C, 3.3): all 64 bits but those reserved. *)
Definition lmp_feature_reserved : list N := [8; 24; 34; 50; 55; 59; 60; 61; 62].
Definition lmp_feature_defined (i : N) : bool :=
  (i <? 64) && negb (existsb (N.eqb i) lmp_feature_reserved).

(** LE states (Vol 2, Part E, 7.8.27): bits 0-41. *)
Definition le_state_defined (i : N) : bool := i <=? 41.

(** Data channels 0-36. *)
Definition channel_defined (i : N) : bool := i <=? 36.

(** Supported Commands (Vol 2, Part E, 6.27): the defined bits of each of the
    first 40 octets, as masks; the other 24 octets are reserved. *)
Definition command_octets (F : features) : list N :=
  let v42 := version_4_2 F || version_5_0 F in
  let v50 := version_5_0 F in
  [ 0xFF; 0xFF; 0xFF; 0x03; 0xFE; 0xFF; 0xFF; 0xFF; 0xFF; 0xFF;
    0xFF; 0xFF; 0xF3; 0x0F; 0xE8; 0xFF; 0x3F; 0xF7; 0x8F; 0xFF;
    0x1C; 0xFF; 0xFF; 0xE7; 0x7D; 0xF7; 0xFF; 0xFF; 0x7F; 0xF8;
    0xFF; 0xCF; 0xFF;
    (if v42 then 0xFF else 0x3F);
    (if v42 then 0xFF else 0);
    (if v50 then 0xFF else if v42 then 0x0F else 0);
    (if v50 then 0xFF else 0);
    (if v50 then 0xFF else 0);
    (if v50 then 0xFF else 0);
    (if v50 then 0x07 else 0) ].
Definition command_bit_defined (F : features) (i : N) : bool :=
  match nth_error (command_octets F) (N.to_nat (i / 8)) with
  | Some m => N.testbit m (i mod 8)
  | None => false
  end.

(** The bits of a number, and of an array of octets (bit [i] is bit [i mod 8]
    of octet [i / 8]). *)
Definition array_bit (l : list N) (i : N) : bool :=
  match nth_error l (N.to_nat (i / 8)) with
  | Some b => N.testbit b (i mod 8)
  | None => false
  end.
Definition only_defined (defined : N -> bool) (bit : N -> bool) : Prop :=
  forall i, bit i = true -> defined i = true.

(** ** Opcodes *)
Definition hci_opcode (ogf ocf : N) : N := ogf * 1024 + ocf.

(** ** Return parameters of Command Complete (Vol 2, Part E, 7.7.14 and the
    commands).  [op] is the opcode, [ret] the return parameters. *)
Section ReturnParameters.
Context (F : features) (V : vendor).
Local Notation VS := (VStatus V).

(** A status alone; what follows is ignored by the crate. *)
Definition status_first (s : status VS) (ret : list N) : Prop :=
  exists sb rest, status_byte F V sb s /\ ret = sb :: rest.

(** A status byte followed by [body]. *)
Definition status_then (s : status VS) (body ret : list N) : Prop :=
  exists sb, status_byte F V sb s /\ ret = sb :: body.

Definition wire_return (r : return_parameters V) (op : N) (ret : list N) : Prop :=
  match r with
  | RetSpontaneous => op = 0
  | RetSetEventMask s => op = hci_opcode 0x03 0x001 /\ status_first s ret
  | RetReset s => op = hci_opcode 0x03 0x003 /\ status_first s ret
  | RetReadTxPowerLevel p =>
      op = hci_opcode 0x03 0x02D
      /\ u16 (txp_conn_handle p) /\ is_i8 (txp_dbm p)
      /\ status_then (txp_status p) (le 2 (txp_conn_handle p) ++ [signed (txp_dbm p)]) ret
  | RetReadLocalVersionInformation p =>
      op = hci_opcode 0x04 0x001
      /\ u16 (lvi_hci_revision p) /\ u16 (lvi_manufacturer_name p) /\ u16 (lvi_lmp_subversion p)
      /\ status_then (lvi_status p)
           ([lvi_hci_version p] ++ le 2 (lvi_hci_revision p) ++ [lvi_lmp_version p]
            ++ le 2 (lvi_manufacturer_name p) ++ le 2 (lvi_lmp_subversion p)) ret
  | RetReadLocalSupportedCommands p =>
      op = hci_opcode 0x04 0x002
      /\ length (lsc_commands p) = 64%nat
      /\ only_defined (command_bit_defined F) (array_bit (lsc_commands p))
      /\ status_then (lsc_status p) (lsc_commands p) ret
  | RetReadLocalSupportedFeatures p =>
      op = hci_opcode 0x04 0x003
      /\ exists v, u64 v
         /\ (forall i, N.testbit (lsf_features p) i = (N.testbit v i && lmp_feature_defined i)%bool)
         /\ status_then (lsf_status p) (le 8 v) ret
  | RetReadBdAddr p =>
      op = hci_opcode 0x04 0x009
      /\ length (rba_bd_addr p) = 6%nat
      /\ status_then (rba_status p) (rba_bd_addr p) ret
  | RetReadRssi p =>
      op = hci_opcode 0x05 0x005
      /\ u16 (rssi_conn_handle p) /\ is_i8 (rssi_rssi p)
      /\ status_then (rssi_status p) (le 2 (rssi_conn_handle p) ++ [signed (rssi_rssi p)]) ret
  | RetLeSetEventMask s => op = hci_opcode 0x08 0x001 /\ status_first s ret
  | RetLeReadBufferSize p =>
      op = hci_opcode 0x08 0x002
      /\ u16 (lbs_data_packet_length p)
      /\ status_then (lbs_status p)
           (le 2 (lbs_data_packet_length p) ++ [lbs_data_packet_count p]) ret
  | RetLeReadLocalSupportedFeatures p =>
      op = hci_opcode 0x08 0x003
      /\ exists v, u64 v
         /\ (forall i, N.testbit (lef_features p) i = (N.testbit v i && le_feature_defined F i)%bool)
         /\ status_then (lef_status p) (le 8 v) ret
  | RetLeSetRandomAddress s => op = hci_opcode 0x08 0x005 /\ status_first s ret
  | RetLeSetAdvertisingParameters s => op = hci_opcode 0x08 0x006 /\ status_first s ret
  | RetLeReadAdvertisingChannelTxPower p =>
      op = hci_opcode 0x08 0x007
      /\ is_i8 (lat_power p)
      /\ status_then (lat_status p) [signed (lat_power p)] ret
  | RetLeSetAdvertisingData s => op = hci_opcode 0x08 0x008 /\ status_first s ret
  | RetLeSetScanResponseData s => op = hci_opcode 0x08 0x009 /\ status_first s ret
  | RetLeSetAdvertiseEnable s =>
      version_5_0 F = false /\ op = hci_opcode 0x08 0x00A /\ status_first s ret
  | RetLeSetAdvertisingEnable s =>
      version_5_0 F = true /\ op = hci_opcode 0x08 0x00A /\ status_first s ret
  | RetLeSetScanParameters s => op = hci_opcode 0x08 0x00B /\ status_first s ret
  | RetLeSetScanEnable s => op = hci_opcode 0x08 0x00C /\ status_first s ret
  | RetLeCreateConnectionCancel s => op = hci_opcode 0x08 0x00E /\ status_first s ret
  | RetLeReadWhiteListSize s size =>
      op = hci_opcode 0x08 0x00F
      /\ exists sb rest, status_byte F V sb s /\ ret = sb :: size :: rest
  | RetLeClearWhiteList s => op = hci_opcode 0x08 0x010 /\ status_first s ret
  | RetLeAddDeviceToWhiteList s => op = hci_opcode 0x08 0x011 /\ status_first s ret
  | RetLeRemoveDeviceFromWhiteList s => op = hci_opcode 0x08 0x012 /\ status_first s ret
  | RetLeSetHostChannelClassification s => op = hci_opcode 0x08 0x014 /\ status_first s ret
  | RetLeReadChannelMap p =>
      op = hci_opcode 0x08 0x015
      /\ u16 (cmp_conn_handle p)
      /\ length (cmp_channel_map p) = 5%nat
      /\ only_defined channel_defined (array_bit (cmp_channel_map p))
      /\ status_then (cmp_status p) (le 2 (cmp_conn_handle p) ++ cmp_channel_map p) ret
  | RetLeEncrypt p =>
      op = hci_opcode 0x08 0x017
      /\ length (enc_data p) = 16%nat
      /\ status_then (enc_status p) (enc_data p) ret
  | RetLeRand p =>
      op = hci_opcode 0x08 0x018
      /\ u64 (rnd_number p)
      /\ status_then (rnd_status p) (le 8 (rnd_number p)) ret
  | RetLeLongTermKeyRequestReply p =>
      op = hci_opcode 0x08 0x01A
      /\ u16 (ltkr_conn_handle p)
      /\ status_then (ltkr_status p) (le 2 (ltkr_conn_handle p)) ret
  | RetLeLongTermKeyRequestNegativeReply p =>
      op = hci_opcode 0x08 0x01B
      /\ u16 (ltkr_conn_handle p)
      /\ status_then (ltkr_status p) (le 2 (ltkr_conn_handle p)) ret
  | RetLeReadSupportedStates p =>
      op = hci_opcode 0x08 0x01C
      /\ u64 (lrs_states p)
      /\ only_defined le_state_defined (N.testbit (lrs_states p))
      /\ status_then (lrs_status p) (le 8 (lrs_states p)) ret
  | RetLeReceiverTest s => op = hci_opcode 0x08 0x01D /\ status_first s ret
  | RetLeTransmitterTest s => op = hci_opcode 0x08 0x01E /\ status_first s ret
  | RetLeTestEnd p =>
      op = hci_opcode 0x08 0x01F
      /\ u16 (lte_number_of_packets p)
      /\ status_then (lte_status p) (le 2 (lte_number_of_packets p)) ret
  | RetVendor _ => False
  end.

(** The commands that return a status alone, with the variant that reports it. *)
Definition status_only_variants : list (N * (status VS -> return_parameters V)) :=
  [ (hci_opcode 0x03 0x001, @RetSetEventMask V);
    (hci_opcode 0x03 0x003, @RetReset V);
    (hci_opcode 0x08 0x001, @RetLeSetEventMask V);
    (hci_opcode 0x08 0x005, @RetLeSetRandomAddress V);
    (hci_opcode 0x08 0x006, @RetLeSetAdvertisingParameters V);
    (hci_opcode 0x08 0x008, @RetLeSetAdvertisingData V);
    (hci_opcode 0x08 0x009, @RetLeSetScanResponseData V);
    (hci_opcode 0x08 0x00A, if version_5_0 F then @RetLeSetAdvertisingEnable V
                            else @RetLeSetAdvertiseEnable V);
    (hci_opcode 0x08 0x00B, @RetLeSetScanParameters V);
    (hci_opcode 0x08 0x00C, @RetLeSetScanEnable V);
    (hci_opcode 0x08 0x00E, @RetLeCreateConnectionCancel V);
    (hci_opcode 0x08 0x010, @RetLeClearWhiteList V);
    (hci_opcode 0x08 0x011, @RetLeAddDeviceToWhiteList V);
    (hci_opcode 0x08 0x012, @RetLeRemoveDeviceFromWhiteList V);
    (hci_opcode 0x08 0x014, @RetLeSetHostChannelClassification V);
    (hci_opcode 0x08 0x01D, @RetLeReceiverTest V);
    (hci_opcode 0x08 0x01E, @RetLeTransmitterTest V) ].

End ReturnParameters.

(** ** Iteration *)

(** Calling [next] from state [s] gives the elements of [l] in order, and then
    [None] for ever: the last call leaves the state as it was. *)
Inductive iterates {E St A : Type} (next : St -> outcome E (option A * St))
    : St -> list A -> Prop :=
| iterates_end s : next s = Ok (None, s) -> iterates next s []
| iterates_next s x s' l :
    next s = Ok (Some x, s') -> iterates next s' l -> iterates next s (x :: l).

(** ** Number Of Completed Packets *)
Definition pair_bytes (p : completed_packets_pair) : list N :=
  le 2 (cpp_conn_handle p) ++ le 2 (cpp_num_completed_packets p).
Definition pair_ok (p : completed_packets_pair) : Prop :=
  u16 (cpp_conn_handle p) /\ u16 (cpp_num_completed_packets p).

(** ** LE Advertising Report: one report.  RSSI 127 means "not available". *)
Definition rssi_byte (r : option Z) : N :=
  match r with Some z => signed z | None => 127 end.
Definition advertisement_bytes (a : le_advertisement) : list N :=
  [advertisement_event_code (la_event_type a)]
  ++ address_bytes (la_address a)
  ++ [N.of_nat (length (la_data a))]
  ++ la_data a
  ++ [rssi_byte (la_rssi a)].
Definition advertisement_ok (a : le_advertisement) : Prop :=
  address_ok (la_address a)
  /\ match la_rssi a with Some z => is_i8 z /\ z <> 127%Z | None => True end.
