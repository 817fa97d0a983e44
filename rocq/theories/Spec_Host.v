(** * Commands on the wire (specification).

    Written from the Bluetooth specification (Vol 2, Part E, 5.4.1 and 7) and
    the documentation of the methods of trait [Hci].  Nothing here uses the
    model's encoders. *)
From Verif Require Import Base Model_Types Model_Bitflags Model_Intervals Model_EventBase
  Model_Command Model_Event Model_Host Spec_Wire Spec_Interval Spec_Flags.

(** ** Headers: the opcode and the length of the parameters *)
Definition uart_header_bytes (op : N) (n : nat) : list N := [0x01] ++ le 2 op ++ [N.of_nat n].
Definition cmd_link_header_bytes (op : N) (n : nat) : list N := le 2 op ++ [N.of_nat n].
Definition no_commands_header_bytes (op : N) (n : nat) : list N := [0; 0; 0].
Definition header_formats : list (hci_header * (N -> nat -> list N)) :=
  [ (uart_header, uart_header_bytes);
    (cmd_link_header, cmd_link_header_bytes);
    (no_commands_header, no_commands_header_bytes) ].

(** ** Codes of arguments *)
Definition tx_power_level_code (t : tx_power_level_type) : N :=
  match t with Current => 0 | Maximum => 1 end.
Definition own_address_code (t : own_address_type) : N :=
  match t with
  | OwnPublic => 0 | OwnRandom => 1 | PrivateFallbackPublic => 2 | PrivateFallbackRandom => 3
  end.
Definition advertising_filter_code (p : advertising_filter_policy) : N :=
  match p with
  | AllowConnectionAndScan => 0          (* scan any, connect any *)
  | AllowConnectionWhiteListScan => 1    (* scan white list, connect any *)
  | WhiteListConnectionAllowScan => 2    (* scan any, connect white list *)
  | WhiteListConnectionAndScan => 3
  end.
Definition scan_type_code (t : scan_type) : N := match t with Passive => 0 | Active => 1 end.
Definition scan_filter_code (p : scan_filter_policy) : N :=
  match p with
  | AcceptAll => 0 | ScanWhiteList => 1 | AddressedToThisDevice => 2
  | WhiteListAddressedToThisDevice => 3
  end.
Definition initiator_filter_code (p : connection_filter_policy) : N :=
  match p with UseAddress => 0 | UseWhiteList => 1 end.
Definition peer_address_bytes (p : peer_addr_type) : list N :=
  match p with
  | PublicDeviceAddress a => 0 :: a
  | RandomDeviceAddress a => 1 :: a
  | PublicIdentityAddress a => 2 :: a
  | RandomIdentityAddress a => 3 :: a
  end.
Definition test_payload_code (p : test_packet_payload) : N :=
  match p with
  | PrbS9 => 0 | Nibbles10 => 1 | Bits10 => 2 | PrbS15 => 3
  | All1 => 4 | All0 => 5 | Nibbles01 => 6 | Bits01 => 7
  end.

(** The reasons allowed for a disconnection, with their codes. *)
Definition disconnect_reason {VS} (s : status VS) : option N :=
  match s with
  | AuthFailure => Some 0x05
  | RemoteTerminationByUser => Some 0x13
  | RemoteTerminationLowResources => Some 0x14
  | RemoteTerminationPowerOff => Some 0x15
  | UnsupportedRemoteFeature => Some 0x1A
  | PairingWithUnitKeyNotSupported => Some 0x29
  | UnacceptableConnectionParameters => Some 0x3B
  | _ => None
  end.

(** ** Random device addresses (Vol 6, Part B, 1.3.2): the two most significant
    bits give the kind, 00 and 11 with 46 random bits, 10 with 22 (the other 24
    are a hash).  The random bits must not be all equal. *)
Definition random_part (a : bd_addr) : option (list N) :=
  match array_bit a 47, array_bit a 46 with
  | false, false | true, true => Some (map N.of_nat (seq 0 46))
  | true, false => Some (map N.of_nat (seq 24 22))
  | false, true => None
  end.
Definition valid_random_address (a : bd_addr) : bool :=
  match random_part a with
  | Some positions =>
      existsb (array_bit a) positions && existsb (fun i => negb (array_bit a i)) positions
  | None => false
  end.

Section Commands.
Context {V : vendor} {E : Type}.
Local Notation VS := (VStatus V).

(** ** Opcode group and command *)
Definition command_code (c : command V) : N * N :=
  match c with
  | CDisconnect _ _ => (0x01, 0x006)
  | CReadRemoteVersionInformation _ => (0x01, 0x01D)
  | CSetEventMask _ => (0x03, 0x001)
  | CReset => (0x03, 0x003)
  | CReadTxPowerLevel _ _ => (0x03, 0x02D)
  | CReadLocalVersionInformation => (0x04, 0x001)
  | CReadLocalSupportedCommands => (0x04, 0x002)
  | CReadLocalSupportedFeatures => (0x04, 0x003)
  | CReadBdAddr => (0x04, 0x009)
  | CReadRssi _ => (0x05, 0x005)
  | CLeSetEventMask _ => (0x08, 0x001)
  | CLeReadBufferSize => (0x08, 0x002)
  | CLeReadLocalSupportedFeatures => (0x08, 0x003)
  | CLeSetRandomAddress _ => (0x08, 0x005)
  | CLeSetAdvertisingParameters _ => (0x08, 0x006)
  | CLeReadAdvertisingChannelTxPower => (0x08, 0x007)
  | CLeSetAdvertisingData _ => (0x08, 0x008)
  | CLeSetScanResponseData _ => (0x08, 0x009)
  | CLeSetAdvertiseEnable _ => (0x08, 0x00A)
  | CLeSetAdvertisingEnable _ => (0x08, 0x00A)
  | CLeSetScanParameters _ => (0x08, 0x00B)
  | CLeSetScanEnable _ _ => (0x08, 0x00C)
  | CLeCreateConnection _ => (0x08, 0x00D)
  | CLeCreateConnectionCancel => (0x08, 0x00E)
  | CLeReadWhiteListSize => (0x08, 0x00F)
  | CLeClearWhiteList => (0x08, 0x010)
  | CLeAddDeviceToWhiteList _ => (0x08, 0x011)
  | CLeAddAnonAdvertisingDevicesToWhiteList => (0x08, 0x011)
  | CLeRemoveDeviceFromWhiteList _ => (0x08, 0x012)
  | CLeRemoveAnonAdvertisingDevicesFromWhiteList => (0x08, 0x012)
  | CLeConnectionUpdate _ => (0x08, 0x013)
  | CLeSetHostChannelClassification _ => (0x08, 0x014)
  | CLeReadChannelMap _ => (0x08, 0x015)
  | CLeReadRemoteUsedFeatures _ => (0x08, 0x016)
  | CLeEncrypt _ => (0x08, 0x017)
  | CLeRand => (0x08, 0x018)
  | CLeStartEncryption _ => (0x08, 0x019)
  | CLeLongTermKeyRequestReply _ _ => (0x08, 0x01A)
  | CLeLongTermKeyRequestNegativeReply _ => (0x08, 0x01B)
  | CLeReadSupportedStates => (0x08, 0x01C)
  | CLeReceiverTest _ => (0x08, 0x01D)
  | CLeTransmitterTest _ _ _ => (0x08, 0x01E)
  | CLeTestEnd => (0x08, 0x01F)
  end.
Definition command_opcode (c : command V) : N :=
  hci_opcode (fst (command_code c)) (snd (command_code c)).

(** ** Parameters *)
Definition outbound_data (data : list N) : list N :=
  [N.of_nat (length data)] ++ data ++ repeat 0 (31 - length data).
Definition command_params (c : command V) : list N :=
  match c with
  | CDisconnect h reason =>
      le 2 h ++ match disconnect_reason reason with Some b => [b] | None => [] end
  | CReadRemoteVersionInformation h => le 2 h
  | CSetEventMask mask => le 8 mask
  | CReadTxPowerLevel h t => le 2 h ++ [tx_power_level_code t]
  | CReadRssi h => le 2 h
  | CLeSetEventMask mask => le 8 mask
  | CLeSetRandomAddress a => a
  | CLeSetAdvertisingParameters p =>
      advertising_interval_bytes (ap_interval p) ++ [own_address_code (ap_own_address_type p)]
      ++ address_bytes (ap_peer_address p) ++ [ap_channel_map p]
      ++ [advertising_filter_code (ap_filter_policy p)]
  | CLeSetAdvertisingData data => outbound_data data
  | CLeSetScanResponseData data => outbound_data data
  | CLeSetAdvertiseEnable enable => [flag enable]
  | CLeSetAdvertisingEnable enable => [flag enable]
  | CLeSetScanParameters p =>
      [scan_type_code (sp_scan_type p)] ++ scan_window_bytes (sp_scan_window p)
      ++ [own_address_code (sp_own_address_type p)] ++ [scan_filter_code (sp_filter_policy p)]
  | CLeSetScanEnable enable filter_duplicates => [flag enable; flag filter_duplicates]
  | CLeCreateConnection p =>
      scan_window_bytes (cp_scan_window p)
      ++ [initiator_filter_code (cp_initiator_filter_policy p)]
      ++ match cp_initiator_filter_policy p with
         | UseAddress => peer_address_bytes (cp_peer_address p)
         | UseWhiteList => repeat 0 7
         end
      ++ [own_address_code (cp_own_address_type p)]
      ++ conn_interval_bytes (cp_conn_interval p)
      ++ expected_length_bytes (cp_expected_connection_length p)
  | CLeAddDeviceToWhiteList a => address_bytes a
  | CLeAddAnonAdvertisingDevicesToWhiteList => 0xFF :: repeat 0 6
  | CLeRemoveDeviceFromWhiteList a => address_bytes a
  | CLeRemoveAnonAdvertisingDevicesFromWhiteList => 0xFF :: repeat 0 6
  | CLeConnectionUpdate p =>
      le 2 (cu_conn_handle p) ++ conn_interval_bytes (cu_conn_interval p)
      ++ expected_length_bytes (cu_expected_connection_length p)
  | CLeSetHostChannelClassification channels => channels
  | CLeReadChannelMap h => le 2 h
  | CLeReadRemoteUsedFeatures h => le 2 h
  | CLeEncrypt p => aes_key p ++ aes_plaintext_data p
  | CLeStartEncryption p =>
      le 2 (enc_conn_handle p) ++ le 8 (enc_random_number p)
      ++ le 2 (enc_encrypted_diversifier p) ++ enc_long_term_key p
  | CLeLongTermKeyRequestReply h key => le 2 h ++ key
  | CLeLongTermKeyRequestNegativeReply h => le 2 h
  | CLeReceiverTest channel => [channel]
  | CLeTransmitterTest channel n payload => [channel; n; test_payload_code payload]
  | _ => []
  end.

(** ** What the argument types allow *)
Definition bd_addr_typed (a : bd_addr) : Prop := length a = 6%nat /\ bytes a.
Definition address_typed (a : bd_addr_type) : Prop :=
  match a with BdPublic x | BdRandom x => bd_addr_typed x end.
Definition peer_typed (a : peer_addr_type) : Prop :=
  match a with
  | PublicDeviceAddress x | RandomDeviceAddress x
  | PublicIdentityAddress x | RandomIdentityAddress x => bd_addr_typed x
  end.
Definition key_typed (k : list N) : Prop := length k = 16%nat /\ bytes k.
Definition arguments_typed (F : features) (c : command V) : Prop :=
  match c with
  | CDisconnect h _ => u16 h
  | CReadRemoteVersionInformation h | CReadTxPowerLevel h _ | CReadRssi h
  | CLeReadChannelMap h | CLeReadRemoteUsedFeatures h
  | CLeLongTermKeyRequestNegativeReply h => u16 h
  | CSetEventMask mask => u64 mask
  | CLeSetEventMask mask => u64 mask
  | CLeSetRandomAddress a => bd_addr_typed a
  | CLeSetAdvertisingParameters p =>
      ai_reachable F (ap_interval p) /\ own_address_type_exists F (ap_own_address_type p) = true
      /\ address_typed (ap_peer_address p) /\ ap_channel_map p <= 7
  | CLeSetAdvertisingData data => bytes data
  | CLeSetScanResponseData data => bytes data
  | CLeSetScanParameters p =>
      sw_reachable (sp_scan_window p) /\ own_address_type_exists F (sp_own_address_type p) = true
      /\ scan_filter_policy_exists F (sp_filter_policy p) = true
  | CLeCreateConnection p =>
      sw_reachable (cp_scan_window p) /\ peer_typed (cp_peer_address p)
      /\ peer_addr_type_exists F (cp_peer_address p) = true
      /\ own_address_type_exists F (cp_own_address_type p) = true
      /\ ci_reachable (cp_conn_interval p) /\ ecl_reachable (cp_expected_connection_length p)
  | CLeAddDeviceToWhiteList a => address_typed a
  | CLeRemoveDeviceFromWhiteList a => address_typed a
  | CLeConnectionUpdate p =>
      u16 (cu_conn_handle p) /\ ci_reachable (cu_conn_interval p)
      /\ ecl_reachable (cu_expected_connection_length p)
  | CLeSetHostChannelClassification channels => obtainable F channel_table channels
  | CLeEncrypt p => key_typed (aes_key p) /\ key_typed (aes_plaintext_data p)
  | CLeStartEncryption p =>
      u16 (enc_conn_handle p) /\ u64 (enc_random_number p)
      /\ u16 (enc_encrypted_diversifier p) /\ key_typed (enc_long_term_key p)
  | CLeLongTermKeyRequestReply h key => u16 h /\ key_typed key
  | CLeReceiverTest channel => byte channel
  | CLeTransmitterTest channel n _ => byte channel /\ u64 n
  | _ => True
  end.

(** ** Documented rejections *)
Definition rejection (c : command V) : option (host_error E VS) :=
  match c with
  | CDisconnect _ reason =>
      match disconnect_reason reason with
      | Some _ => None
      | None => Some (HBadDisconnectionReason reason)
      end
  | CLeSetRandomAddress a =>
      if valid_random_address a then None else Some (HBadRandomAddress a)
  | CLeSetAdvertisingParameters p =>
      if ap_channel_map p =? 0 then Some (HBadChannelMap (ap_channel_map p)) else None
  | CLeSetAdvertisingData data | CLeSetScanResponseData data =>
      if Nat.leb (length data) 31 then None else Some (HAdvertisingDataTooLong (length data))
  | CLeSetHostChannelClassification channels =>
      if existsb (array_bit channels) (map N.of_nat (seq 0 37)) then None else Some HNoValidChannel
  | CLeReceiverTest channel =>
      if channel <=? 0x27 then None else Some (HInvalidTestChannel channel)
  | CLeTransmitterTest channel n _ =>
      if channel <=? 0x27 then if n <=? 0x25 then None else Some (HInvalidTestPayloadLength n)
      else Some (HInvalidTestChannel channel)
  | _ => None
  end.

(** ** The result of a call *)

(** The methods that report errors of their own. *)
Definition has_own_errors (c : command V) : bool :=
  match c with
  | CDisconnect _ _ | CLeSetRandomAddress _ | CLeSetAdvertisingParameters _
  | CLeSetAdvertisingData _ | CLeSetScanResponseData _ | CLeSetHostChannelClassification _
  | CLeReceiverTest _ | CLeTransmitterTest _ _ _ => true
  | _ => false
  end.

(** How a method reports the outcome of the write. *)
Definition reported (c : command V) (r : outcome (nb_error E) unit) : method_result V E :=
  if has_own_errors c then
    Checked (match r with
             | Ok tt => Ok tt
             | Err WouldBlock => Err WouldBlock
             | Err (Other e) => Err (Other (HComm e))
             | Panic => Panic
             end)
  else Plain r.

(** A call either rejects its arguments, or does one write and reports its
    outcome. *)
Definition expected_call {St} (header : N -> nat -> list N) (C : controller St E)
    (c : command V) (s : St) : St * method_result V E :=
  match rejection c with
  | Some e => (s, Checked (Err (Other e)))
  | None =>
      let (s', r) := ctl_write C s (header (command_opcode c) (length (command_params c)))
                               (command_params c) in
      (s', reported c r)
  end.
End Commands.

(** ** The Bluetooth command behind a method

    Section 7 of Vol 2, Part E, as the documentation of each method cites it. *)
Definition command_section {V} (c : command V) : N * N :=
  match c with
  | CDisconnect _ _ => (1, 6)
  | CReadRemoteVersionInformation _ => (1, 23)
  | CSetEventMask _ => (3, 1)
  | CReset => (3, 2)
  | CReadTxPowerLevel _ _ => (3, 35)
  | CReadLocalVersionInformation => (4, 1)
  | CReadLocalSupportedCommands => (4, 2)
  | CReadLocalSupportedFeatures => (4, 3)
  | CReadBdAddr => (4, 6)
  | CReadRssi _ => (5, 4)
  | CLeSetEventMask _ => (8, 1)
  | CLeReadBufferSize => (8, 2)
  | CLeReadLocalSupportedFeatures => (8, 3)
  | CLeSetRandomAddress _ => (8, 4)
  | CLeSetAdvertisingParameters _ => (8, 5)
  | CLeReadAdvertisingChannelTxPower => (8, 6)
  | CLeSetAdvertisingData _ => (8, 7)
  | CLeSetScanResponseData _ => (8, 8)
  | CLeSetAdvertiseEnable _ => (8, 9)
  | CLeSetAdvertisingEnable _ => (8, 9)
  | CLeSetScanParameters _ => (8, 10)
  | CLeSetScanEnable _ _ => (8, 11)
  | CLeCreateConnection _ => (8, 12)
  | CLeCreateConnectionCancel => (8, 13)
  | CLeReadWhiteListSize => (8, 14)
  | CLeClearWhiteList => (8, 15)
  | CLeAddDeviceToWhiteList _ => (8, 16)
  | CLeAddAnonAdvertisingDevicesToWhiteList => (8, 16)
  | CLeRemoveDeviceFromWhiteList _ => (8, 17)
  | CLeRemoveAnonAdvertisingDevicesFromWhiteList => (8, 17)
  | CLeConnectionUpdate _ => (8, 18)
  | CLeSetHostChannelClassification _ => (8, 19)
  | CLeReadChannelMap _ => (8, 20)
  | CLeReadRemoteUsedFeatures _ => (8, 21)
  | CLeEncrypt _ => (8, 22)
  | CLeRand => (8, 23)
  | CLeStartEncryption _ => (8, 24)
  | CLeLongTermKeyRequestReply _ _ => (8, 25)
  | CLeLongTermKeyRequestNegativeReply _ => (8, 26)
  | CLeReadSupportedStates => (8, 27)
  | CLeReceiverTest _ => (8, 28)
  | CLeTransmitterTest _ _ _ => (8, 29)
  | CLeTestEnd => (8, 30)
  end.

(** The variant of the return parameters documented for a command ("A Command
    Complete event is generated").  [None]: the documentation says that no
    Command Complete is sent. *)
Definition answers {V} (c : command V) : option (return_parameters V -> Prop) :=
  match c with
  | CDisconnect _ _ | CReadRemoteVersionInformation _ | CLeCreateConnection _
  | CLeConnectionUpdate _ | CLeReadRemoteUsedFeatures _ | CLeStartEncryption _ => None
  | CSetEventMask _ => Some (fun r => exists s, r = RetSetEventMask s)
  | CReset => Some (fun r => exists s, r = RetReset s)
  | CReadTxPowerLevel _ _ => Some (fun r => exists p, r = RetReadTxPowerLevel p)
  | CReadLocalVersionInformation => Some (fun r => exists p, r = RetReadLocalVersionInformation p)
  | CReadLocalSupportedCommands => Some (fun r => exists p, r = RetReadLocalSupportedCommands p)
  | CReadLocalSupportedFeatures => Some (fun r => exists p, r = RetReadLocalSupportedFeatures p)
  | CReadBdAddr => Some (fun r => exists p, r = RetReadBdAddr p)
  | CReadRssi _ => Some (fun r => exists p, r = RetReadRssi p)
  | CLeSetEventMask _ => Some (fun r => exists s, r = RetLeSetEventMask s)
  | CLeReadBufferSize => Some (fun r => exists p, r = RetLeReadBufferSize p)
  | CLeReadLocalSupportedFeatures => Some (fun r => exists p, r = RetLeReadLocalSupportedFeatures p)
  | CLeSetRandomAddress _ => Some (fun r => exists s, r = RetLeSetRandomAddress s)
  | CLeSetAdvertisingParameters _ => Some (fun r => exists s, r = RetLeSetAdvertisingParameters s)
  | CLeReadAdvertisingChannelTxPower =>
      Some (fun r => exists p, r = RetLeReadAdvertisingChannelTxPower p)
  | CLeSetAdvertisingData _ => Some (fun r => exists s, r = RetLeSetAdvertisingData s)
  | CLeSetScanResponseData _ => Some (fun r => exists s, r = RetLeSetScanResponseData s)
  | CLeSetAdvertiseEnable _ => Some (fun r => exists s, r = RetLeSetAdvertiseEnable s)
  | CLeSetAdvertisingEnable _ => Some (fun r => exists s, r = RetLeSetAdvertisingEnable s)
  | CLeSetScanParameters _ => Some (fun r => exists s, r = RetLeSetScanParameters s)
  | CLeSetScanEnable _ _ => Some (fun r => exists s, r = RetLeSetScanEnable s)
  | CLeCreateConnectionCancel => Some (fun r => exists s, r = RetLeCreateConnectionCancel s)
  | CLeReadWhiteListSize => Some (fun r => exists s n, r = RetLeReadWhiteListSize s n)
  | CLeClearWhiteList => Some (fun r => exists s, r = RetLeClearWhiteList s)
  | CLeAddDeviceToWhiteList _ | CLeAddAnonAdvertisingDevicesToWhiteList =>
      Some (fun r => exists s, r = RetLeAddDeviceToWhiteList s)
  | CLeRemoveDeviceFromWhiteList _ | CLeRemoveAnonAdvertisingDevicesFromWhiteList =>
      Some (fun r => exists s, r = RetLeRemoveDeviceFromWhiteList s)
  | CLeSetHostChannelClassification _ =>
      Some (fun r => exists s, r = RetLeSetHostChannelClassification s)
  | CLeReadChannelMap _ => Some (fun r => exists p, r = RetLeReadChannelMap p)
  | CLeEncrypt _ => Some (fun r => exists p, r = RetLeEncrypt p)
  | CLeRand => Some (fun r => exists p, r = RetLeRand p)
  | CLeLongTermKeyRequestReply _ _ => Some (fun r => exists p, r = RetLeLongTermKeyRequestReply p)
  | CLeLongTermKeyRequestNegativeReply _ =>
      Some (fun r => exists p, r = RetLeLongTermKeyRequestNegativeReply p)
  | CLeReadSupportedStates => Some (fun r => exists p, r = RetLeReadSupportedStates p)
  | CLeReceiverTest _ => Some (fun r => exists s, r = RetLeReceiverTest s)
  | CLeTransmitterTest _ _ _ => Some (fun r => exists s, r = RetLeTransmitterTest s)
  | CLeTestEnd => Some (fun r => exists p, r = RetLeTestEnd p)
  end.

(** ** What leaves the host *)

(** A controller that accepts everything and records the writes. *)
Definition recorder : controller (list (list N * list N)) unit :=
  {| ctl_write := fun s header payload => (s ++ [(header, payload)], Ok tt);
     ctl_read_into := fun s _ => (s, Err WouldBlock);
     ctl_peek := fun s _ => (s, Err WouldBlock) |}.
Definition sent F V H (c : command V) : list (list N * list N) :=
  fst (run_command F V H recorder c []).

(** A controller that takes a write, is not ready for it or fails, as the list
    says (it fails for ever at the end of the list); with the bytes it took. *)
Inductive readiness := Ready | Busy | Broken (code : N).
Definition unreliable : controller (list N * list readiness) N :=
  {| ctl_write := fun s header payload =>
       match s with
       | (taken, Ready :: later) => ((taken ++ header ++ payload, later), Ok tt)
       | (taken, Busy :: later) => ((taken, later), Err WouldBlock)
       | (taken, Broken code :: later) => ((taken, later), Err (Other code))
       | (taken, []) => ((taken, []), Err (Other 0))
       end;
     ctl_read_into := fun s _ => (s, Err WouldBlock);
     ctl_peek := fun s _ => (s, Err WouldBlock) |}.

(** A sequence of calls, with their results. *)
Fixpoint run_calls {St E} F V H (C : controller St E) (cs : list (command V)) (s : St)
    : St * list (method_result V E) :=
  match cs with
  | [] => (s, [])
  | c :: cs =>
      let (s, r) := run_command F V H C c s in
      let (s, rs) := run_calls F V H C cs s in
      (s, r :: rs)
  end.
Definition succeeded {V E} (r : method_result V E) : bool :=
  match r with Plain (Ok _) | Checked (Ok _) => true | _ => false end.
Definition successes {V E} (cs : list (command V)) (rs : list (method_result V E))
    : list (command V) :=
  map fst (filter (fun cr => succeeded (snd cr)) (combine cs rs)).

(** A UART command parser: packets [01, opcode, length, parameters]. *)
Fixpoint parse_packets (fuel : nat) (l : list N) : option (list (N * list N)) :=
  match fuel, l with
  | _, [] => Some []
  | S fuel, t :: lo :: hi :: n :: rest =>
      if negb (t =? 1) || (N.of_nat (length rest) <? n) then None else
      match parse_packets fuel (skipn (N.to_nat n) rest) with
      | Some more => Some ((lo + 256 * hi, firstn (N.to_nat n) rest) :: more)
      | None => None
      end
  | _, _ => None
  end.
Definition parse_commands (l : list N) : option (list (N * list N)) := parse_packets (length l) l.

(** Two calls that differ at most in what is not sent: durations are sent in
    whole units, and the peer address only if it is used. *)
Definition same_on_wire {V} (c c' : command V) : Prop :=
  match c, c' with
  | CLeSetAdvertisingParameters p, CLeSetAdvertisingParameters q =>
      advertising_interval_bytes (ap_interval p) = advertising_interval_bytes (ap_interval q)
      /\ ap_own_address_type p = ap_own_address_type q
      /\ ap_peer_address p = ap_peer_address q
      /\ ap_channel_map p = ap_channel_map q
      /\ ap_filter_policy p = ap_filter_policy q
  | CLeSetScanParameters p, CLeSetScanParameters q =>
      sp_scan_type p = sp_scan_type q
      /\ scan_window_bytes (sp_scan_window p) = scan_window_bytes (sp_scan_window q)
      /\ sp_own_address_type p = sp_own_address_type q
      /\ sp_filter_policy p = sp_filter_policy q
  | CLeCreateConnection p, CLeCreateConnection q =>
      scan_window_bytes (cp_scan_window p) = scan_window_bytes (cp_scan_window q)
      /\ cp_initiator_filter_policy p = cp_initiator_filter_policy q
      /\ (cp_initiator_filter_policy p = UseAddress -> cp_peer_address p = cp_peer_address q)
      /\ cp_own_address_type p = cp_own_address_type q
      /\ conn_interval_bytes (cp_conn_interval p) = conn_interval_bytes (cp_conn_interval q)
      /\ expected_length_bytes (cp_expected_connection_length p)
         = expected_length_bytes (cp_expected_connection_length q)
  | CLeConnectionUpdate p, CLeConnectionUpdate q =>
      cu_conn_handle p = cu_conn_handle q
      /\ conn_interval_bytes (cu_conn_interval p) = conn_interval_bytes (cu_conn_interval q)
      /\ expected_length_bytes (cu_expected_connection_length p)
         = expected_length_bytes (cu_expected_connection_length q)
  | _, _ => c = c'
  end.
