(** * Command Complete (src/event/command.rs). *)
From Verif Require Import Base Model_Types Model_Bitflags Model_Intervals Model_EventBase.

(** The return-parameter structs.  [VS] is the vendor status type. *)

(** src/event/command.rs:335-346, [struct TxPowerLevel]. *)
Record tx_power_level (VS : Type) := Build_tx_power_level {
  txp_status : status VS;
  txp_conn_handle : conn_handle;
  txp_dbm : Z
}.
Arguments Build_tx_power_level {VS}.
Arguments txp_status {VS}.
Arguments txp_conn_handle {VS}.
Arguments txp_dbm {VS}.

(** src/event/command.rs:363-393, [struct LocalVersionInfo]. *)
Record local_version_info (VS : Type) := Build_local_version_info {
  lvi_status : status VS;
  lvi_hci_version : N;
  lvi_hci_revision : N;
  lvi_lmp_version : N;
  lvi_manufacturer_name : N;
  lvi_lmp_subversion : N
}.
Arguments Build_local_version_info {VS}.
Arguments lvi_status {VS}.
Arguments lvi_hci_version {VS}.
Arguments lvi_hci_revision {VS}.
Arguments lvi_lmp_version {VS}.
Arguments lvi_manufacturer_name {VS}.
Arguments lvi_lmp_subversion {VS}.

(** src/event/command.rs:416-422, [struct LocalSupportedCommands]. *)
Record local_supported_commands (VS : Type) := Build_local_supported_commands {
  lsc_status : status VS;
  lsc_commands : list N
}.
Arguments Build_local_supported_commands {VS}.
Arguments lsc_status {VS}.
Arguments lsc_commands {VS}.

(** src/event/command.rs:1081-1087, [struct LocalSupportedFeatures]; the bits of [LmpFeatures]. *)
Record local_supported_features (VS : Type) := Build_local_supported_features {
  lsf_status : status VS;
  lsf_features : N
}.
Arguments Build_local_supported_features {VS}.
Arguments lsf_status {VS}.
Arguments lsf_features {VS}.

(** src/event/command.rs:1220-1226, [struct ReadBdAddr]. *)
Record read_bd_addr_params (VS : Type) := Build_read_bd_addr_params {
  rba_status : status VS;
  rba_bd_addr : bd_addr
}.
Arguments Build_read_bd_addr_params {VS}.
Arguments rba_status {VS}.
Arguments rba_bd_addr {VS}.

(** src/event/command.rs:1243-1264, [struct ReadRssi]. *)
Record read_rssi_params (VS : Type) := Build_read_rssi_params {
  rssi_status : status VS;
  rssi_conn_handle : conn_handle;
  rssi_rssi : Z
}.
Arguments Build_read_rssi_params {VS}.
Arguments rssi_status {VS}.
Arguments rssi_conn_handle {VS}.
Arguments rssi_rssi {VS}.

(** src/event/command.rs:1280-1302, [struct LeReadBufferSize]. *)
Record le_read_buffer_size_params (VS : Type) := Build_le_read_buffer_size_params {
  lbs_status : status VS;
  lbs_data_packet_length : N;
  lbs_data_packet_count : N
}.
Arguments Build_le_read_buffer_size_params {VS}.
Arguments lbs_status {VS}.
Arguments lbs_data_packet_length {VS}.
Arguments lbs_data_packet_count {VS}.

(** src/event/command.rs:1321-1327, [struct LeSupportedFeatures]; the bits of [LeFeatures]. *)
Record le_supported_features (VS : Type) := Build_le_supported_features {
  lef_status : status VS;
  lef_features : N
}.
Arguments Build_le_supported_features {VS}.
Arguments lef_status {VS}.
Arguments lef_features {VS}.

(** src/event/command.rs:1400-1408, [struct LeAdvertisingChannelTxPower]. *)
Record le_advertising_channel_tx_power (VS : Type) := Build_le_advertising_channel_tx_power {
  lat_status : status VS;
  lat_power : Z
}.
Arguments Build_le_advertising_channel_tx_power {VS}.
Arguments lat_status {VS}.
Arguments lat_power {VS}.

(** src/event/command.rs:1441-1450, [struct ChannelMapParameters]. *)
Record channel_map_parameters (VS : Type) := Build_channel_map_parameters {
  cmp_status : status VS;
  cmp_conn_handle : conn_handle;
  cmp_channel_map : list N
}.
Arguments Build_channel_map_parameters {VS}.
Arguments cmp_status {VS}.
Arguments cmp_conn_handle {VS}.
Arguments cmp_channel_map {VS}.

(** src/event/command.rs:1473-1488, [struct EncryptedReturnParameters]. *)
Record encrypted_return_parameters (VS : Type) := Build_encrypted_return_parameters {
  enc_status : status VS;
  enc_data : list N
}.
Arguments Build_encrypted_return_parameters {VS}.
Arguments enc_status {VS}.
Arguments enc_data {VS}.

(** src/event/command.rs:1514-1520, [struct LeRandom]. *)
Record le_random (VS : Type) := Build_le_random {
  rnd_status : status VS;
  rnd_number : N
}.
Arguments Build_le_random {VS}.
Arguments rnd_status {VS}.
Arguments rnd_number {VS}.

(** src/event/command.rs:1537-1543, [struct LeLongTermRequestReply]. *)
Record le_ltk_request_reply (VS : Type) := Build_le_ltk_request_reply {
  ltkr_status : status VS;
  ltkr_conn_handle : conn_handle
}.
Arguments Build_le_ltk_request_reply {VS}.
Arguments ltkr_status {VS}.
Arguments ltkr_conn_handle {VS}.

(** src/event/command.rs:1562-1569, [struct LeReadSupportedStates]; the bits of [LeStates]. *)
Record le_read_supported_states_params (VS : Type) := Build_le_read_supported_states_params {
  lrs_status : status VS;
  lrs_states : N
}.
Arguments Build_le_read_supported_states_params {VS}.
Arguments lrs_status {VS}.
Arguments lrs_states {VS}.

(** src/event/command.rs:1680-1687, [struct LeTestEnd]; [number_of_packets : usize] is kept as [N]. *)
Record le_test_end_params (VS : Type) := Build_le_test_end_params {
  lte_status : status VS;
  lte_number_of_packets : N
}.
Arguments Build_le_test_end_params {VS}.
Arguments lte_status {VS}.
Arguments lte_number_of_packets {VS}.

(** src/event/command.rs:184-323, [enum ReturnParameters].  Constructors are
    prefixed with [Ret].  [RetLeSetAdvertiseEnable] exists only without and
    [RetLeSetAdvertisingEnable] only with [version-5-0] (lines 252-258).  The
    [usize] of [RetLeReadWhiteListSize] is kept as [N]. *)
Inductive return_parameters (V : vendor) : Type :=
| RetSpontaneous
| RetSetEventMask (s : status (VStatus V))
| RetReset (s : status (VStatus V))
| RetReadTxPowerLevel (p : tx_power_level (VStatus V))
| RetReadLocalVersionInformation (p : local_version_info (VStatus V))
| RetReadLocalSupportedCommands (p : local_supported_commands (VStatus V))
| RetReadLocalSupportedFeatures (p : local_supported_features (VStatus V))
| RetReadBdAddr (p : read_bd_addr_params (VStatus V))
| RetReadRssi (p : read_rssi_params (VStatus V))
| RetLeSetEventMask (s : status (VStatus V))
| RetLeReadBufferSize (p : le_read_buffer_size_params (VStatus V))
| RetLeReadLocalSupportedFeatures (p : le_supported_features (VStatus V))
| RetLeSetRandomAddress (s : status (VStatus V))
| RetLeSetAdvertisingParameters (s : status (VStatus V))
| RetLeReadAdvertisingChannelTxPower (p : le_advertising_channel_tx_power (VStatus V))
| RetLeSetAdvertisingData (s : status (VStatus V))
| RetLeSetScanResponseData (s : status (VStatus V))
| RetLeSetAdvertiseEnable (s : status (VStatus V))
| RetLeSetAdvertisingEnable (s : status (VStatus V))
| RetLeSetScanParameters (s : status (VStatus V))
| RetLeSetScanEnable (s : status (VStatus V))
| RetLeCreateConnectionCancel (s : status (VStatus V))
| RetLeReadWhiteListSize (s : status (VStatus V)) (size : N)
| RetLeClearWhiteList (s : status (VStatus V))
| RetLeAddDeviceToWhiteList (s : status (VStatus V))
| RetLeRemoveDeviceFromWhiteList (s : status (VStatus V))
| RetLeSetHostChannelClassification (s : status (VStatus V))
| RetLeReadChannelMap (p : channel_map_parameters (VStatus V))
| RetLeEncrypt (p : encrypted_return_parameters (VStatus V))
| RetLeRand (p : le_random (VStatus V))
| RetLeLongTermKeyRequestReply (p : le_ltk_request_reply (VStatus V))
| RetLeLongTermKeyRequestNegativeReply (p : le_ltk_request_reply (VStatus V))
| RetLeReadSupportedStates (p : le_read_supported_states_params (VStatus V))
| RetLeReceiverTest (s : status (VStatus V))
| RetLeTransmitterTest (s : status (VStatus V))
| RetLeTestEnd (p : le_test_end_params (VStatus V))
| RetVendor (r : VReturn V).

Arguments RetSpontaneous {V}.
Arguments RetSetEventMask {V}.
Arguments RetReset {V}.
Arguments RetReadTxPowerLevel {V}.
Arguments RetReadLocalVersionInformation {V}.
Arguments RetReadLocalSupportedCommands {V}.
Arguments RetReadLocalSupportedFeatures {V}.
Arguments RetReadBdAddr {V}.
Arguments RetReadRssi {V}.
Arguments RetLeSetEventMask {V}.
Arguments RetLeReadBufferSize {V}.
Arguments RetLeReadLocalSupportedFeatures {V}.
Arguments RetLeSetRandomAddress {V}.
Arguments RetLeSetAdvertisingParameters {V}.
Arguments RetLeReadAdvertisingChannelTxPower {V}.
Arguments RetLeSetAdvertisingData {V}.
Arguments RetLeSetScanResponseData {V}.
Arguments RetLeSetAdvertiseEnable {V}.
Arguments RetLeSetAdvertisingEnable {V}.
Arguments RetLeSetScanParameters {V}.
Arguments RetLeSetScanEnable {V}.
Arguments RetLeCreateConnectionCancel {V}.
Arguments RetLeReadWhiteListSize {V}.
Arguments RetLeClearWhiteList {V}.
Arguments RetLeAddDeviceToWhiteList {V}.
Arguments RetLeRemoveDeviceFromWhiteList {V}.
Arguments RetLeSetHostChannelClassification {V}.
Arguments RetLeReadChannelMap {V}.
Arguments RetLeEncrypt {V}.
Arguments RetLeRand {V}.
Arguments RetLeLongTermKeyRequestReply {V}.
Arguments RetLeLongTermKeyRequestNegativeReply {V}.
Arguments RetLeReadSupportedStates {V}.
Arguments RetLeReceiverTest {V}.
Arguments RetLeTransmitterTest {V}.
Arguments RetLeTestEnd {V}.
Arguments RetVendor {V}.

(** src/event/command.rs:27-44, [struct CommandComplete]. *)
Record command_complete (V : vendor) := Build_command_complete {
  cc_num_hci_command_packets : N;
  cc_return_params : return_parameters V
}.
Arguments Build_command_complete {V}.
Arguments cc_num_hci_command_packets {V}.
Arguments cc_return_params {V}.

Section Command.
Context (F : features) (V : vendor).
Local Notation res := (outcome (event_error (VError V))).
Local Notation VS := (VStatus V).

(** src/event/command.rs:325-330, [to_status]: no length check. *)
Definition to_status (bs : list N) : res (status VS) :=
  let! b := idx bs 0 in status_of F V b.

(** src/event/command.rs:348-358. *)
Definition to_tx_power_level (bs : list N) : res (tx_power_level VS) :=
  let! _ := require_len bs 4 in
  let! s := to_status bs in
  let! h := u16_at bs 1 in
  let! p := idx bs 3 in
  Ok (Build_tx_power_level s h (u8_as_i8 p)).

(** src/event/command.rs:395-411. *)
Definition to_local_version_info (bs : list N) : res (local_version_info VS) :=
  let! _ := require_len bs 9 in
  let! b := idx bs 0 in
  let! s := status_of F V b in
  let! v1 := idx bs 1 in
  let! v2 := u16_at bs 2 in
  let! v3 := idx bs 4 in
  let! v4 := u16_at bs 5 in
  let! v5 := u16_at bs 7 in
  Ok (Build_local_version_info s v1 v2 v3 v4 v5).

(** src/event/command.rs:1048-1055, [TryFrom<&[u8]> for CommandFlags].  The
    closure at lines 1068-1074 maps the two errors that can occur to
    themselves. *)
Definition command_flags_try_from (bs : list N) : res (list N) :=
  let! _ := require_len bs COMMAND_FLAGS_SIZE in
  let! r := ba_from_bits F COMMAND_FLAGS_SIZE CommandFlags_decl bs in
  match r with
  | Some flags => Ok flags
  | None => Err EBadCommandFlag
  end.

(** src/event/command.rs:1057-1076. *)
Definition to_supported_commands (bs : list N) : res (local_supported_commands VS) :=
  let! _ := require_len bs (1 + COMMAND_FLAGS_SIZE) in
  let! b := idx bs 0 in
  let! s := status_of F V b in
  let! sl := slice bs 1 (COMMAND_FLAGS_SIZE + 1) in
  let! flags := command_flags_try_from sl in
  Ok (Build_local_supported_commands s flags).

(** src/event/command.rs:1205-1216. *)
Definition to_supported_features (bs : list N) : res (local_supported_features VS) :=
  let! _ := require_len bs 9 in
  let! s := to_status bs in
  let! v := u64_at bs 1 in
  Ok (Build_local_supported_features s (bf_from_bits_truncate F LmpFeatures v)).

(** src/event/command.rs:1228-1239.  [&bytes[1..]] has 6 bytes here. *)
Definition to_bd_addr (bs : list N) : res (read_bd_addr_params VS) :=
  let! _ := require_len bs 7 in
  let! a := array_at 6 bs 1 (length bs) in
  let! s := to_status bs in
  Ok (Build_read_bd_addr_params s a).

(** src/event/command.rs:1266-1276. *)
Definition to_read_rssi (bs : list N) : res (read_rssi_params VS) :=
  let! _ := require_len bs 4 in
  let! s := to_status bs in
  let! h := u16_at bs 1 in
  let! r := idx bs 3 in
  Ok (Build_read_rssi_params s h (u8_as_i8 r)).

(** src/event/command.rs:1304-1316. *)
Definition to_le_read_buffer_status (bs : list N) : res (le_read_buffer_size_params VS) :=
  let! _ := require_len bs 4 in
  let! s := to_status bs in
  let! l := u16_at bs 1 in
  let! c := idx bs 3 in
  Ok (Build_le_read_buffer_size_params s l c).

(** src/event/command.rs:1384-1395. *)
Definition to_le_local_supported_features (bs : list N) : res (le_supported_features VS) :=
  let! _ := require_len bs 9 in
  let! s := to_status bs in
  let! v := u64_at bs 1 in
  Ok (Build_le_supported_features s (bf_from_bits_truncate F LeFeatures v)).

(** src/event/command.rs:1410-1421. *)
Definition to_le_advertising_channel_tx_power (bs : list N)
    : res (le_advertising_channel_tx_power VS) :=
  let! _ := require_len bs 2 in
  let! s := to_status bs in
  let! p := idx bs 1 in
  Ok (Build_le_advertising_channel_tx_power s (u8_as_i8 p)).

(** src/event/command.rs:1423-1437, [to_le_set_advertise_enable]. *)
Definition to_le_set_advertise_enable (s : status VS) : return_parameters V :=
  if version_5_0 F then RetLeSetAdvertisingEnable s else RetLeSetAdvertiseEnable s.

(** src/event/command.rs:1452-1469. *)
Definition to_le_channel_map_parameters (bs : list N) : res (channel_map_parameters VS) :=
  let! _ := require_len bs 8 in
  let! channel_bits := array_at 5 bs 3 8 in
  let! sl := slice_from bs 0 in
  let! s := to_status sl in
  let! h := u16_at bs 1 in
  let! sl := slice_from bs 3 in
  let! r := ba_from_bits F ChannelClassification_size ChannelClassification_decl sl in
  match r with
  | Some m => Ok (Build_channel_map_parameters s h m)
  | None => Err (EInvalidChannelMap channel_bits)
  end.

(** src/event/command.rs:1496-1510. *)
Definition to_le_encrypted_data (bs : list N) : res (encrypted_return_parameters VS) :=
  let! _ := require_len bs 17 in
  let! block := array_at 16 bs 1 (length bs) in
  let! s := to_status bs in
  Ok (Build_encrypted_return_parameters s block).

(** src/event/command.rs:1522-1532. *)
Definition to_random_number (bs : list N) : res (le_random VS) :=
  let! _ := require_len bs 9 in
  let! s := to_status bs in
  let! v := u64_at bs 1 in
  Ok (Build_le_random s v).

(** src/event/command.rs:1545-1557. *)
Definition to_le_ltk_request_reply (bs : list N) : res (le_ltk_request_reply VS) :=
  let! _ := require_len bs 3 in
  let! s := to_status bs in
  let! h := u16_at bs 1 in
  Ok (Build_le_ltk_request_reply s h).

(** src/event/command.rs:1662-1676. *)
Definition to_le_read_states (bs : list N) : res (le_read_supported_states_params VS) :=
  let! _ := require_len bs 9 in
  let! bitfield := u64_at bs 1 in
  let! s := to_status bs in
  match bf_from_bits F LeStates bitfield with
  | Some v => Ok (Build_le_read_supported_states_params s v)
  | None => Err (EInvalidLeStates bitfield)
  end.

(** src/event/command.rs:1689-1699. *)
Definition to_le_test_end (bs : list N) : res (le_test_end_params VS) :=
  let! _ := require_len bs 3 in
  let! s := to_status bs in
  let! n := u16_at bs 1 in
  Ok (Build_le_test_end_params s n).

(** One arm of the match at src/event/command.rs:65-173: decode [&bytes[3..]]
    and wrap the result. *)
Definition arm {A} (decode : list N -> res A) (wrap : A -> return_parameters V)
    (bs : list N) : res (return_parameters V) :=
  let! rest := slice_from bs 3 in
  let! a := decode rest in
  Ok (wrap a).

(** The match at src/event/command.rs:65-173, in source order. *)
Definition return_params_of (op : opcode) (bs : list N) : res (return_parameters V) :=
  if op =? 0x0000 then Ok RetSpontaneous else
  if op =? SET_EVENT_MASK then arm to_status RetSetEventMask bs else
  if op =? RESET then arm to_status RetReset bs else
  if op =? READ_TX_POWER_LEVEL then arm to_tx_power_level RetReadTxPowerLevel bs else
  if op =? READ_LOCAL_VERSION_INFO then arm to_local_version_info RetReadLocalVersionInformation bs else
  if op =? READ_LOCAL_SUPPORTED_COMMANDS then arm to_supported_commands RetReadLocalSupportedCommands bs else
  if op =? READ_LOCAL_SUPPORTED_FEATURES then arm to_supported_features RetReadLocalSupportedFeatures bs else
  if op =? READ_BD_ADDR then arm to_bd_addr RetReadBdAddr bs else
  if op =? READ_RSSI then arm to_read_rssi RetReadRssi bs else
  if op =? LE_SET_EVENT_MASK then arm to_status RetLeSetEventMask bs else
  if op =? LE_READ_BUFFER_SIZE then arm to_le_read_buffer_status RetLeReadBufferSize bs else
  if op =? LE_READ_LOCAL_SUPPORTED_FEATURES then arm to_le_local_supported_features RetLeReadLocalSupportedFeatures bs else
  if op =? LE_SET_RANDOM_ADDRESS then arm to_status RetLeSetRandomAddress bs else
  if op =? LE_SET_ADVERTISING_PARAMETERS then arm to_status RetLeSetAdvertisingParameters bs else
  if op =? LE_READ_ADVERTISING_CHANNEL_TX_POWER then arm to_le_advertising_channel_tx_power RetLeReadAdvertisingChannelTxPower bs else
  if op =? LE_SET_ADVERTISING_DATA then arm to_status RetLeSetAdvertisingData bs else
  if op =? LE_SET_SCAN_RESPONSE_DATA then arm to_status RetLeSetScanResponseData bs else
  if op =? LE_SET_ADVERTISE_ENABLE then arm to_status to_le_set_advertise_enable bs else
  if op =? LE_SET_SCAN_PARAMETERS then arm to_status RetLeSetScanParameters bs else
  if op =? LE_SET_SCAN_ENABLE then arm to_status RetLeSetScanEnable bs else
  if op =? LE_CREATE_CONNECTION_CANCEL then arm to_status RetLeCreateConnectionCancel bs else
  if op =? LE_READ_WHITE_LIST_SIZE then (* line 125-127 *)
    let! rest := slice_from bs 3 in
    let! s := to_status rest in
    let! n := idx bs 4 in
    Ok (RetLeReadWhiteListSize s n) else
  if op =? LE_CLEAR_WHITE_LIST then arm to_status RetLeClearWhiteList bs else
  if op =? LE_ADD_DEVICE_TO_WHITE_LIST then arm to_status RetLeAddDeviceToWhiteList bs else
  if op =? LE_REMOVE_DEVICE_FROM_WHITE_LIST then arm to_status RetLeRemoveDeviceFromWhiteList bs else
  if op =? LE_SET_HOST_CHANNEL_CLASSIFICATION then arm to_status RetLeSetHostChannelClassification bs else
  if op =? LE_READ_CHANNEL_MAP then arm to_le_channel_map_parameters RetLeReadChannelMap bs else
  if op =? LE_ENCRYPT then arm to_le_encrypted_data RetLeEncrypt bs else
  if op =? LE_RAND then arm to_random_number RetLeRand bs else
  if op =? LE_LTK_REQUEST_REPLY then arm to_le_ltk_request_reply RetLeLongTermKeyRequestReply bs else
  if op =? LE_LTK_REQUEST_NEGATIVE_REPLY then arm to_le_ltk_request_reply RetLeLongTermKeyRequestNegativeReply bs else
  if op =? LE_READ_STATES then arm to_le_read_states RetLeReadSupportedStates bs else
  if op =? LE_RECEIVER_TEST then arm to_status RetLeReceiverTest bs else
  if op =? LE_TRANSMITTER_TEST then arm to_status RetLeTransmitterTest bs else
  if op =? LE_TEST_END then arm to_le_test_end RetLeTestEnd bs else
  (* lines 165-172 *)
  if negb (opcode_ogf op =? 0x3F) then Err (EUnknownOpcode op)
  else
    let! r := vreturn_new V bs in
    Ok (RetVendor r).

(** src/event/command.rs:62-178, [CommandComplete::new]. *)
Definition command_complete_new (bs : list N) : res (command_complete V) :=
  let! _ := require_len_at_least bs 3 in
  let! op := u16_at bs 1 in
  let! params := return_params_of op bs in
  let! n := idx bs 0 in
  Ok (Build_command_complete n params).

End Command.
