(** * The host side: commands and reads (src/host/). *)
From Verif Require Import Base Model_Types Model_Bitflags Model_Intervals
  Model_EventBase Model_Command Model_Event.

(** [nb::Error<E>] of the nb crate (e.g. src/lib.rs:129). *)
Inductive nb_error (E : Type) : Type :=
| Other (e : E)
| WouldBlock.
Arguments Other {E} e.
Arguments WouldBlock {E}.

(** src/lib.rs:105-315, trait [Controller], as functions on a state [St] with
    communication errors [E].  [&mut self] is state passing.  The functions are
    arbitrary (they may even panic); what their documentation asks for is in
    Spec_Link.v.  [read_into] gets the buffer and returns its new content. *)
Record controller (St E : Type) := {
  ctl_write : St -> list N -> list N -> St * outcome (nb_error E) unit;
  ctl_read_into : St -> list N -> St * outcome (nb_error E) (list N);
  ctl_peek : St -> nat -> St * outcome (nb_error E) N
}.
Arguments ctl_write {St E}.
Arguments ctl_read_into {St E}.
Arguments ctl_peek {St E}.

(** Code that runs on a controller ([&mut self] of src/lib.rs:105-315), with [?]
    and [map_err] (e.g. src/host/mod.rs:1224-1225). *)
Definition act (St E A : Type) : Type := St -> St * outcome E A.
Definition pure {St E A} (m : outcome E A) : act St E A := fun s => (s, m).
Definition abind {St E A B} (m : act St E A) (k : A -> act St E B) : act St E B :=
  fun s => match m s with
           | (s', Ok a) => k a s'
           | (s', Err e) => (s', Err e)
           | (s', Panic) => (s', Panic)
           end.
Definition amap_err {St E G A} (f : E -> G) (m : act St E A) : act St G A :=
  fun s => match m s with (s', r) => (s', map_err f r) end.
Notation "'do!' x ':=' m 'in' k" := (abind m (fun x => k))
  (at level 200, x name, m at level 100, k at level 200, right associativity).

(** ** Headers *)

(** src/host/mod.rs:42-56, trait [HciHeader]. *)
Record hci_header := {
  hdr_t : Type;
  hdr_length : nat;
  hdr_new : opcode -> nat -> hdr_t;
  hdr_copy : forall E : Type, hdr_t -> list N -> outcome E (list N)
}.

(** src/host/uart.rs:40-43 and src/host/cmd_link.rs:15-18: [opcode] and
    [param_len : u8]; the constructors are at uart.rs:76-81 and
    cmd_link.rs:23-28. *)
Definition header_fields : Type := (opcode * N)%type.
Definition header_fields_new (op : opcode) (param_len : nat) : header_fields :=
  (op, as_u8 (N.of_nat param_len)).

(** src/host/uart.rs:83-87. *)
Definition uart_copy_into_slice (E : Type) (h : header_fields) (buf : list N)
    : outcome E (list N) :=
  let! buf := set_idx buf 0 0x01 in
  let! buf := update_range buf 1 3 (write_u16 (fst h)) in
  set_idx buf 3 (snd h).

(** src/host/uart.rs:73-88, [CommandHeader]. *)
Definition uart_header : hci_header := {|
  hdr_t := header_fields;
  hdr_length := 4;
  hdr_new := header_fields_new;
  hdr_copy := uart_copy_into_slice
|}.

(** src/host/cmd_link.rs:30-33. *)
Definition cmd_link_copy_into_slice (E : Type) (h : header_fields) (buf : list N)
    : outcome E (list N) :=
  let! buf := write_u16 (fst h) buf in
  set_idx buf 2 (snd h).

(** src/host/cmd_link.rs:20-34, [Header]. *)
Definition cmd_link_header : hci_header := {|
  hdr_t := header_fields;
  hdr_length := 3;
  hdr_new := header_fields_new;
  hdr_copy := cmd_link_copy_into_slice
|}.

(** src/host/event_link.rs:63-71, [NoCommands]. *)
Definition no_commands_header : hci_header := {|
  hdr_t := unit;
  hdr_length := 3;
  hdr_new := fun _ _ => tt;
  hdr_copy := fun E _ buf => Ok buf
|}.

(** src/host/mod.rs:30. *)
Definition MAX_HEADER_LENGTH : nat := 5.

(** ** Argument types *)

(** src/host/mod.rs:1658-1663. *)
Inductive tx_power_level_type := Current | Maximum.
Definition tx_power_level_type_as_u8 (t : tx_power_level_type) : N :=
  match t with Current => 0x00 | Maximum => 0x01 end.

(** src/host/mod.rs:1810-1824; the last two exist with version 4.2 or 5.0. *)
Inductive own_address_type :=
  OwnPublic | OwnRandom | PrivateFallbackPublic | PrivateFallbackRandom.
Definition own_address_type_as_u8 (t : own_address_type) : N :=
  match t with
  | OwnPublic => 0x00
  | OwnRandom => 0x01
  | PrivateFallbackPublic => 0x02
  | PrivateFallbackRandom => 0x03
  end.
Definition own_address_type_exists (f : features) (t : own_address_type) : bool :=
  match t with
  | OwnPublic | OwnRandom => true
  | PrivateFallbackPublic | PrivateFallbackRandom => any_4_2_5_0 f
  end.

(** src/host/mod.rs:1849-1861. *)
Inductive advertising_filter_policy :=
  AllowConnectionAndScan | AllowConnectionWhiteListScan
| WhiteListConnectionAllowScan | WhiteListConnectionAndScan.
Definition advertising_filter_policy_as_u8 (p : advertising_filter_policy) : N :=
  match p with
  | AllowConnectionAndScan => 0x00
  | AllowConnectionWhiteListScan => 0x01
  | WhiteListConnectionAllowScan => 0x02
  | WhiteListConnectionAndScan => 0x03
  end.

(** src/host/mod.rs:1896-1901. *)
Inductive scan_type := Passive | Active.
Definition scan_type_as_u8 (t : scan_type) : N :=
  match t with Passive => 0x00 | Active => 0x01 end.

(** src/host/mod.rs:1908-1931; the last two exist with version 4.2 or 5.0. *)
Inductive scan_filter_policy :=
  AcceptAll | ScanWhiteList | AddressedToThisDevice | WhiteListAddressedToThisDevice.
Definition scan_filter_policy_as_u8 (p : scan_filter_policy) : N :=
  match p with
  | AcceptAll => 0x00
  | ScanWhiteList => 0x01
  | AddressedToThisDevice => 0x02
  | WhiteListAddressedToThisDevice => 0x03
  end.
Definition scan_filter_policy_exists (f : features) (p : scan_filter_policy) : bool :=
  match p with
  | AcceptAll | ScanWhiteList => true
  | AddressedToThisDevice | WhiteListAddressedToThisDevice => any_4_2_5_0 f
  end.

(** src/host/mod.rs:2004-2012. *)
Inductive connection_filter_policy := UseAddress | UseWhiteList.
Definition connection_filter_policy_as_u8 (p : connection_filter_policy) : N :=
  match p with UseAddress => 0x00 | UseWhiteList => 0x01 end.

(** src/host/mod.rs:2017-2032; the last two exist with version 4.2 or 5.0. *)
Inductive peer_addr_type :=
| PublicDeviceAddress (a : bd_addr)
| RandomDeviceAddress (a : bd_addr)
| PublicIdentityAddress (a : bd_addr)
| RandomIdentityAddress (a : bd_addr).
Definition peer_addr_type_exists (f : features) (p : peer_addr_type) : bool :=
  match p with
  | PublicDeviceAddress _ | RandomDeviceAddress _ => true
  | PublicIdentityAddress _ | RandomIdentityAddress _ => any_4_2_5_0 f
  end.

(** src/host/mod.rs:2040-2081, [PeerAddrType::copy_into_slice]; the two
    versions agree on the variants they share. *)
Definition peer_addr_type_copy {E} (p : peer_addr_type) (buf : list N)
    : outcome E (list N) :=
  let! _ := assert (Nat.eqb (length buf) 7) in
  match p with
  | PublicDeviceAddress a =>
      let! buf := set_idx buf 0 0x00 in update_range buf 1 7 (copy_from_slice a)
  | RandomDeviceAddress a =>
      let! buf := set_idx buf 0 0x01 in update_range buf 1 7 (copy_from_slice a)
  | PublicIdentityAddress a =>
      let! buf := set_idx buf 0 0x02 in update_range buf 1 7 (copy_from_slice a)
  | RandomIdentityAddress a =>
      let! buf := set_idx buf 0 0x03 in update_range buf 1 7 (copy_from_slice a)
  end.

(** src/host/mod.rs:2169-2186. *)
Inductive test_packet_payload :=
  PrbS9 | Nibbles10 | Bits10 | PrbS15 | All1 | All0 | Nibbles01 | Bits01.
Definition test_packet_payload_as_u8 (p : test_packet_payload) : N :=
  match p with
  | PrbS9 => 0x00
  | Nibbles10 => 0x01
  | Bits10 => 0x02
  | PrbS15 => 0x03
  | All1 => 0x04
  | All0 => 0x05
  | Nibbles01 => 0x06
  | Bits01 => 0x07
  end.

(** src/host/mod.rs:1757-1787; the channel map is its bits. *)
Record advertising_parameters := {
  ap_interval : advertising_interval;
  ap_own_address_type : own_address_type;
  ap_peer_address : bd_addr_type;
  ap_channel_map : N;
  ap_filter_policy : advertising_filter_policy
}.

(** src/host/mod.rs:1865-1878. *)
Record scan_parameters := {
  sp_scan_type : scan_type;
  sp_scan_window : scan_window;
  sp_own_address_type : own_address_type;
  sp_filter_policy : scan_filter_policy
}.

(** src/host/mod.rs:1935-1977. *)
Record connection_parameters := {
  cp_scan_window : scan_window;
  cp_initiator_filter_policy : connection_filter_policy;
  cp_peer_address : peer_addr_type;
  cp_own_address_type : own_address_type;
  cp_conn_interval : conn_interval;
  cp_expected_connection_length : expected_conn_length
}.

(** src/host/mod.rs:2087-2097. *)
Record connection_update_parameters := {
  cu_conn_handle : conn_handle;
  cu_conn_interval : conn_interval;
  cu_expected_connection_length : expected_conn_length
}.

(** src/host/mod.rs:2112-2124, with [EncryptionKey] (2130) and
    [PlaintextBlock] (2142) as their 16 bytes. *)
Record aes_parameters := { aes_key : list N; aes_plaintext_data : list N }.

(** src/host/mod.rs:2151-2163. *)
Record encryption_parameters := {
  enc_conn_handle : conn_handle;
  enc_random_number : N;
  enc_encrypted_diversifier : N;
  enc_long_term_key : list N
}.

(** ** Errors *)

(** src/host/mod.rs:1115-1155, [enum Error<E, VS>].  Constructors are prefixed
    with [H]. *)
Inductive host_error (E VS : Type) : Type :=
| HBadDisconnectionReason (s : status VS)
| HBadRandomAddress (a : bd_addr)
| HBadChannelMap (c : N)
| HAdvertisingDataTooLong (n : nat)
| HBadConnectionLengthRange (a b : duration)
| HNoValidChannel
| HInvalidTestChannel (c : N)
| HInvalidTestPayloadLength (n : N)
| HComm (e : E).
Arguments HBadDisconnectionReason {E VS}.
Arguments HBadRandomAddress {E VS}.
Arguments HBadChannelMap {E VS}.
Arguments HAdvertisingDataTooLong {E VS}.
Arguments HBadConnectionLengthRange {E VS}.
Arguments HNoValidChannel {E VS}.
Arguments HInvalidTestChannel {E VS}.
Arguments HInvalidTestPayloadLength {E VS}.
Arguments HComm {E VS}.

(** src/host/mod.rs:1157-1162. *)
Definition rewrap_as_comm {E VS} (e : nb_error E) : nb_error (host_error E VS) :=
  match e with
  | WouldBlock => WouldBlock
  | Other e => Other (HComm e)
  end.

(** ** Parameter blocks *)

(** src/host/mod.rs:1750-1752, [count_ones] of a byte. *)
Definition pop_count_of (b : N) : nat :=
  length (filter (N.testbit b) [0; 1; 2; 3; 4; 5; 6; 7]).

(** src/host/mod.rs:1740-1748.  Simplification: the [u32] sum is a [nat] (it is
    at most 48). *)
Definition pop_count_except_top_2_bits {E} (bs : list N) : outcome E nat :=
  let! n := (match length bs with O => Panic | S n => Ok n end) in
  let! init := slice bs 0 n in
  let! last := idx bs n in
  Ok (fold_left (fun acc b => acc + pop_count_of b)%nat init 0%nat
      + pop_count_of (N.land last 0x3F))%nat.

(** src/host/mod.rs:1726-1738. *)
Definition validate_random_address {E VS} (a : bd_addr) : outcome (host_error E VS) unit :=
  let! b5 := idx a 5 in
  let top := N.shiftr (N.land b5 0xC0) 6 in
  let! pb :=
    if (top =? 0) || (top =? 3) then
      let! s := slice_from a 0 in
      let! p := pop_count_except_top_2_bits s in Ok (p, 46%nat)
    else if top =? 2 then
      let! s := slice_from a 3 in
      let! p := pop_count_except_top_2_bits s in Ok (p, 22%nat)
    else Err (HBadRandomAddress a) in
  if Nat.eqb (fst pb) 0 || Nat.eqb (fst pb) (snd pb)
  then Err (HBadRandomAddress a) else Ok tt.

(** src/host/mod.rs:1790-1804, [AdvertisingParameters::copy_into_slice]. *)
Definition ap_copy_into_slice {E VS} (p : advertising_parameters) (buf : list N)
    : outcome (host_error E VS) (list N) :=
  let! _ := assert (Nat.eqb (length buf) 15) in
  if ap_channel_map p =? 0 then Err (HBadChannelMap (ap_channel_map p)) else
  let! buf := update_range buf 0 5 (ai_copy_into_slice (ap_interval p)) in
  let! buf := set_idx buf 5 (own_address_type_as_u8 (ap_own_address_type p)) in
  let! buf := update_range buf 6 13 (bd_addr_type_copy (ap_peer_address p)) in
  let! buf := set_idx buf 13 (ap_channel_map p) in
  set_idx buf 14 (advertising_filter_policy_as_u8 (ap_filter_policy p)).

(** src/host/mod.rs:1881-1888, [ScanParameters::copy_into_slice]. *)
Definition sp_copy_into_slice {E} (p : scan_parameters) (buf : list N)
    : outcome E (list N) :=
  let! _ := assert (Nat.eqb (length buf) 7) in
  let! buf := set_idx buf 0 (scan_type_as_u8 (sp_scan_type p)) in
  let! buf := update_range buf 1 5 (sw_copy_into_slice (sp_scan_window p)) in
  let! buf := set_idx buf 5 (own_address_type_as_u8 (sp_own_address_type p)) in
  set_idx buf 6 (scan_filter_policy_as_u8 (sp_filter_policy p)).

(** src/host/mod.rs:1980-1997, [ConnectionParameters::copy_into_slice]. *)
Definition cp_copy_into_slice {E} (p : connection_parameters) (buf : list N)
    : outcome E (list N) :=
  let! _ := assert (Nat.eqb (length buf) 25) in
  let! buf := update_range buf 0 4 (sw_copy_into_slice (cp_scan_window p)) in
  let! buf := set_idx buf 4
    (connection_filter_policy_as_u8 (cp_initiator_filter_policy p)) in
  let! buf :=
    match cp_initiator_filter_policy p with
    | UseAddress => update_range buf 5 12 (peer_addr_type_copy (cp_peer_address p))
    | UseWhiteList => update_range buf 5 12 (copy_from_slice (zeros 7))
    end in
  let! buf := set_idx buf 12 (own_address_type_as_u8 (cp_own_address_type p)) in
  let! buf := update_range buf 13 21 (ci_copy_into_slice (cp_conn_interval p)) in
  update_range buf 21 25 (ecl_copy_into_slice (cp_expected_connection_length p)).

(** src/host/mod.rs:2100-2107, [ConnectionUpdateParameters::copy_into_slice]. *)
Definition cu_copy_into_slice {E} (p : connection_update_parameters) (buf : list N)
    : outcome E (list N) :=
  let! _ := assert (Nat.eqb (length buf) 14) in
  let! buf := update_from buf 0 (write_u16 (cu_conn_handle p)) in
  let! buf := update_range buf 2 10 (ci_copy_into_slice (cu_conn_interval p)) in
  update_range buf 10 14 (ecl_copy_into_slice (cu_expected_connection_length p)).

(** [bool as u8] (src/host/mod.rs:1346, 1355 and 1369). *)
Definition bool_as_u8 (b : bool) : N := if b then 1 else 0.

(** src/host/mod.rs:1544. *)
Definition MAX_TEST_CHANNEL : N := 0x27.

(** ** Commands *)
Section Commands.
Context (F : features) (V : vendor) {St E : Type}
  (H : hci_header) (C : controller St E).
Local Notation VS := (VStatus V).
Local Notation plain := (act St (nb_error E) unit).
Local Notation checked_act := (act St (nb_error (host_error E VS)) unit).

(** src/host/mod.rs:1164-1177. *)
Definition write_command (op : opcode) (params : list N) : plain :=
  do! header := pure (hdr_copy H _ (hdr_new H op (length params)) (zeros MAX_HEADER_LENGTH)) in
  do! h := pure (slice header 0 (hdr_length H)) in
  fun s => ctl_write C s h params.

(** [write_command(..).map_err(rewrap_as_comm)] (e.g. src/host/mod.rs:1224-1225). *)
Definition write_command_comm (op : opcode) (params : list N) : checked_act :=
  amap_err rewrap_as_comm (write_command op params).

(** [return Err(nb::Error::Other(e))] (e.g. src/host/mod.rs:1218). *)
Definition reject (e : host_error E VS) : checked_act := pure (Err (Other e)).

(** src/host/mod.rs:1179-1196. *)
Definition set_outbound_data (op : opcode) (data : list N) : checked_act :=
  if Nat.ltb 31 (length data) then reject (HAdvertisingDataTooLong (length data)) else
  do! params := pure (set_idx (zeros 32) 0 (as_u8 (N.of_nat (length data)))) in
  do! params := pure (update_range params 1 (length data + 1) (copy_from_slice data)) in
  write_command_comm op params.

(** src/host/mod.rs:1205-1226. *)
Definition disconnect (h : conn_handle) (reason : status VS) : checked_act :=
  let allowed :=
    do! params := pure (update_from (zeros 3) 0 (write_u16 h)) in
    do! params := pure (set_idx params 2 (status_into F (vstatus_into V) reason)) in
    write_command_comm DISCONNECT params in
  match reason with
  | AuthFailure
  | RemoteTerminationByUser
  | RemoteTerminationLowResources
  | RemoteTerminationPowerOff
  | UnsupportedRemoteFeature
  | PairingWithUnitKeyNotSupported
  | UnacceptableConnectionParameters => allowed
  | _ => reject (HBadDisconnectionReason reason)
  end.

(** src/host/mod.rs:1228-1235. *)
Definition read_remote_version_information (h : conn_handle) : plain :=
  do! params := pure (write_u16 h (zeros 2)) in
  write_command READ_REMOTE_VERSION_INFO params.

(** src/host/mod.rs:1237-1242; the mask is its bits. *)
Definition set_event_mask (mask : N) : plain :=
  do! params := pure (write_u64 mask (zeros 8)) in
  write_command SET_EVENT_MASK params.

(** src/host/mod.rs:1244-1246. *)
Definition reset : plain := write_command RESET [].

(** src/host/mod.rs:1248-1257. *)
Definition read_tx_power_level (h : conn_handle) (t : tx_power_level_type) : plain :=
  do! params := pure (write_u16 h (zeros 3)) in
  do! params := pure (set_idx params 2 (tx_power_level_type_as_u8 t)) in
  write_command READ_TX_POWER_LEVEL params.

(** src/host/mod.rs:1259-1261. *)
Definition read_local_version_information : plain := write_command READ_LOCAL_VERSION_INFO [].

(** src/host/mod.rs:1263-1265. *)
Definition read_local_supported_commands : plain := write_command READ_LOCAL_SUPPORTED_COMMANDS [].

(** src/host/mod.rs:1267-1269. *)
Definition read_local_supported_features : plain := write_command READ_LOCAL_SUPPORTED_FEATURES [].

(** src/host/mod.rs:1271-1273. *)
Definition read_bd_addr : plain := write_command READ_BD_ADDR [].

(** src/host/mod.rs:1275-1279. *)
Definition read_rssi (h : conn_handle) : plain :=
  do! params := pure (write_u16 h (zeros 2)) in
  write_command READ_RSSI params.

(** src/host/mod.rs:1281-1286; the mask is its bits. *)
Definition le_set_event_mask (mask : N) : plain :=
  do! params := pure (write_u64 mask (zeros 8)) in
  write_command LE_SET_EVENT_MASK params.

(** src/host/mod.rs:1288-1290. *)
Definition le_read_buffer_size : plain := write_command LE_READ_BUFFER_SIZE [].

(** src/host/mod.rs:1292-1294. *)
Definition le_read_local_supported_features : plain := write_command LE_READ_LOCAL_SUPPORTED_FEATURES [].

(** src/host/mod.rs:1296-1303. *)
Definition le_set_random_address (a : bd_addr) : checked_act :=
  do! _ := pure (map_err Other (validate_random_address a)) in
  write_command_comm LE_SET_RANDOM_ADDRESS a.

(** src/host/mod.rs:1305-1315. *)
Definition le_set_advertising_parameters (p : advertising_parameters) : checked_act :=
  do! params := pure (map_err Other (ap_copy_into_slice p (zeros 15))) in
  write_command_comm LE_SET_ADVERTISING_PARAMETERS params.

(** src/host/mod.rs:1317-1323. *)
Definition le_read_advertising_channel_tx_power : plain := write_command LE_READ_ADVERTISING_CHANNEL_TX_POWER [].

(** src/host/mod.rs:1325-1331. *)
Definition le_set_advertising_data (data : list N) : checked_act :=
  set_outbound_data LE_SET_ADVERTISING_DATA data.

(** src/host/mod.rs:1333-1339. *)
Definition le_set_scan_response_data (data : list N) : checked_act :=
  set_outbound_data LE_SET_SCAN_RESPONSE_DATA data.

(** src/host/mod.rs:1341-1348, without version 5.0. *)
Definition le_set_advertise_enable (enable : bool) : plain :=
  write_command LE_SET_ADVERTISE_ENABLE [bool_as_u8 enable].

(** src/host/mod.rs:1350-1357, with version 5.0. *)
Definition le_set_advertising_enable (enable : bool) : plain :=
  write_command LE_SET_ADVERTISE_ENABLE [bool_as_u8 enable].

(** src/host/mod.rs:1359-1363. *)
Definition le_set_scan_parameters (p : scan_parameters) : plain :=
  do! params := pure (sp_copy_into_slice p (zeros 7)) in
  write_command LE_SET_SCAN_PARAMETERS params.

(** src/host/mod.rs:1365-1371. *)
Definition le_set_scan_enable (enable filter_duplicates : bool) : plain :=
  write_command LE_SET_SCAN_ENABLE [bool_as_u8 enable; bool_as_u8 filter_duplicates].

(** src/host/mod.rs:1373-1377. *)
Definition le_create_connection (p : connection_parameters) : plain :=
  do! params := pure (cp_copy_into_slice p (zeros 25)) in
  write_command LE_CREATE_CONNECTION params.

(** src/host/mod.rs:1379-1381. *)
Definition le_create_connection_cancel : plain := write_command LE_CREATE_CONNECTION_CANCEL [].

(** src/host/mod.rs:1383-1385. *)
Definition le_read_white_list_size : plain := write_command LE_READ_WHITE_LIST_SIZE [].

(** src/host/mod.rs:1387-1389. *)
Definition le_clear_white_list : plain := write_command LE_CLEAR_WHITE_LIST [].

(** src/host/mod.rs:1391-1395. *)
Definition le_add_device_to_white_list (a : bd_addr_type) : plain :=
  do! params := pure (bd_addr_type_copy a (zeros 7)) in
  write_command LE_ADD_DEVICE_TO_WHITE_LIST params.

(** src/host/mod.rs:1397-1404, with version 5.0. *)
Definition le_add_anon_advertising_devices_to_white_list : plain :=
  write_command LE_ADD_DEVICE_TO_WHITE_LIST [0xFF; 0; 0; 0; 0; 0; 0].

(** src/host/mod.rs:1406-1414. *)
Definition le_remove_device_from_white_list (a : bd_addr_type) : plain :=
  do! params := pure (bd_addr_type_copy a (zeros 7)) in
  write_command LE_REMOVE_DEVICE_FROM_WHITE_LIST params.

(** src/host/mod.rs:1416-1423, with version 5.0. *)
Definition le_remove_anon_advertising_devices_from_white_list : plain :=
  write_command LE_REMOVE_DEVICE_FROM_WHITE_LIST [0xFF; 0; 0; 0; 0; 0; 0].

(** src/host/mod.rs:1425-1429. *)
Definition le_connection_update (p : connection_update_parameters) : plain :=
  do! params := pure (cu_copy_into_slice p (zeros 14)) in
  write_command LE_CONNECTION_UPDATE params.

(** src/host/mod.rs:1431-1447; the channels are the bytes of the flag array. *)
Definition le_set_host_channel_classification (channels : list N) : checked_act :=
  if ba_is_empty channels then reject HNoValidChannel else
  do! params := pure (ba_copy_into_slice channels (zeros 5)) in
  write_command_comm LE_SET_HOST_CHANNEL_CLASSIFICATION params.

(** src/host/mod.rs:1449-1453. *)
Definition le_read_channel_map (h : conn_handle) : plain :=
  do! params := pure (write_u16 h (zeros 2)) in
  write_command LE_READ_CHANNEL_MAP params.

(** src/host/mod.rs:1455-1459. *)
Definition le_read_remote_used_features (h : conn_handle) : plain :=
  do! params := pure (write_u16 h (zeros 2)) in
  write_command LE_READ_REMOTE_USED_FEATURES params.

(** src/host/mod.rs:1461-1466. *)
Definition le_encrypt (p : aes_parameters) : plain :=
  do! params := pure (update_range (zeros 32) 0 16 (copy_from_slice (aes_key p))) in
  do! params := pure (update_from params 16 (copy_from_slice (aes_plaintext_data p))) in
  write_command LE_ENCRYPT params.

(** src/host/mod.rs:1468-1470. *)
Definition le_rand : plain := write_command LE_RAND [].

(** src/host/mod.rs:1472-1479. *)
Definition le_start_encryption (p : encryption_parameters) : plain :=
  do! params := pure (update_from (zeros 28) 0 (write_u16 (enc_conn_handle p))) in
  do! params := pure (update_from params 2 (write_u64 (enc_random_number p))) in
  do! params := pure (update_from params 10 (write_u16 (enc_encrypted_diversifier p))) in
  do! params := pure (update_from params 12 (copy_from_slice (enc_long_term_key p))) in
  write_command LE_START_ENCRYPTION params.

(** src/host/mod.rs:1481-1490. *)
Definition le_long_term_key_request_reply (h : conn_handle) (key : list N) : plain :=
  do! params := pure (update_from (zeros 18) 0 (write_u16 h)) in
  do! params := pure (update_from params 2 (copy_from_slice key)) in
  write_command LE_LTK_REQUEST_REPLY params.

(** src/host/mod.rs:1492-1499. *)
Definition le_long_term_key_request_negative_reply (h : conn_handle) : plain :=
  do! params := pure (update_from (zeros 2) 0 (write_u16 h)) in
  write_command LE_LTK_REQUEST_NEGATIVE_REPLY params.

(** src/host/mod.rs:1501-1503. *)
Definition le_read_supported_states : plain := write_command LE_READ_STATES [].

(** src/host/mod.rs:1505-1512. *)
Definition le_receiver_test (channel : N) : checked_act :=
  if MAX_TEST_CHANNEL <? channel then reject (HInvalidTestChannel channel) else
  write_command_comm LE_RECEIVER_TEST [channel].

(** src/host/mod.rs:1514-1537. *)
Definition le_transmitter_test (channel payload_length : N) (payload : test_packet_payload)
    : checked_act :=
  if MAX_TEST_CHANNEL <? channel then reject (HInvalidTestChannel channel) else
  if 0x25 <? payload_length then reject (HInvalidTestPayloadLength payload_length) else
  write_command_comm LE_TRANSMITTER_TEST
    [channel; as_u8 payload_length; test_packet_payload_as_u8 payload].

(** src/host/mod.rs:1539-1541. *)
Definition le_test_end : plain := write_command LE_TEST_END [].

(** A call of one of the methods of trait [Hci] (src/host/mod.rs:64-1110), with
    its arguments. *)
Inductive command : Type :=
| CDisconnect (h : conn_handle) (reason : status VS)
| CReadRemoteVersionInformation (h : conn_handle)
| CSetEventMask (mask : N)
| CReset
| CReadTxPowerLevel (h : conn_handle) (t : tx_power_level_type)
| CReadLocalVersionInformation
| CReadLocalSupportedCommands
| CReadLocalSupportedFeatures
| CReadBdAddr
| CReadRssi (h : conn_handle)
| CLeSetEventMask (mask : N)
| CLeReadBufferSize
| CLeReadLocalSupportedFeatures
| CLeSetRandomAddress (a : bd_addr)
| CLeSetAdvertisingParameters (p : advertising_parameters)
| CLeReadAdvertisingChannelTxPower
| CLeSetAdvertisingData (data : list N)
| CLeSetScanResponseData (data : list N)
| CLeSetAdvertiseEnable (enable : bool)
| CLeSetAdvertisingEnable (enable : bool)
| CLeSetScanParameters (p : scan_parameters)
| CLeSetScanEnable (enable : bool) (filter_duplicates : bool)
| CLeCreateConnection (p : connection_parameters)
| CLeCreateConnectionCancel
| CLeReadWhiteListSize
| CLeClearWhiteList
| CLeAddDeviceToWhiteList (a : bd_addr_type)
| CLeAddAnonAdvertisingDevicesToWhiteList
| CLeRemoveDeviceFromWhiteList (a : bd_addr_type)
| CLeRemoveAnonAdvertisingDevicesFromWhiteList
| CLeConnectionUpdate (p : connection_update_parameters)
| CLeSetHostChannelClassification (channels : list N)
| CLeReadChannelMap (h : conn_handle)
| CLeReadRemoteUsedFeatures (h : conn_handle)
| CLeEncrypt (p : aes_parameters)
| CLeRand
| CLeStartEncryption (p : encryption_parameters)
| CLeLongTermKeyRequestReply (h : conn_handle) (key : list N)
| CLeLongTermKeyRequestNegativeReply (h : conn_handle)
| CLeReadSupportedStates
| CLeReceiverTest (channel : N)
| CLeTransmitterTest (channel : N) (payload_length : N) (payload : test_packet_payload)
| CLeTestEnd.

(** The two kinds of result of the methods: [nb::Result<(), E>] and
    [nb::Result<(), Error<E, VS>>] (e.g. src/host/mod.rs:136 and 108). *)
Inductive method_result : Type :=
| Plain (r : outcome (nb_error E) unit)
| Checked (r : outcome (nb_error (host_error E VS)) unit).

Definition as_plain (m : plain) : St -> St * method_result :=
  fun s => let (s', r) := m s in (s', Plain r).
Definition as_checked (m : checked_act) : St -> St * method_result :=
  fun s => let (s', r) := m s in (s', Checked r).

(** Calls the method (src/host/mod.rs:1198-1542). *)
Definition run_command (c : command) : St -> St * method_result :=
  match c with
  | CDisconnect h reason => as_checked (disconnect h reason)
  | CReadRemoteVersionInformation h => as_plain (read_remote_version_information h)
  | CSetEventMask mask => as_plain (set_event_mask mask)
  | CReset => as_plain reset
  | CReadTxPowerLevel h t => as_plain (read_tx_power_level h t)
  | CReadLocalVersionInformation => as_plain read_local_version_information
  | CReadLocalSupportedCommands => as_plain read_local_supported_commands
  | CReadLocalSupportedFeatures => as_plain read_local_supported_features
  | CReadBdAddr => as_plain read_bd_addr
  | CReadRssi h => as_plain (read_rssi h)
  | CLeSetEventMask mask => as_plain (le_set_event_mask mask)
  | CLeReadBufferSize => as_plain le_read_buffer_size
  | CLeReadLocalSupportedFeatures => as_plain le_read_local_supported_features
  | CLeSetRandomAddress a => as_checked (le_set_random_address a)
  | CLeSetAdvertisingParameters p => as_checked (le_set_advertising_parameters p)
  | CLeReadAdvertisingChannelTxPower => as_plain le_read_advertising_channel_tx_power
  | CLeSetAdvertisingData data => as_checked (le_set_advertising_data data)
  | CLeSetScanResponseData data => as_checked (le_set_scan_response_data data)
  | CLeSetAdvertiseEnable enable => as_plain (le_set_advertise_enable enable)
  | CLeSetAdvertisingEnable enable => as_plain (le_set_advertising_enable enable)
  | CLeSetScanParameters p => as_plain (le_set_scan_parameters p)
  | CLeSetScanEnable enable filter_duplicates => as_plain (le_set_scan_enable enable filter_duplicates)
  | CLeCreateConnection p => as_plain (le_create_connection p)
  | CLeCreateConnectionCancel => as_plain le_create_connection_cancel
  | CLeReadWhiteListSize => as_plain le_read_white_list_size
  | CLeClearWhiteList => as_plain le_clear_white_list
  | CLeAddDeviceToWhiteList a => as_plain (le_add_device_to_white_list a)
  | CLeAddAnonAdvertisingDevicesToWhiteList => as_plain le_add_anon_advertising_devices_to_white_list
  | CLeRemoveDeviceFromWhiteList a => as_plain (le_remove_device_from_white_list a)
  | CLeRemoveAnonAdvertisingDevicesFromWhiteList => as_plain le_remove_anon_advertising_devices_from_white_list
  | CLeConnectionUpdate p => as_plain (le_connection_update p)
  | CLeSetHostChannelClassification channels => as_checked (le_set_host_channel_classification channels)
  | CLeReadChannelMap h => as_plain (le_read_channel_map h)
  | CLeReadRemoteUsedFeatures h => as_plain (le_read_remote_used_features h)
  | CLeEncrypt p => as_plain (le_encrypt p)
  | CLeRand => as_plain le_rand
  | CLeStartEncryption p => as_plain (le_start_encryption p)
  | CLeLongTermKeyRequestReply h key => as_plain (le_long_term_key_request_reply h key)
  | CLeLongTermKeyRequestNegativeReply h => as_plain (le_long_term_key_request_negative_reply h)
  | CLeReadSupportedStates => as_plain le_read_supported_states
  | CLeReceiverTest channel => as_checked (le_receiver_test channel)
  | CLeTransmitterTest channel payload_length payload => as_checked (le_transmitter_test channel payload_length payload)
  | CLeTestEnd => as_plain le_test_end
  end.

End Commands.
Arguments command : clear implicits.

Arguments CDisconnect {V}.
Arguments CReadRemoteVersionInformation {V}.
Arguments CSetEventMask {V}.
Arguments CReset {V}.
Arguments CReadTxPowerLevel {V}.
Arguments CReadLocalVersionInformation {V}.
Arguments CReadLocalSupportedCommands {V}.
Arguments CReadLocalSupportedFeatures {V}.
Arguments CReadBdAddr {V}.
Arguments CReadRssi {V}.
Arguments CLeSetEventMask {V}.
Arguments CLeReadBufferSize {V}.
Arguments CLeReadLocalSupportedFeatures {V}.
Arguments CLeSetRandomAddress {V}.
Arguments CLeSetAdvertisingParameters {V}.
Arguments CLeReadAdvertisingChannelTxPower {V}.
Arguments CLeSetAdvertisingData {V}.
Arguments CLeSetScanResponseData {V}.
Arguments CLeSetAdvertiseEnable {V}.
Arguments CLeSetAdvertisingEnable {V}.
Arguments CLeSetScanParameters {V}.
Arguments CLeSetScanEnable {V}.
Arguments CLeCreateConnection {V}.
Arguments CLeCreateConnectionCancel {V}.
Arguments CLeReadWhiteListSize {V}.
Arguments CLeClearWhiteList {V}.
Arguments CLeAddDeviceToWhiteList {V}.
Arguments CLeAddAnonAdvertisingDevicesToWhiteList {V}.
Arguments CLeRemoveDeviceFromWhiteList {V}.
Arguments CLeRemoveAnonAdvertisingDevicesFromWhiteList {V}.
Arguments CLeConnectionUpdate {V}.
Arguments CLeSetHostChannelClassification {V}.
Arguments CLeReadChannelMap {V}.
Arguments CLeReadRemoteUsedFeatures {V}.
Arguments CLeEncrypt {V}.
Arguments CLeRand {V}.
Arguments CLeStartEncryption {V}.
Arguments CLeLongTermKeyRequestReply {V}.
Arguments CLeLongTermKeyRequestNegativeReply {V}.
Arguments CLeReadSupportedStates {V}.
Arguments CLeReceiverTest {V}.
Arguments CLeTransmitterTest {V}.
Arguments CLeTestEnd {V}.
Arguments method_result : clear implicits.
Arguments Plain {V E}.
Arguments Checked {V E}.

(** Methods that exist only with some features: src/host/mod.rs:1341 and 1350,
    1397, 1416. *)
Definition command_exists (F : features) {V} (c : command V) : bool :=
  match c with
  | CLeSetAdvertiseEnable _ => negb (version_5_0 F)
  | CLeSetAdvertisingEnable _
  | CLeAddAnonAdvertisingDevicesToWhiteList
  | CLeRemoveAnonAdvertisingDevicesFromWhiteList => version_5_0 F
  | _ => true
  end.

(** ** Reading events *)

(** src/host/uart.rs:16-24. *)
Inductive uart_error (E VE : Type) : Type :=
| UBadPacketType (b : N)
| UBLE (e : event_error VE)
| UComm (e : E).
Arguments UBadPacketType {E VE}.
Arguments UBLE {E VE}.
Arguments UComm {E VE}.

(** src/host/uart.rs:28-37, [Packet]: the only variant is [Event]. *)
Inductive uart_packet (V : vendor) : Type :=
| PEvent (e : event V).
Arguments PEvent {V}.

(** src/host/uart.rs:90-95. *)
Definition uart_rewrap_error {E VE} (e : nb_error E) : nb_error (uart_error E VE) :=
  match e with
  | WouldBlock => WouldBlock
  | Other e => Other (UComm e)
  end.

(** src/host/event_link.rs:16-21. *)
Inductive link_error (E VE : Type) : Type :=
| LBLE (e : event_error VE)
| LComm (e : E).
Arguments LBLE {E VE}.
Arguments LComm {E VE}.

(** src/host/event_link.rs:73-78. *)
Definition link_rewrap_error {E VE} (e : nb_error E) : nb_error (link_error E VE) :=
  match e with
  | WouldBlock => WouldBlock
  | Other e => Other (LComm e)
  end.

Section Reads.
Context (F : features) (V : vendor) {St E : Type} (C : controller St E).

(** [controller.read_into(&mut buf[..n])]: the new content of [buf]
    (src/host/uart.rs:112-114, src/host/event_link.rs:95-96). *)
Definition read_into_prefix (buf : list N) (n : nat) : act St (nb_error E) (list N) :=
  do! s := pure (slice buf 0 n) in
  do! s' := (fun st => ctl_read_into C st s) in
  pure (Ok (s' ++ skipn n buf)).

(** src/host/uart.rs:97-120. *)
Definition uart_read_event : act St (nb_error (uart_error E (VError V))) (event V) :=
  do! pl := amap_err uart_rewrap_error (fun st => ctl_peek C st 2) in
  let param_len := N.to_nat pl in
  do! buf := amap_err uart_rewrap_error
               (read_into_prefix (zeros (255 + 3)) (3 + param_len)) in
  do! packet := pure (slice buf 1 (3 + param_len)) in
  pure (map_err (fun e => Other (UBLE e)) (event_new F V packet)).

(** src/host/uart.rs:126-134. *)
Definition uart_read : act St (nb_error (uart_error E (VError V))) (uart_packet V) :=
  do! t := amap_err uart_rewrap_error (fun st => ctl_peek C st 0) in
  if t =? 0x04 then
    do! e := uart_read_event in pure (Ok (PEvent e))
  else pure (Err (Other (UBadPacketType t))).

(** src/host/event_link.rs:84-102. *)
Definition link_read : act St (nb_error (link_error E (VError V))) (event V) :=
  do! pl := amap_err link_rewrap_error (fun st => ctl_peek C st 1) in
  let param_len := N.to_nat pl in
  do! buf := amap_err link_rewrap_error
               (read_into_prefix (zeros (255 + 2)) (2 + param_len)) in
  do! packet := pure (slice buf 0 (2 + param_len)) in
  pure (map_err (fun e => Other (LBLE e)) (event_new F V packet)).

End Reads.
