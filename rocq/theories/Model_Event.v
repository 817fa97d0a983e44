(** * Events (src/event/mod.rs). *)
From Verif Require Import Base Model_Types Model_Bitflags Model_Intervals
  Model_EventBase Model_Command.

(** Enums decoded from one byte.  In the source each [TryFrom<u8>] has error
    type [Error<NeverError>] and the error is converted by [self_convert!]
    (src/event/mod.rs:34-43) to the same variant of [Error<VE>]; here the
    decoder has the converted error type directly. *)

(** src/event/mod.rs:383-405, [LinkType]. *)
Inductive link_type := Sco | Acl.
Definition link_type_try_from {VE} (b : N) : outcome (event_error VE) link_type :=
  if b =? 0 then Ok Sco else if b =? 1 then Ok Acl else Err (EBadLinkType b).

(** src/event/mod.rs:427-433, [try_into_encryption_enabled]. *)
Definition try_into_encryption_enabled {VE} (b : N) : outcome (event_error VE) bool :=
  if b =? 0 then Ok false else if b =? 1 then Ok true
  else Err (EBadEncryptionEnabledValue b).

(** src/event/mod.rs:509-529, [Encryption]. *)
Inductive encryption := EncOff | EncOn | EncOnAesCcmForBrEdr.
Definition encryption_try_from {VE} (b : N) : outcome (event_error VE) encryption :=
  if b =? 0x00 then Ok EncOff else if b =? 0x01 then Ok EncOn
  else if b =? 0x02 then Ok EncOnAesCcmForBrEdr else Err (EBadEncryptionType b).

(** src/event/mod.rs:837-857, [ConnectionRole]. *)
Inductive connection_role := Central | Peripheral.
Definition connection_role_try_from {VE} (b : N) : outcome (event_error VE) connection_role :=
  if b =? 0 then Ok Central else if b =? 1 then Ok Peripheral
  else Err (EBadLeConnectionRole b).

(** src/event/mod.rs:862-897, [CentralClockAccuracy]. *)
Inductive clock_accuracy :=
  Ppm500 | Ppm250 | Ppm150 | Ppm100 | Ppm75 | Ppm50 | Ppm30 | Ppm20.
Definition clock_accuracy_try_from {VE} (b : N) : outcome (event_error VE) clock_accuracy :=
  if b =? 0 then Ok Ppm500 else if b =? 1 then Ok Ppm250
  else if b =? 2 then Ok Ppm150 else if b =? 3 then Ok Ppm100
  else if b =? 4 then Ok Ppm75 else if b =? 5 then Ok Ppm50
  else if b =? 6 then Ok Ppm30 else if b =? 7 then Ok Ppm20
  else Err (EBadLeCentralClockAccuracy b).

(** src/event/mod.rs:1085-1111, [AdvertisementEvent]; the discriminants are
    0 to 4 in order ([as u8] at line 977). *)
Inductive advertisement_event :=
  AdvAdvertisement | AdvDirectAdvertisement | AdvScan
| AdvNonConnectableAdvertisement | AdvScanResponse.
Definition advertisement_event_try_from {VE} (b : N)
    : outcome (event_error VE) advertisement_event :=
  if b =? 0 then Ok AdvAdvertisement else if b =? 1 then Ok AdvDirectAdvertisement
  else if b =? 2 then Ok AdvScan else if b =? 3 then Ok AdvNonConnectableAdvertisement
  else if b =? 4 then Ok AdvScanResponse else Err (EBadLeAdvertisementType b).
Definition advertisement_event_as_u8 (e : advertisement_event) : N :=
  match e with
  | AdvAdvertisement => 0
  | AdvDirectAdvertisement => 1
  | AdvScan => 2
  | AdvNonConnectableAdvertisement => 3
  | AdvScanResponse => 4
  end.

(** src/event/mod.rs:1278-1298, [Phy]. *)
Inductive phy := Le1M | Le2M | LeCoded.
Definition phy_try_from {VE} (b : N) : outcome (event_error VE) phy :=
  if b =? 0 then Ok Le1M else if b =? 1 then Ok Le2M
  else if b =? 2 then Ok LeCoded else Err (EBadPhy b).

(** The event structs.  [VS] is the vendor status type. *)

(** src/event/mod.rs:367-379. *)
Record connection_complete (VS : Type) := Build_connection_complete {
  cnc_status : status VS;
  cnc_conn_handle : conn_handle;
  cnc_bd_addr : bd_addr;
  cnc_link_type : link_type;
  cnc_encryption_enabled : bool
}.
Arguments Build_connection_complete {VS}.
Arguments cnc_status {VS}.
Arguments cnc_conn_handle {VS}.
Arguments cnc_bd_addr {VS}.
Arguments cnc_link_type {VS}.
Arguments cnc_encryption_enabled {VS}.

(** src/event/mod.rs:444-458. *)
Record disconnection_complete (VS : Type) := Build_disconnection_complete {
  dsc_status : status VS;
  dsc_conn_handle : conn_handle;
  dsc_reason : status VS
}.
Arguments Build_disconnection_complete {VS}.
Arguments dsc_status {VS}.
Arguments dsc_conn_handle {VS}.
Arguments dsc_reason {VS}.

(** src/event/mod.rs:482-496. *)
Record encryption_change (VS : Type) := Build_encryption_change {
  ech_status : status VS;
  ech_conn_handle : conn_handle;
  ech_encryption : encryption
}.
Arguments Build_encryption_change {VS}.
Arguments ech_status {VS}.
Arguments ech_conn_handle {VS}.
Arguments ech_encryption {VS}.

(** src/event/mod.rs:550-586. *)
Record remote_version_information (VS : Type) := Build_remote_version_information {
  rvi_status : status VS;
  rvi_conn_handle : conn_handle;
  rvi_version : N;
  rvi_mfgr_name : N;
  rvi_subversion : N
}.
Arguments Build_remote_version_information {VS}.
Arguments rvi_status {VS}.
Arguments rvi_conn_handle {VS}.
Arguments rvi_version {VS}.
Arguments rvi_mfgr_name {VS}.
Arguments rvi_subversion {VS}.

(** src/event/mod.rs:608-619. *)
Record command_status (VS : Type) := Build_command_status {
  cst_status : status VS;
  cst_num_hci_command_packets : N;
  cst_opcode : opcode
}.
Arguments Build_command_status {VS}.
Arguments cst_status {VS}.
Arguments cst_num_hci_command_packets {VS}.
Arguments cst_opcode {VS}.

(** src/event/mod.rs:639-643. *)
Record hardware_error := Build_hardware_error {
  hwe_code : N
}.

(** src/event/mod.rs:657-663; [data_buf] has 254 bytes (line 667). *)
Record number_of_completed_packets := Build_number_of_completed_packets {
  ncp_num_handles : nat;
  ncp_data_buf : list N
}.

(** src/event/mod.rs:719-726; [num_completed_packets : usize] is kept as [N]. *)
Record completed_packets_pair := Build_completed_packets_pair {
  cpp_conn_handle : conn_handle;
  cpp_num_completed_packets : N
}.

(** src/event/mod.rs:749-752. *)
Record data_buffer_overflow := Build_data_buffer_overflow {
  dbo_link_type : link_type
}.

(** src/event/mod.rs:781-786. *)
Record encryption_key_refresh_complete (VS : Type) := Build_encryption_key_refresh_complete {
  ekr_status : status VS;
  ekr_conn_handle : conn_handle
}.
Arguments Build_encryption_key_refresh_complete {VS}.
Arguments ekr_status {VS}.
Arguments ekr_conn_handle {VS}.

(** src/event/mod.rs:813-833. *)
Record le_connection_complete (VS : Type) := Build_le_connection_complete {
  lcc_status : status VS;
  lcc_conn_handle : conn_handle;
  lcc_role : connection_role;
  lcc_peer_bd_addr : bd_addr_type;
  lcc_conn_interval : fixed_conn_interval;
  lcc_central_clock_accuracy : clock_accuracy
}.
Arguments Build_le_connection_complete {VS}.
Arguments lcc_status {VS}.
Arguments lcc_conn_handle {VS}.
Arguments lcc_role {VS}.
Arguments lcc_peer_bd_addr {VS}.
Arguments lcc_conn_interval {VS}.
Arguments lcc_central_clock_accuracy {VS}.

(** src/event/mod.rs:933-938; [data_buf] has 253 bytes. *)
Record le_advertising_report := Build_le_advertising_report {
  lar_data_len : nat;
  lar_data_buf : list N
}.

(** src/event/mod.rs:1065-1079; [rssi : Option<i8>]. *)
Record le_advertisement := Build_le_advertisement {
  la_event_type : advertisement_event;
  la_address : bd_addr_type;
  la_data : list N;
  la_rssi : option Z
}.

(** src/event/mod.rs:1145-1155. *)
Record le_connection_update_complete (VS : Type) := Build_le_connection_update_complete {
  lcu_status : status VS;
  lcu_conn_handle : conn_handle;
  lcu_conn_interval : fixed_conn_interval
}.
Arguments Build_le_connection_update_complete {VS}.
Arguments lcu_status {VS}.
Arguments lcu_conn_handle {VS}.
Arguments lcu_conn_interval {VS}.

(** src/event/mod.rs:1182-1189; the bits of [LinkLayerFeature]. *)
Record le_read_remote_used_features_complete (VS : Type) := Build_le_read_remote_used_features_complete {
  lrf_status : status VS;
  lrf_conn_handle : conn_handle;
  lrf_features : N
}.
Arguments Build_le_read_remote_used_features_complete {VS}.
Arguments lrf_status {VS}.
Arguments lrf_conn_handle {VS}.
Arguments lrf_features {VS}.

(** src/event/mod.rs:1214-1221. *)
Record le_long_term_key_request := Build_le_long_term_key_request {
  ltk_conn_handle : conn_handle;
  ltk_random_value : N;
  ltk_encrypted_diversifier : N
}.

(** src/event/mod.rs:1241-1256. *)
Record le_data_length_change_event := Build_le_data_length_change_event {
  dlc_conn_handle : conn_handle;
  dlc_max_tx_octets : N;
  dlc_max_tx_time : N;
  dlc_max_rx_octets : N;
  dlc_max_rx_time : N
}.

(** src/event/mod.rs:1308-1317. *)
Record le_phy_update_complete (VS : Type) := Build_le_phy_update_complete {
  lpu_status : status VS;
  lpu_conn_handle : conn_handle;
  lpu_tx_phy : phy;
  lpu_rx_phy : phy
}.
Arguments Build_le_phy_update_complete {VS}.
Arguments lpu_status {VS}.
Arguments lpu_conn_handle {VS}.
Arguments lpu_tx_phy {VS}.
Arguments lpu_rx_phy {VS}.

(** src/event/mod.rs:64-121, [enum Event].  Constructors are prefixed with [Ev]. *)
Inductive event (V : vendor) : Type :=
| EvConnectionComplete (e : connection_complete (VStatus V))
| EvDisconnectionComplete (e : disconnection_complete (VStatus V))
| EvEncryptionChange (e : encryption_change (VStatus V))
| EvReadRemoteVersionInformationComplete (e : remote_version_information (VStatus V))
| EvCommandComplete (e : command_complete V)
| EvCommandStatus (e : command_status (VStatus V))
| EvHardwareError (e : hardware_error)
| EvNumberOfCompletedPackets (e : number_of_completed_packets)
| EvDataBufferOverflow (e : data_buffer_overflow)
| EvEncryptionKeyRefreshComplete (e : encryption_key_refresh_complete (VStatus V))
| EvLeConnectionComplete (e : le_connection_complete (VStatus V))
| EvLeAdvertisingReport (e : le_advertising_report)
| EvLeConnectionUpdateComplete (e : le_connection_update_complete (VStatus V))
| EvLeReadRemoteUsedFeaturesComplete (e : le_read_remote_used_features_complete (VStatus V))
| EvLeLongTermKeyRequest (e : le_long_term_key_request)
| EvLeDataLengthChangeEvent (e : le_data_length_change_event)
| EvLePhyUpdateComplete (e : le_phy_update_complete (VStatus V))
| EvVendor (e : VEvent V).

Arguments EvConnectionComplete {V}.
Arguments EvDisconnectionComplete {V}.
Arguments EvEncryptionChange {V}.
Arguments EvReadRemoteVersionInformationComplete {V}.
Arguments EvCommandComplete {V}.
Arguments EvCommandStatus {V}.
Arguments EvHardwareError {V}.
Arguments EvNumberOfCompletedPackets {V}.
Arguments EvDataBufferOverflow {V}.
Arguments EvEncryptionKeyRefreshComplete {V}.
Arguments EvLeConnectionComplete {V}.
Arguments EvLeAdvertisingReport {V}.
Arguments EvLeConnectionUpdateComplete {V}.
Arguments EvLeReadRemoteUsedFeaturesComplete {V}.
Arguments EvLeLongTermKeyRequest {V}.
Arguments EvLeDataLengthChangeEvent {V}.
Arguments EvLePhyUpdateComplete {V}.
Arguments EvVendor {V}.

(** ** Iterators *)

(** src/event/mod.rs:696. *)
Definition NUM_COMPLETED_PACKETS_PAIR_LEN : nat := 4.

(** src/event/mod.rs:701-713, [NumberOfCompletedPacketsIterator::next]; the
    iterator state is [next_index], starting at 0 (lines 681-686). *)
Definition ncp_next {E} (ev : number_of_completed_packets) (next_index : nat)
    : outcome E (option completed_packets_pair * nat) :=
  if Nat.leb (ncp_num_handles ev * NUM_COMPLETED_PACKETS_PAIR_LEN) next_index
  then Ok (None, next_index)
  else
    let index := next_index in
    let next_index := (next_index + NUM_COMPLETED_PACKETS_PAIR_LEN)%nat in
    let! h := u16_at (ncp_data_buf ev) index in
    let! n := u16_at (ncp_data_buf ev) (index + 2) in
    Ok (Some (Build_completed_packets_pair h n), next_index).

(** src/event/mod.rs:1025-1059, [LeAdvertisingReportInnerIterator::next]; the
    iterator state is [next_index].  Simplification: after an error the new
    state is not returned; both callers stop using the iterator then (line 1119
    returns, line 1020 panics). *)
Definition lar_inner_next {VE} (event_data : list N) (next_index : nat)
    : outcome (event_error VE) (option le_advertisement * nat) :=
  if Nat.leb (length event_data) next_index then Ok (None, next_index) else
  let event_type_index := next_index in
  let addr_type_index := (event_type_index + 1)%nat in
  let addr_index := (addr_type_index + 1)%nat in
  let data_len_index := (addr_index + 6)%nat in
  let! dl := idx event_data data_len_index in
  let data_len := N.to_nat dl in
  let data_start_index := (data_len_index + 1)%nat in
  let rssi_index := (data_start_index + data_len)%nat in
  let next_index := (rssi_index + 1)%nat in
  if Nat.ltb (length event_data) next_index
  then Err ELeAdvertisementReportIncomplete else
  let! bd_addr := array_at 6 event_data addr_index data_len_index in
  let! et := idx event_data event_type_index in
  let! event_type := advertisement_event_try_from et in
  let! at_ := idx event_data addr_type_index in
  let! address := bd_addr_type_of at_ bd_addr in
  let! data := slice event_data data_start_index rssi_index in
  let! r := idx event_data rssi_index in
  let rssi := if (u8_as_i8 r =? 127)%Z then None else Some (u8_as_i8 r) in
  Ok (Some (Build_le_advertisement event_type address data rssi), next_index).

(** src/event/mod.rs:948-954, [inner_iter]: the slice the iterator walks. *)
Definition lar_event_data {E} (r : le_advertising_report) : outcome E (list N) :=
  slice (lar_data_buf r) 0 (lar_data_len r).

(** src/event/mod.rs:1019-1021, [LeAdvertisingReportIterator::next]: unwraps. *)
Definition lar_next {E} (r : le_advertising_report) (next_index : nat)
    : outcome E (option le_advertisement * nat) :=
  let! d := lar_event_data r in
  match @lar_inner_next Empty_set d next_index with
  | Ok x => Ok x
  | Err _ => Panic
  | Panic => Panic
  end.

(** src/event/mod.rs:1119, [while let Some(_) = check_iter.next()? {}].  [None]
    means the loop did not end within [fuel] iterations; [lar_check_terminates]
    in Proofs_Report.v shows that this does not happen. *)
Fixpoint lar_check {VE} (fuel : nat) (event_data : list N) (next_index : nat)
    : option (outcome (event_error VE) unit) :=
  match fuel with
  | O => None
  | S fuel' =>
      match lar_inner_next event_data next_index with
      | Ok (Some _, next_index') => lar_check fuel' event_data next_index'
      | Ok (None, _) => Some (Ok tt)
      | Err e => Some (Err e)
      | Panic => Some Panic
      end
  end.

(** src/event/mod.rs:938. *)
Definition MAX_ADVERTISING_REPORT_LEN : nat := 253.

(** src/event/mod.rs:1113-1125, [to_le_advertising_report].  The fuel is one
    more than the number of bytes. *)
Definition to_le_advertising_report {VE} (payload : list N)
    : outcome (event_error VE) le_advertising_report :=
  let! event_data := slice_from payload 2 in
  match lar_check (S (length event_data)) event_data 0 with
  | None => Panic
  | Some r =>
      let! _ := r in
      let data_len := (length payload - 2)%nat in
      let! src := slice_from payload 2 in
      let! data_buf :=
        update_range (zeros MAX_ADVERTISING_REPORT_LEN) 0 data_len (copy_from_slice src) in
      Ok (Build_le_advertising_report data_len data_buf)
  end.

(** src/event/mod.rs:964-990, [test_helpers::report_with_advertisements]: the
    loop over the advertisements. *)
Fixpoint report_loop {E} (advs : list le_advertisement) (data_len : nat) (buf : list N)
    : outcome E le_advertising_report :=
  match advs with
  | [] => Ok (Build_le_advertising_report data_len buf)
  | a :: rest =>
      let event_type_index := data_len in
      let addr_index := (1 + event_type_index)%nat in
      let data_len_index := (7 + addr_index)%nat in
      let data_start_index := (1 + data_len_index)%nat in
      let rssi_index := (data_start_index + length (la_data a))%nat in
      let! buf := set_idx buf event_type_index (advertisement_event_as_u8 (la_event_type a)) in
      let! buf := update_range buf addr_index data_len_index (bd_addr_type_copy (la_address a)) in
      let! buf := set_idx buf data_len_index (as_u8 (N.of_nat (length (la_data a)))) in
      let! buf := update_range buf data_start_index rssi_index (copy_from_slice (la_data a)) in
      let! buf := set_idx buf rssi_index
        (i8_as_u8 (match la_rssi a with Some r => r | None => 127%Z end)) in
      report_loop rest (1 + rssi_index) buf
  end.
Definition report_with_advertisements {E} (advs : list le_advertisement)
    : outcome E le_advertising_report :=
  report_loop advs 0 (zeros MAX_ADVERTISING_REPORT_LEN).

(** ** Decoders *)
Section Event.
Context (F : features) (V : vendor).
Local Notation res := (outcome (event_error (VError V))).
Local Notation VS := (VStatus V).

(** src/event/mod.rs:407-425. *)
Definition to_connection_complete (p : list N) : res (connection_complete VS) :=
  let! _ := require_len p 11 in
  let! a := array_at 6 p 3 9 in
  let! b := idx p 0 in let! s := status_of F V b in
  let! h := u16_at p 1 in
  let! b := idx p 9 in let! lt := link_type_try_from b in
  let! b := idx p 10 in let! en := try_into_encryption_enabled b in
  Ok (Build_connection_complete s h a lt en).

(** src/event/mod.rs:460-471. *)
Definition to_disconnection_complete (p : list N) : res (disconnection_complete VS) :=
  let! _ := require_len p 4 in
  let! b := idx p 0 in let! s := status_of F V b in
  let! h := u16_at p 1 in
  let! b := idx p 3 in let! r := reason_of F V b in
  Ok (Build_disconnection_complete s h r).

(** src/event/mod.rs:531-543. *)
Definition to_encryption_change (p : list N) : res (encryption_change VS) :=
  let! _ := require_len p 4 in
  let! b := idx p 0 in let! s := status_of F V b in
  let! h := u16_at p 1 in
  let! b := idx p 3 in let! e := encryption_try_from b in
  Ok (Build_encryption_change s h e).

(** src/event/mod.rs:588-600. *)
Definition to_remote_version_info (p : list N) : res (remote_version_information VS) :=
  let! _ := require_len p 8 in
  let! b := idx p 0 in let! s := status_of F V b in
  let! h := u16_at p 1 in
  let! v := idx p 3 in
  let! m := u16_at p 4 in
  let! sv := u16_at p 6 in
  Ok (Build_remote_version_information s h v m sv).

(** src/event/mod.rs:621-632. *)
Definition to_command_status (p : list N) : res (command_status VS) :=
  let! _ := require_len p 4 in
  let! b := idx p 0 in let! s := status_of F V b in
  let! n := idx p 1 in
  let! o := u16_at p 2 in
  Ok (Build_command_status s n o).

(** src/event/mod.rs:645-648. *)
Definition to_hardware_error (p : list N) : res hardware_error :=
  let! _ := require_len p 1 in
  let! c := idx p 0 in
  Ok (Build_hardware_error c).

(** src/event/mod.rs:667. *)
Definition NUMBER_OF_COMPLETED_PACKETS_MAX_LEN : nat := 254.

(** src/event/mod.rs:728-742. *)
Definition to_number_of_completed_packets (p : list N) : res number_of_completed_packets :=
  let! _ := require_len_at_least p 1 in
  let! n := idx p 0 in
  let num_pairs := N.to_nat n in
  let! _ := require_len p (1 + num_pairs * NUM_COMPLETED_PACKETS_PAIR_LEN) in
  let! src := slice_from p 1 in
  let! buf := update_range (zeros NUMBER_OF_COMPLETED_PACKETS_MAX_LEN)
                0 (num_pairs * NUM_COMPLETED_PACKETS_PAIR_LEN) (copy_from_slice src) in
  Ok (Build_number_of_completed_packets num_pairs buf).

(** src/event/mod.rs:754-761. *)
Definition to_data_buffer_overflow (p : list N) : res data_buffer_overflow :=
  let! _ := require_len p 1 in
  let! b := idx p 0 in let! lt := link_type_try_from b in
  Ok (Build_data_buffer_overflow lt).

(** src/event/mod.rs:788-799. *)
Definition to_encryption_key_refresh_complete (p : list N)
    : res (encryption_key_refresh_complete VS) :=
  let! _ := require_len p 3 in
  let! b := idx p 0 in let! s := status_of F V b in
  let! h := u16_at p 1 in
  Ok (Build_encryption_key_refresh_complete s h).

(** src/event/mod.rs:899-920. *)
Definition to_le_connection_complete (p : list N) : res (le_connection_complete VS) :=
  let! _ := require_len p 19 in
  let! a := array_at 6 p 6 12 in
  let! b := idx p 1 in let! s := status_of F V b in
  let! h := u16_at p 2 in
  let! b := idx p 4 in let! role := connection_role_try_from b in
  let! b := idx p 5 in let! peer := bd_addr_type_of b a in
  let! sl := slice p 12 18 in
  let! ci := map_err EBadConnectionInterval (fci_from_bytes sl) in
  let! b := idx p 18 in let! acc := clock_accuracy_try_from b in
  Ok (Build_le_connection_complete s h role peer ci acc).

(** src/event/mod.rs:1157-1170. *)
Definition to_le_connection_update_complete (p : list N)
    : res (le_connection_update_complete VS) :=
  let! _ := require_len p 10 in
  let! b := idx p 1 in let! s := status_of F V b in
  let! h := u16_at p 2 in
  let! sl := slice p 4 10 in
  let! ci := map_err EBadConnectionInterval (fci_from_bytes sl) in
  Ok (Build_le_connection_update_complete s h ci).

(** src/event/mod.rs:1191-1206. *)
Definition to_le_read_remote_used_features_complete (p : list N)
    : res (le_read_remote_used_features_complete VS) :=
  let! _ := require_len p 12 in
  let! ff := u64_at p 4 in
  let! b := idx p 1 in let! s := status_of F V b in
  let! h := u16_at p 2 in
  match bf_from_bits F LinkLayerFeature ff with
  | Some fe => Ok (Build_le_read_remote_used_features_complete s h fe)
  | None => Err (EBadRemoteUsedFeatureFlag ff)
  end.

(** src/event/mod.rs:1223-1231. *)
Definition to_le_ltk_request (p : list N) : res le_long_term_key_request :=
  let! _ := require_len p 13 in
  let! h := u16_at p 1 in
  let! r := u64_at p 3 in
  let! d := u16_at p 11 in
  Ok (Build_le_long_term_key_request h r d).

(** src/event/mod.rs:1258-1272. *)
Definition to_le_data_length_change_event (p : list N) : res le_data_length_change_event :=
  let! _ := require_len p 11 in
  let! h := u16_at p 1 in
  let! txo := u16_at p 3 in
  let! txt := u16_at p 5 in
  let! rxo := u16_at p 7 in
  let! rxt := u16_at p 9 in
  Ok (Build_le_data_length_change_event h txo txt rxo rxt).

(** src/event/mod.rs:1319-1331. *)
Definition to_le_phy_update_complete (p : list N) : res (le_phy_update_complete VS) :=
  let! _ := require_len p 6 in
  let! b := idx p 1 in let! s := status_of F V b in
  let! h := u16_at p 2 in
  let! b := idx p 4 in let! tx := phy_try_from b in
  let! b := idx p 5 in let! rx := phy_try_from b in
  Ok (Build_le_phy_update_complete s h tx rx).

(** [Ok(Event::X(to_x(payload)?))] (e.g. src/event/mod.rs:305). *)
Definition wrap {A} (m : res A) (k : A -> event V) : res (event V) :=
  let! a := m in Ok (k a).

(** src/event/mod.rs:332-359, [to_le_meta_event]. *)
Definition to_le_meta_event (p : list N) : res (event V) :=
  let! _ := require_len_at_least p 1 in
  let! c := idx p 0 in
  if c =? 0x01 then wrap (to_le_connection_complete p) EvLeConnectionComplete else
  if c =? 0x02 then wrap (to_le_advertising_report p) EvLeAdvertisingReport else
  if c =? 0x03 then wrap (to_le_connection_update_complete p) EvLeConnectionUpdateComplete else
  if c =? 0x04 then
    wrap (to_le_read_remote_used_features_complete p) EvLeReadRemoteUsedFeaturesComplete else
  if c =? 0x05 then wrap (to_le_ltk_request p) EvLeLongTermKeyRequest else
  if c =? 0x07 then wrap (to_le_data_length_change_event p) EvLeDataLengthChangeEvent else
  if c =? 0x0C then wrap (to_le_phy_update_complete p) EvLePhyUpdateComplete else
  Err (EUnknownEvent c).

(** The match at src/event/mod.rs:304-328. *)
Definition event_dispatch (event_type : N) (payload : list N) : res (event V) :=
  if event_type =? 0x03 then
    wrap (to_connection_complete payload) EvConnectionComplete else
  if event_type =? 0x05 then
    wrap (to_disconnection_complete payload) EvDisconnectionComplete else
  if event_type =? 0x08 then wrap (to_encryption_change payload) EvEncryptionChange else
  if event_type =? 0x0C then
    wrap (to_remote_version_info payload) EvReadRemoteVersionInformationComplete else
  if event_type =? 0x0E then wrap (command_complete_new F V payload) EvCommandComplete else
  if event_type =? 0x0F then wrap (to_command_status payload) EvCommandStatus else
  if event_type =? 0x10 then wrap (to_hardware_error payload) EvHardwareError else
  if event_type =? 0x13 then
    wrap (to_number_of_completed_packets payload) EvNumberOfCompletedPackets else
  if event_type =? 0x1A then wrap (to_data_buffer_overflow payload) EvDataBufferOverflow else
  if event_type =? 0x30 then
    wrap (to_encryption_key_refresh_complete payload) EvEncryptionKeyRefreshComplete else
  if event_type =? 0x3E then to_le_meta_event payload else
  if event_type =? 0xFF then wrap (vevent_new V payload) EvVendor else
  Err (EUnknownEvent event_type).

(** src/event/mod.rs:272-274, [Packet::full_length]. *)
Definition packet_full_length (packet : list N) : res nat :=
  let! n := idx packet 1 in Ok (2 + N.to_nat n)%nat.

(** src/event/mod.rs:298-329, [Event::new]. *)
Definition event_new (packet : list N) : res (event V) :=
  let! _ := require_len_at_least packet 2 in
  let! n := packet_full_length packet in
  let! _ := require_len packet n in
  let! event_type := idx packet 0 in
  let! n := packet_full_length packet in
  let! payload := slice packet 2 n in
  event_dispatch event_type payload.

End Event.
