(** * Machine words.

    In the other models a [usize] is a natural number.  Here is the code with
    arithmetic on variables of type [usize] again, as a machine runs it on which
    there are only so many values of the type. *)
From Verif Require Import Base Model_Types Model_Intervals Model_EventBase Model_Command Model_Event Model_Host.
Open Scope list_scope.
Open Scope N_scope.

(** The number of values of [usize], and whether overflow is checked for (debug
    profile) or wraps around (release profile); for the
    code cited below (e.g. src/event/mod.rs:970-984). *)
Record machine := { usizes : N; checked : bool }.

(** The result [v] of [+] or [*] on [usize] (e.g. src/event/mod.rs:970-984). *)
Definition usize {E} (m : machine) (v : N) : outcome E nat :=
  if v <? usizes m then Ok (N.to_nat v)
  else if checked m then Panic else Ok (N.to_nat (v mod usizes m)).
Definition usize_add {E} (m : machine) (a b : nat) : outcome E nat := usize m (N.of_nat a + N.of_nat b).
Definition usize_mul {E} (m : machine) (a b : nat) : outcome E nat := usize m (N.of_nat a * N.of_nat b).
(** [-] on [usize] (src/event/mod.rs:1121). *)
Definition usize_sub {E} (m : machine) (a b : nat) : outcome E nat :=
  if Nat.leb b a then Ok (a - b)%nat
  else if checked m then Panic else Ok (N.to_nat (N.of_nat a + usizes m - N.of_nat b)).

Section Machine.
Context (m : machine).

(** ** src/event/mod.rs *)

(** src/event/mod.rs:701-713, [NumberOfCompletedPacketsIterator::next]. *)
Definition ncp_next_on {E} (ev : number_of_completed_packets) (next_index : nat)
    : outcome E (option completed_packets_pair * nat) :=
  let! end_index := usize_mul m (ncp_num_handles ev) NUM_COMPLETED_PACKETS_PAIR_LEN in
  if Nat.leb end_index next_index then Ok (None, next_index)
  else
    let index := next_index in
    let! next_index := usize_add m next_index NUM_COMPLETED_PACKETS_PAIR_LEN in
    let! h := u16_at (ncp_data_buf ev) index in
    let! second := usize_add m index 2 in
    let! n := u16_at (ncp_data_buf ev) second in
    Ok (Some (Build_completed_packets_pair h n), next_index).

(** src/event/mod.rs:1025-1059, [LeAdvertisingReportInnerIterator::next]. *)
Definition lar_inner_next_on {VE} (event_data : list N) (next_index : nat)
    : outcome (event_error VE) (option le_advertisement * nat) :=
  if Nat.leb (length event_data) next_index then Ok (None, next_index) else
  let event_type_index := next_index in
  let! addr_type_index := usize_add m event_type_index 1 in
  let! addr_index := usize_add m addr_type_index 1 in
  let! data_len_index := usize_add m addr_index 6 in
  let! dl := idx event_data data_len_index in
  let data_len := N.to_nat dl in
  let! data_start_index := usize_add m data_len_index 1 in
  let! rssi_index := usize_add m data_start_index data_len in
  let! next_index := usize_add m rssi_index 1 in
  if Nat.ltb (length event_data) next_index
  then Err ELeAdvertisementReportIncomplete else
  let! bd_addr := array_at 6 event_data addr_index data_len_index in
  let! et := idx event_data event_type_index in
  let! event_type := advertisement_event_try_from et in
  let! at_ := idx event_data addr_type_index in
  let! address := bd_addr_type_of at_ bd_addr in
  let! data := slice event_data data_start_index rssi_index in
  let! r := idx event_data rssi_index in
  let rssi := if (u8_as_i8 r =? 127)%Z then None else Some (u8_as_i8 r) in
  Ok (Some (Build_le_advertisement event_type address data rssi), next_index).

(** src/event/mod.rs:1019-1021, [LeAdvertisingReportIterator::next]. *)
Definition lar_next_on {E} (r : le_advertising_report) (next_index : nat)
    : outcome E (option le_advertisement * nat) :=
  let! d := lar_event_data r in
  match @lar_inner_next_on Empty_set d next_index with
  | Ok x => Ok x
  | Err _ => Panic
  | Panic => Panic
  end.

(** src/event/mod.rs:1119, [while let Some(_) = check_iter.next()? {}]. *)
Fixpoint lar_check_on {VE} (fuel : nat) (event_data : list N) (next_index : nat)
    : option (outcome (event_error VE) unit) :=
  match fuel with
  | O => None
  | S fuel' =>
      match lar_inner_next_on event_data next_index with
      | Ok (Some _, next_index') => lar_check_on fuel' event_data next_index'
      | Ok (None, _) => Some (Ok tt)
      | Err e => Some (Err e)
      | Panic => Some Panic
      end
  end.

(** src/event/mod.rs:1113-1125, [to_le_advertising_report]. *)
Definition to_le_advertising_report_on {VE} (payload : list N)
    : outcome (event_error VE) le_advertising_report :=
  let! event_data := slice_from payload 2 in
  match lar_check_on (S (length event_data)) event_data 0 with
  | None => Panic
  | Some r =>
      let! _ := r in
      let! data_len := usize_sub m (length payload) 2 in
      let! src := slice_from payload 2 in
      let! data_buf :=
        update_range (zeros MAX_ADVERTISING_REPORT_LEN) 0 data_len (copy_from_slice src) in
      Ok (Build_le_advertising_report data_len data_buf)
  end.

(** src/event/mod.rs:964-990, [test_helpers::report_with_advertisements]. *)
Fixpoint report_loop_on {E} (advs : list le_advertisement) (data_len : nat) (buf : list N)
    : outcome E le_advertising_report :=
  match advs with
  | [] => Ok (Build_le_advertising_report data_len buf)
  | a :: rest =>
      let event_type_index := data_len in
      let! addr_index := usize_add m 1 event_type_index in
      let! data_len_index := usize_add m 7 addr_index in
      let! data_start_index := usize_add m 1 data_len_index in
      let! rssi_index := usize_add m data_start_index (length (la_data a)) in
      let! buf := set_idx buf event_type_index (advertisement_event_as_u8 (la_event_type a)) in
      let! buf := update_range buf addr_index data_len_index (bd_addr_type_copy (la_address a)) in
      let! buf := set_idx buf data_len_index (as_u8 (N.of_nat (length (la_data a)))) in
      let! buf := update_range buf data_start_index rssi_index (copy_from_slice (la_data a)) in
      let! buf := set_idx buf rssi_index
        (i8_as_u8 (match la_rssi a with Some r => r | None => 127%Z end)) in
      let! data_len := usize_add m 1 rssi_index in
      report_loop_on rest data_len buf
  end.
Definition report_with_advertisements_on {E} (advs : list le_advertisement)
    : outcome E le_advertising_report :=
  report_loop_on advs 0 (zeros MAX_ADVERTISING_REPORT_LEN).

(** src/event/mod.rs:728-742. *)
Definition to_number_of_completed_packets_on {VE} (p : list N)
    : outcome (event_error VE) number_of_completed_packets :=
  let! _ := require_len_at_least p 1 in
  let! n := idx p 0 in
  let num_pairs := N.to_nat n in
  let! pairs_len := usize_mul m num_pairs NUM_COMPLETED_PACKETS_PAIR_LEN in
  let! len := usize_add m 1 pairs_len in
  let! _ := require_len p len in
  let! src := slice_from p 1 in
  let! pairs_len := usize_mul m num_pairs NUM_COMPLETED_PACKETS_PAIR_LEN in
  let! buf := update_range (zeros NUMBER_OF_COMPLETED_PACKETS_MAX_LEN) 0 pairs_len (copy_from_slice src) in
  Ok (Build_number_of_completed_packets num_pairs buf).

(** src/event/mod.rs:304-328 and 332-359: the decoders of the other events have
    no arithmetic on variables of type [usize]. *)
Definition event_dispatch_on (F : features) (V : vendor) (event_type : N) (payload : list N)
    : outcome (event_error (VError V)) (event V) :=
  if event_type =? 0x13 then
    wrap V (to_number_of_completed_packets_on payload) EvNumberOfCompletedPackets else
  if event_type =? 0x3E then
    let! _ := require_len_at_least payload 1 in
    let! c := idx payload 0 in
    if c =? 0x02 then wrap V (to_le_advertising_report_on payload) EvLeAdvertisingReport
    else to_le_meta_event F V payload
  else event_dispatch F V event_type payload.

(** src/event/mod.rs:272-274, [Packet::full_length]. *)
Definition packet_full_length_on {VE} (packet : list N) : outcome (event_error VE) nat :=
  let! n := idx packet 1 in usize_add m 2 (N.to_nat n).

(** src/event/mod.rs:298-329, [Event::new]. *)
Definition event_new_on (F : features) (V : vendor) (packet : list N)
    : outcome (event_error (VError V)) (event V) :=
  let! _ := require_len_at_least packet 2 in
  let! n := packet_full_length_on packet in
  let! _ := require_len packet n in
  let! event_type := idx packet 0 in
  let! n := packet_full_length_on packet in
  let! payload := slice packet 2 n in
  event_dispatch_on F V event_type payload.

(** ** src/host/uart.rs and src/host/event_link.rs *)

(** src/host/uart.rs:97-120. *)
Definition uart_read_event_on (F : features) (V : vendor) {St E} (C : controller St E)
    : act St (nb_error (uart_error E (VError V))) (event V) :=
  do! pl := amap_err uart_rewrap_error (fun st => ctl_peek C st 2) in
  let param_len := N.to_nat pl in
  do! n := pure (usize_add m 3 param_len) in
  do! buf := amap_err uart_rewrap_error (read_into_prefix C (zeros (255 + 3)) n) in
  do! n := pure (usize_add m 3 param_len) in
  do! packet := pure (slice buf 1 n) in
  pure (map_err (fun e => Other (UBLE e)) (event_new_on F V packet)).

(** src/host/uart.rs:126-134. *)
Definition uart_read_on (F : features) (V : vendor) {St E} (C : controller St E)
    : act St (nb_error (uart_error E (VError V))) (uart_packet V) :=
  do! t := amap_err uart_rewrap_error (fun st => ctl_peek C st 0) in
  if t =? 0x04 then
    do! e := uart_read_event_on F V C in pure (Ok (PEvent e))
  else pure (Err (Other (UBadPacketType t))).

(** src/host/event_link.rs:84-102. *)
Definition link_read_on (F : features) (V : vendor) {St E} (C : controller St E)
    : act St (nb_error (link_error E (VError V))) (event V) :=
  do! pl := amap_err link_rewrap_error (fun st => ctl_peek C st 1) in
  let param_len := N.to_nat pl in
  do! n := pure (usize_add m 2 param_len) in
  do! buf := amap_err link_rewrap_error (read_into_prefix C (zeros (255 + 2)) n) in
  do! n := pure (usize_add m 2 param_len) in
  do! packet := pure (slice buf 0 n) in
  pure (map_err (fun e => Other (LBLE e)) (event_new_on F V packet)).

(** ** src/types/advertisement.rs *)

(** src/types/advertisement.rs:42-50, [len]. *)
Definition ad_len_on {E} (a : advertisement) : outcome E nat :=
  let! n :=
    match a with
    | CompleteLocalName n => Ok (length n)
    | ServiceData16BitUuid _ b | ManufacturerSpecificData _ b => usize_add m 2 (length b)
    | ServiceData32BitUuid _ b => usize_add m 4 (length b)
    | ServiceData128BitUuid _ b => usize_add m 16 (length b)
    end in
  usize_add m 2 n.

(** src/types/advertisement.rs:70-94, [copy_into_slice]. *)
Definition ad_copy_into_slice_on {E} (a : advertisement) (buf : list N)
    : outcome E (list N * nat) :=
  let! len := ad_len_on a in
  let! l := usize_sub m len 1 in
  let! buf := set_idx buf 0 (as_u8 (N.of_nat l)) in
  let! buf := set_idx buf 1 (ad_type a) in
  let! buf :=
    match a with
    | CompleteLocalName n =>
        let! j := usize_add m 2 (length n) in
        update_range buf 2 j (copy_from_slice n)
    | ServiceData16BitUuid u b | ManufacturerSpecificData u b =>
        let! buf := update_from buf 2 (write_u16 u) in
        let! j := usize_add m 4 (length b) in
        update_range buf 4 j (copy_from_slice b)
    | ServiceData32BitUuid u b =>
        let! buf := update_from buf 2 (write_u32 u) in
        let! j := usize_add m 6 (length b) in
        update_range buf 6 j (copy_from_slice b)
    | ServiceData128BitUuid u b =>
        let! buf := update_from buf 2 (write_u128 u) in
        let! j := usize_add m 18 (length b) in
        update_range buf 18 j (copy_from_slice b)
    end in
  Ok (buf, len).

End Machine.
