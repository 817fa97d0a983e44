(** * C101: what is logged tells what was read.

    The derived [Debug] texts of everything that is read or reported can be read
    back.  Vendor types are only assumed to have such texts themselves. *)
From Verif Require Import Base Model_Types Model_Intervals Model_EventBase Model_Command Model_Event Model_Host
  Model_Debug Model_Log Spec_Wire Spec_Flags Spec_Debug Spec_Log Spec_Example Proofs_LogText Proofs_LogTypes
  Proofs_LogEvent Proofs_Log.
From Coq Require Import String Ascii.
Open Scope list_scope.
Open Scope N_scope.

(** ** C101 What is logged tells what was read *)

(** Every event that is read can be printed, without a panic. *)
Theorem C101_printed F V (D : vendor_debug V) pkt e : bytes pkt -> event_new F V pkt = Ok e ->
  exists t, prints (fun fuel => @debug_event F V D Empty_set fuel e) t.
Proof. exact (accepted_text F D pkt e). Qed.
Print Assumptions C101_printed.
(** Two texts are the same exactly if the events are, up to the supported
    commands of the octets from 39, which are not printed (C56). *)
Theorem C101_tells F V (D : vendor_debug V) pkt pkt' e e' t t' : vendor_legible D -> bytes pkt -> bytes pkt' ->
  event_new F V pkt = Ok e -> event_new F V pkt' = Ok e' ->
  prints (fun fuel => @debug_event F V D Empty_set fuel e) t ->
  prints (fun fuel => @debug_event F V D Empty_set fuel e') t' ->
  (t = t' <-> tell_same e e').
Proof. exact (fun HD => accepted_tells F D HD pkt pkt' e e' t t'). Qed.
Print Assumptions C101_tells.
(** Errors of reading. *)
Theorem C101_event_error V (D : vendor_debug V) e e' : vendor_legible D ->
  (debug_event_error D e = debug_event_error D e' <-> e = e').
Proof. exact (fun HD => legible_iff any _ e e' (event_error_legible D HD) I I). Qed.
Print Assumptions C101_event_error.
Theorem C101_uart_error V (D : vendor_debug V) E (show : E -> string) e e' : vendor_legible D -> legible any show ->
  (debug_uart_error D show e = debug_uart_error D show e' <-> e = e').
Proof. exact (fun HD L => legible_iff any _ e e' (uart_error_legible D HD show L) I I). Qed.
Print Assumptions C101_uart_error.
Theorem C101_link_error V (D : vendor_debug V) E (show : E -> string) e e' : vendor_legible D -> legible any show ->
  (debug_link_error D show e = debug_link_error D show e' <-> e = e').
Proof. exact (fun HD L => legible_iff any _ e e' (link_error_legible D HD show L) I I). Qed.
Print Assumptions C101_link_error.
(** Errors of commands.  There are three advertising channels; a set of them
    made without [unsafe] has no other bits. *)
Theorem C101_host_error F V (D : vendor_debug V) E (show : E -> string) e e' :
  vendor_legible D -> legible any show ->
  (forall c i, e = HBadChannelMap c \/ e' = HBadChannelMap c -> N.testbit c i = true -> i < 3) ->
  (debug_host_error F D show e = debug_host_error F D show e' <-> e = e').
Proof. exact (host_error_tells F V D E show e e'). Qed.
Print Assumptions C101_host_error.
(** Intervals, and why they are refused. *)
Theorem C101_conn_interval i j : debug_conn_interval i = debug_conn_interval j <-> i = j.
Proof. exact (legible_iff any _ i j conn_interval_legible I I). Qed.
Print Assumptions C101_conn_interval.
Theorem C101_conn_interval_error i j : debug_conn_interval_error i = debug_conn_interval_error j <-> i = j.
Proof. exact (legible_iff any _ i j conn_interval_error_legible I I). Qed.
Print Assumptions C101_conn_interval_error.
Theorem C101_expected_length i j : debug_expected_conn_length i = debug_expected_conn_length j <-> i = j.
Proof. exact (legible_iff any _ i j ecl_legible I I). Qed.
Print Assumptions C101_expected_length.
Theorem C101_expected_length_error i j :
  debug_expected_conn_length_error i = debug_expected_conn_length_error j <-> i = j.
Proof. exact (legible_iff any _ i j ecl_error_legible I I). Qed.
Print Assumptions C101_expected_length_error.
Theorem C101_advertising_interval i j : debug_advertising_interval i = debug_advertising_interval j <-> i = j.
Proof. exact (legible_iff any _ i j advertising_interval_legible I I). Qed.
Print Assumptions C101_advertising_interval.
Theorem C101_advertising_interval_error i j :
  debug_advertising_interval_error i = debug_advertising_interval_error j <-> i = j.
Proof. exact (legible_iff any _ i j advertising_interval_error_legible I I). Qed.
Print Assumptions C101_advertising_interval_error.
Theorem C101_scan_window i j : debug_scan_window i = debug_scan_window j <-> i = j.
Proof. exact (legible_iff any _ i j scan_window_legible I I). Qed.
Print Assumptions C101_scan_window.
Theorem C101_scan_window_error i j : debug_scan_window_error i = debug_scan_window_error j <-> i = j.
Proof. exact (legible_iff any _ i j scan_window_error_legible I I). Qed.
Print Assumptions C101_scan_window_error.
(** Parameters of commands. *)
Theorem C101_advertising_parameters F p q :
  (forall i, N.testbit (ap_channel_map p) i = true -> i < 3) ->
  (forall i, N.testbit (ap_channel_map q) i = true -> i < 3) ->
  (debug_advertising_parameters F p = debug_advertising_parameters F q <-> p = q).
Proof. exact (advertising_parameters_tell F p q). Qed.
Print Assumptions C101_advertising_parameters.
Theorem C101_scan_parameters p q : debug_scan_parameters p = debug_scan_parameters q <-> p = q.
Proof. exact (legible_iff any _ p q scan_parameters_legible I I). Qed.
Print Assumptions C101_scan_parameters.
Theorem C101_connection_parameters p q : debug_connection_parameters p = debug_connection_parameters q <-> p = q.
Proof. exact (legible_iff any _ p q connection_parameters_legible I I). Qed.
Print Assumptions C101_connection_parameters.

(** The test vendor has texts that can be read back, and these are some texts. *)
Definition test_debug : vendor_debug test_vendor :=
  {| show_status := (debug_uint : VStatus test_vendor -> string);
     show_event := (debug_list debug_uint : VEvent test_vendor -> string);
     show_return := (debug_list debug_uint : VReturn test_vendor -> string);
     show_error := (debug_uint : VError test_vendor -> string) |}.
Example C101_vendor_case : vendor_legible test_debug.
Proof. exact (conj uint_legible (conj list_legible (conj list_legible uint_legible))). Qed.
Definition logged (F : features) (pkt : list N) : string :=
  match event_new F test_vendor pkt with
  | Ok e => match @debug_event F test_vendor test_debug Empty_set 30 e with Some (Ok t) => t | _ => "" end
  | Err e => debug_event_error test_debug e
  | Panic => ""
  end.
Example C101_case_event :
  logged F41 [0x3E; 19; 0x01; 0; 1; 2; 1; 1; 1; 2; 3; 4; 5; 6; 0x50; 0; 3; 0; 0xF4; 1; 5]
  = "LeConnectionComplete(LeConnectionComplete { status: Success, conn_handle: ConnectionHandle(513), role: Peripheral, peer_bd_addr: Random(BdAddr([1, 2, 3, 4, 5, 6])), conn_interval: FixedConnectionInterval { interval_: 100ms, conn_latency_: 3, supervision_timeout_: 5s }, central_clock_accuracy: Ppm50 })"%string.
Proof. vm_compute. reflexivity. Qed.
Example C101_case_features :
  logged F41 [0x3E; 12; 0x04; 0; 1; 2; 0x11; 0; 0; 0; 0; 0; 0; 0]
  = "LeReadRemoteUsedFeaturesComplete(LeReadRemoteUsedFeaturesComplete { status: Success, conn_handle: ConnectionHandle(513), features: LE_ENCRYPTION | LE_PING })"%string.
Proof. vm_compute. reflexivity. Qed.
Example C101_case_return :
  logged F41 [0x0E; 7; 1; 5; 0x14; 0; 1; 2; 0xF6]
  = "CommandComplete(CommandComplete { num_hci_command_packets: 1, return_params: ReadRssi(ReadRssi { status: Success, conn_handle: ConnectionHandle(513), rssi: -10 }) })"%string.
Proof. vm_compute. reflexivity. Qed.
Example C101_case_error :
  logged F41 [0x05; 3; 0; 1; 2] = "BadLength(3, 4)"%string
  /\ debug_conn_interval_error (SupervisionTimeoutTooShort 100000000 202500000)
     = "SupervisionTimeoutTooShort(100ms, 202.5ms)"%string
  /\ debug_duration 1001250 = "1.00125ms"%string.
Proof. repeat split; vm_compute; reflexivity. Qed.
