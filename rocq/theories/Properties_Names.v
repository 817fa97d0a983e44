(** * C113: log texts name what is in the packet.

    Where C101 says that different things have different texts, this says which text:
    the names of the crate's documentation, and the values from the bytes. *)
From Verif Require Import Base Model_Types Model_Intervals Model_EventBase Model_Command Model_Event Model_Host
  Model_Debug Model_Log Spec_Wire Spec_Debug Spec_Log Spec_Numerals Spec_FlagNames Spec_Names Spec_Example
  Proofs_NamesText Proofs_Names Proofs_NamesUnique Properties_Log.
From Coq Require Import String Ascii.
Open Scope list_scope.
Open Scope N_scope.

(** ** C113 Log texts name what is in the packet *)

(** The text of every event that is read is the line about the bytes it is read from;
    there is no other line about them. *)
Theorem C113_line F V (D : vendor_debug V) pkt e t : bytes pkt -> event_new F V pkt = Ok e ->
  (prints (fun fuel => @debug_event F V D Empty_set fuel e) t <-> log_line F D pkt t).
Proof. exact (log_line_only F D pkt e t). Qed.
Print Assumptions C113_line.
Theorem C113_one_line F V (D : vendor_debug V) pkt t t' : log_line F D pkt t -> log_line F D pkt t' -> t = t'.
Proof. exact (log_line_unique F D pkt t t'). Qed.
Print Assumptions C113_one_line.
(** And so is that of the packet in which a link hands out the event. *)
Theorem C113_packet F V (D : vendor_debug V) pkt e t : bytes pkt -> event_new F V pkt = Ok e ->
  (prints (fun fuel => @debug_uart_packet F V D Empty_set fuel (PEvent e)) t <-> called "Event" [log_line F D pkt] t).
Proof. exact (packet_line F D pkt e t). Qed.
Print Assumptions C113_packet.
(** A status, on its own. *)
Theorem C113_status F V (D : vendor_debug V) code s : status_byte F V code s ->
  status_text F D code (debug_status (show_status D) s).
Proof. exact (status_named F D code s). Qed.
Print Assumptions C113_status.
(** Errors. *)
Theorem C113_event_error V (D : vendor_debug V) e : event_error_text D e (debug_event_error D e).
Proof. exact (event_error_says D e). Qed.
Print Assumptions C113_event_error.
Theorem C113_uart_error V (D : vendor_debug V) E (show : E -> string) e :
  uart_error_text D show e (debug_uart_error D show e).
Proof. exact (uart_error_says D show e). Qed.
Print Assumptions C113_uart_error.
Theorem C113_link_error V (D : vendor_debug V) E (show : E -> string) e :
  link_error_text D show e (debug_link_error D show e).
Proof. exact (link_error_says D show e). Qed.
Print Assumptions C113_link_error.
Theorem C113_host_error F V (D : vendor_debug V) E (show : E -> string) e :
  host_error_text D show e (debug_host_error F D show e).
Proof. exact (host_error_says F D show e). Qed.
Print Assumptions C113_host_error.
Theorem C113_interval_errors :
  (forall e, conn_interval_error_text e (debug_conn_interval_error e))
  /\ (forall e, expected_length_error_text e (debug_expected_conn_length_error e))
  /\ (forall e, advertising_interval_error_text e (debug_advertising_interval_error e))
  /\ (forall e, scan_window_error_text e (debug_scan_window_error e)).
Proof. exact (conj conn_interval_error_says (conj expected_length_error_says (conj advertising_interval_error_says scan_window_error_says))). Qed.
Print Assumptions C113_interval_errors.
(** What a user builds for commands. *)
Theorem C113_intervals :
  (forall i, conn_interval_text i (debug_conn_interval i))
  /\ (forall i, fixed_conn_interval_text i (debug_fixed_conn_interval i))
  /\ (forall l, expected_length_text l (debug_expected_conn_length l))
  /\ (forall i, advertising_interval_text i (debug_advertising_interval i))
  /\ (forall w, scan_window_text w (debug_scan_window w)).
Proof. exact (conj conn_interval_says (conj fixed_conn_interval_says (conj expected_length_says (conj advertising_interval_says scan_window_says)))). Qed.
Print Assumptions C113_intervals.
Theorem C113_parameters :
  (forall F p, advertising_parameters_text p (debug_advertising_parameters F p))
  /\ (forall p, scan_parameters_text p (debug_scan_parameters p))
  /\ (forall p, connection_parameters_text p (debug_connection_parameters p)).
Proof. exact (conj advertising_parameters_say (conj scan_parameters_say connection_parameters_say)). Qed.
Print Assumptions C113_parameters.
(** A numeral leaves no choice, and neither does a time. *)
Theorem C113_numeral_unique base v t t' : 1 < base -> in_digits base v t -> in_digits base v t' -> t = t'.
Proof. exact (numeral_unique base v t t'). Qed.
Print Assumptions C113_numeral_unique.
Theorem C113_time_unique nanoseconds t t' : time_text nanoseconds t -> time_text nanoseconds t' -> t = t'.
Proof. exact (time_unique nanoseconds t t'). Qed.
Print Assumptions C113_time_unique.

(** Some lines. *)
Example C113_line_case :
  let pkt := [0x05; 4; 0; 1; 2; 0x13] in
  let t := "DisconnectionComplete(DisconnectionComplete { status: Success, conn_handle: ConnectionHandle(513), reason: RemoteTerminationByUser })"%string in
  bytes pkt /\ (exists e, event_new F41 test_vendor pkt = Ok e
     /\ prints (fun fuel => @debug_event F41 test_vendor test_debug Empty_set fuel e) t) /\ log_line F41 test_debug pkt t.
Proof.
  intros pkt t. assert (B : bytes pkt) by (repeat constructor).
  assert (K : exists e, event_new F41 test_vendor pkt = Ok e
     /\ prints (fun fuel => @debug_event F41 test_vendor test_debug Empty_set fuel e) t).
  { eexists. split; [vm_compute; reflexivity|]. exists O. intros m _. reflexivity. }
  split; [exact B|]. split; [exact K|]. destruct K as (e & H & P). exact (proj1 (C113_line F41 test_vendor test_debug pkt e t B H) P).
Qed.
Example C113_other_case : ~ log_line F41 test_debug [0x05; 4; 0; 1; 2; 0x13]
  "DisconnectionComplete(DisconnectionComplete { status: Success, conn_handle: ConnectionHandle(513), reason: RemoteTerminationPowerOff })".
Proof.
  intros L. destruct C113_line_case as (_ & _ & K). discriminate (C113_one_line F41 test_vendor test_debug _ _ _ K L).
Qed.
Example C113_packet_case : called "Event" [log_line F41 test_debug [0x05; 4; 0; 1; 2; 0x13]]
  "Event(DisconnectionComplete(DisconnectionComplete { status: Success, conn_handle: ConnectionHandle(513), reason: RemoteTerminationByUser }))".
Proof. eexists [_]. split; [constructor; [exact (proj2 (proj2 C113_line_case))|constructor]|reflexivity]. Qed.
(** No other status will do, and no other number. *)
Example C113_status_case : status_text F41 test_debug 0x13 "RemoteTerminationByUser"
  /\ ~ status_text F41 test_debug 0x13 "RemoteTerminationPowerOff".
Proof. split; [reflexivity|discriminate]. Qed.
Example C113_numeral_case : in_digits 10 513 "513" /\ ~ in_digits 10 513 "0513" /\ ~ in_digits 10 513 "5 13".
Proof.
  split; [repeat split; discriminate|]. split.
  - intros (_ & _ & H). discriminate (H "513"%string eq_refl).
  - intros (H & _). discriminate H.
Qed.
Example C113_error_case :
  debug_event_error test_debug (EBadLength 3 4) = "BadLength(3, 4)"%string
  /\ event_error_text test_debug (EBadLength 3 4) "BadLength(3, 4)"
  /\ conn_interval_error_text (SupervisionTimeoutTooShort 100000000 202500000) "SupervisionTimeoutTooShort(100ms, 202.5ms)".
Proof.
  split; [reflexivity|]. split; [exact (C113_event_error _ test_debug (EBadLength 3 4))|].
  exact (proj1 C113_interval_errors (SupervisionTimeoutTooShort 100000000 202500000)).
Qed.
