(** * Comparison with [==] (property C115). *)
From Verif Require Import Base Model_Types Model_Intervals Model_Access Model_EventBase Model_Command Model_Event Model_Host
  Model_Debug Model_Log Model_Equal Spec_Wire Spec_Interval Spec_Host Spec_Common Spec_Debug Spec_Log Spec_Equal Spec_Example
  Proofs_LogText Proofs_Equal Properties_Log.
From Coq Require Import String Ascii.
Open Scope list_scope.
Open Scope N_scope.

(** ** C115 Values compare equal exactly if they say the same *)

(** A status that was read, compared with one that has an assigned code (such as
    [Success]): equal exactly if this code was sent, whatever the vendor does. *)
Theorem C115_status F V veq b b' s s' : status_byte F V b s -> nth_error (assigned_statuses F) (N.to_nat b') = Some s' ->
  (status_eqb veq s s' = true <-> b = b').
Proof. exact (assigned_compare F V veq b b' s s'). Qed.
Print Assumptions C115_status.
(** Two statuses that were read. *)
Theorem C115_statuses F V veq b b' s s' : proper veq ->
  (forall c c' v, vstatus_try_from V c = Ok v -> vstatus_try_from V c' = Ok v -> c = c') ->
  status_byte F V b s -> status_byte F V b' s' -> (status_eqb veq s s' = true <-> b = b').
Proof. exact (statuses_compare F V veq b b' s s'). Qed.
Print Assumptions C115_statuses.
Example C115_status_case :
  status_byte F41 test_vendor 0x3E ConnectionFailedToEstablish /\ nth_error (assigned_statuses F41) (N.to_nat 0) = Some (@Success N)
  /\ status_byte F41 test_vendor 0x45 (Vendor 0x45)
  /\ status_eqb N.eqb (@ConnectionFailedToEstablish N) Success = false /\ status_eqb N.eqb (Vendor 0x45) (Vendor 0x45) = true
  /\ status_eqb N.eqb (Vendor 0x45) (Vendor 0x46) = false.
Proof. repeat split. exists 0x45. split; reflexivity. Qed.

(** Codes in events and in commands, and types of advertising data. *)
Theorem C115_codes :
  compares_by link_type_eqb link_type_code /\ compares_by encryption_eqb encryption_code
  /\ compares_by connection_role_eqb role_code /\ compares_by clock_accuracy_eqb clock_accuracy_code
  /\ compares_by advertisement_event_eqb advertisement_event_code /\ compares_by tx_power_level_type_eqb tx_power_level_code
  /\ compares_by own_address_type_eqb own_address_code /\ compares_by advertising_filter_policy_eqb advertising_filter_code
  /\ compares_by scan_type_eqb scan_type_code /\ compares_by scan_filter_policy_eqb scan_filter_code
  /\ compares_by advertising_type_eqb advertising_type_code /\ compares_by common_data_type_eqb type_name.
Proof.
  exact (conj link_type_compares (conj encryption_compares (conj role_compares (conj clock_compares (conj advertisement_compares
    (conj tx_power_compares (conj own_address_compares (conj advertising_filter_compares (conj scan_type_compares
    (conj scan_filter_compares (conj advertising_type_compares data_type_compares))))))))))).
Qed.
Print Assumptions C115_codes.
(** Addresses by their type and bytes, handles, keys, and opcodes by group and command. *)
Theorem C115_names : compares_by bd_addr_type_eqb address_bytes /\ proper bd_addr_eqb /\ proper conn_handle_eqb
  /\ proper encryption_key_eqb /\ compares_by opcode_eqb (fun o => (o / 1024, o mod 1024)).
Proof. exact (conj address_compares (conj bytes_proper (conj N.eqb_eq (conj bytes_proper opcode_compares)))). Qed.
Print Assumptions C115_names.
Example C115_names_case : bd_addr_type_eqb (BdPublic [1; 2; 3; 4; 5; 6]) (BdRandom [1; 2; 3; 4; 5; 6]) = false
  /\ bd_addr_type_eqb (BdPublic [1; 2; 3; 4; 5; 6]) (BdPublic [1; 2; 3; 4; 5; 7]) = false
  /\ bd_addr_type_eqb (BdRandom [1; 2; 3; 4; 5; 6]) (BdRandom [1; 2; 3; 4; 5; 6]) = true.
Proof. repeat split. Qed.

(** Scan parameters by all they contain; equal ones give the same command. *)
Theorem C115_scan_parameters : compares_by scan_parameters_eqb scan_parameters_say
  /\ forall V p q, scan_parameters_eqb p q = true -> @command_params V (CLeSetScanParameters p) = @command_params V (CLeSetScanParameters q).
Proof. exact (conj scan_parameters_compares scan_parameters_same). Qed.
Print Assumptions C115_scan_parameters.

(** Errors: equal exactly if their texts are. *)
Theorem C115_read_errors V (D : vendor_debug V) E (show : E -> string) eeq veq : vendor_legible D -> legible any show -> proper eeq -> proper veq ->
  compares_by (event_error_eqb veq) (debug_event_error D) /\ compares_by (uart_error_eqb eeq veq) (debug_uart_error D show).
Proof.
  exact (fun HD L Q P => conj (printed_alike _ _ (event_error_proper veq P) (fun a b => C101_event_error V D a b HD))
    (printed_alike _ _ (uart_error_proper eeq veq Q P) (fun a b => C101_uart_error V D E show a b HD L))).
Qed.
Print Assumptions C115_read_errors.
Theorem C115_command_errors F V (D : vendor_debug V) E (show : E -> string) eeq veq e e' :
  vendor_legible D -> legible any show -> proper eeq -> proper veq ->
  (forall c i, e = HBadChannelMap c \/ e' = HBadChannelMap c -> N.testbit c i = true -> i < 3) ->
  (host_error_eqb eeq veq e e' = true <-> debug_host_error F D show e = debug_host_error F D show e').
Proof.
  exact (fun HD L Q P B => iff_trans (host_error_proper eeq veq Q P e e') (iff_sym (C101_host_error F V D E show e e' HD L B))).
Qed.
Print Assumptions C115_command_errors.
Theorem C115_interval_errors :
  compares_by conn_interval_error_eqb debug_conn_interval_error /\ compares_by expected_conn_length_error_eqb debug_expected_conn_length_error
  /\ compares_by advertising_interval_error_eqb debug_advertising_interval_error /\ compares_by scan_window_error_eqb debug_scan_window_error.
Proof.
  exact (conj (printed_alike _ _ conn_interval_error_proper C101_conn_interval_error)
    (conj (printed_alike _ _ expected_length_error_proper C101_expected_length_error)
    (conj (printed_alike _ _ advertising_interval_error_proper C101_advertising_interval_error)
      (printed_alike _ _ scan_window_error_proper C101_scan_window_error)))).
Qed.
Print Assumptions C115_interval_errors.
Example C115_errors_case : vendor_legible test_debug /\ legible any debug_uint /\ proper N.eqb
  /\ uart_error_eqb N.eqb N.eqb (UBLE (EBadLength 3 4)) (UBLE (@EBadLength N 4 3)) = false
  /\ uart_error_eqb N.eqb N.eqb (UBLE (EBadStatus 0x45)) (UBLE (@EBadReason N 0x45)) = false
  /\ uart_error_eqb N.eqb N.eqb (UBLE (@EBadConnectionInterval N (SupervisionTimeoutTooLong 7))) (UBLE (EBadConnectionInterval (SupervisionTimeoutTooLong 7))) = true.
Proof. split; [exact C101_vendor_case|]. split; [exact uint_legible|]. split; [exact N.eqb_eq|]. repeat split. Qed.
