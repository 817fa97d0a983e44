(** * Vendor commands among the others: C95. *)
From Verif Require Import Base Model_Types Model_EventBase Model_Command Model_Event Model_Host Model_VendorCall
  Spec_Wire Spec_Errors Spec_Host Spec_Link Spec_Split Spec_Example Spec_VendorCall Proofs_VendorCall.
Open Scope list_scope.
Open Scope N_scope.

(** ** C95: vendor commands can be mixed with those of the crate

    Over a UART: the controller gets the commands that were taken, in order, and
    the reads report the packets that came, as without vendor commands (C38). *)
Theorem C95_uart F V St E (C : controller St E) h os s :
  contract C h -> Forall (typed_mixed F) os -> possible h s ->
  let (s', log) := mixed_session (perform F V C) uart_header C os s in
  map fst log = os
  /\ (exists stream, written h s' = written h s ++ stream /\ parse_commands stream = Some (taken sent_ok log))
  /\ exists ps, Forall event_packet ps /\ (exists more, pending h s s' = flat_map uart_frame ps ++ more)
       /\ consumed h s' = (consumed h s + length (flat_map uart_frame ps))%nat
       /\ received_packets (crate_log log) = map (uart_result F V) ps.
Proof. exact (mixed_uart F V C h os s). Qed.
Print Assumptions C95_uart.

(** Over separate links. *)
Theorem C95_split F V St E (C : controller St E) h os s :
  contract C h -> Forall (typed_mixed F) os -> possible h s ->
  let (s', log) := mixed_session (split_perform F V C) cmd_link_header C os s in
  map fst log = os
  /\ (exists stream, written h s' = written h s ++ stream /\ parse_link_commands stream = Some (taken split_sent_ok log))
  /\ exists ps, Forall event_packet ps /\ (exists more, pending h s s' = concat ps ++ more)
       /\ consumed h s' = (consumed h s + length (concat ps))%nat
       /\ split_received (crate_log log) = map (link_result F V) ps.
Proof. exact (mixed_split F V C h os s). Qed.
Print Assumptions C95_split.

(** The answers cannot be taken for those to commands of the crate, and reach the
    vendor's decoder whole. *)
Theorem C95_distinct V (c : command V) ocf : ocf < 1024 -> command_opcode c <> hci_opcode 0x3F ocf.
Proof. exact (vendor_distinct V c ocf). Qed.
Print Assumptions C95_distinct.
Theorem C95_answer F V E n ocf ret : ocf < 1024 ->
  let p := [n] ++ le 2 (hci_opcode 0x3F ocf) ++ ret in
  uart_result (E := E) F V (framed 0x0E p)
  = match vreturn_new V p with
    | Ok v => Ok (PEvent (EvCommandComplete (Build_command_complete n (RetVendor v))))
    | Err e => Err (Other (UBLE e))
    | Panic => Panic
    end
  /\ link_result (E := E) F V (framed 0x0E p)
  = match vreturn_new V p with
    | Ok v => Ok (EvCommandComplete (Build_command_complete n (RetVendor v)))
    | Err e => Err (Other (LBLE e))
    | Panic => Panic
    end.
Proof. exact (vendor_answer F V n ocf ret). Qed.
Print Assumptions C95_answer.

(** The bytes: more than 255 parameters are announced modulo 256. *)
Theorem C95_bytes St E (C : controller St E) ocf params s : ocf < 1024 ->
  vendor_write uart_header C ocf params s
    = ctl_write C s ([0x01] ++ le 2 (hci_opcode 0x3F ocf) ++ [N.of_nat (length params) mod 256]) params
  /\ vendor_write cmd_link_header C ocf params s
    = ctl_write C s (le 2 (hci_opcode 0x3F ocf) ++ [N.of_nat (length params) mod 256]) params.
Proof. exact (fun H => conj (vendor_uart C ocf params s H) (vendor_link C ocf params s H)). Qed.
Print Assumptions C95_bytes.

(** A vendor command between two others, the second of which is not taken, and
    its answer; 256 parameters make the stream unreadable. *)
Definition mixed_operations : list (mixed test_vendor) :=
  [Crate (Send CReset); VendorCommand 0x00C [7; 8; 9]; Crate (Send CReadBdAddr); Crate Receive].
Definition mixed_state : queue :=
  {| q_received := uart_frame [0x0E; 5; 1; 0x0C; 0xFC; 4; 5]; q_consumed := 0; q_arrivals := []; q_written := [];
     q_ready := [Ready; Ready; Busy] |}.
Example C95_case :
  Forall (typed_mixed F41) mixed_operations /\ possible queue_history mixed_state
  /\ (let (s', log) := mixed_session (perform F41 test_vendor queue_controller) uart_header queue_controller
                         mixed_operations mixed_state in
      q_written s' = [0x01; 0x03; 0x0C; 0; 0x01; 0x0C; 0xFC; 3; 7; 8; 9]
      /\ taken sent_ok log = [(0x0C03, []); (0xFC0C, [7; 8; 9])]
      /\ received_packets (crate_log log) = [uart_result F41 test_vendor [0x0E; 5; 1; 0x0C; 0xFC; 4; 5]])
  /\ parse_commands ([0x01] ++ le 2 (hci_opcode 0x3F 1) ++ [256 mod 256] ++ repeat 2 256) = None.
Proof.
  split; [repeat constructor; cbn; lia|].
  split; [vm_compute; split; [repeat constructor|split; [lia|repeat constructor]]|].
  split; vm_compute; repeat split.
Qed.
Example C95_split_case :
  let s := {| q_received := [0x0E; 5; 1; 0x0C; 0xFC; 4; 5]; q_consumed := 0; q_arrivals := []; q_written := [];
              q_ready := q_ready mixed_state |} in
  possible queue_history s
  /\ (let (s', log) := mixed_session (split_perform F41 test_vendor queue_controller) cmd_link_header queue_controller
                         mixed_operations s in
      q_written s' = [0x03; 0x0C; 0; 0x0C; 0xFC; 3; 7; 8; 9]
      /\ taken split_sent_ok log = [(0x0C03, []); (0xFC0C, [7; 8; 9])]
      /\ split_received (crate_log log) = [link_result F41 test_vendor [0x0E; 5; 1; 0x0C; 0xFC; 4; 5]]).
Proof.
  cbv zeta. split; [vm_compute; split; [repeat constructor|split; [lia|repeat constructor]]|].
  vm_compute; repeat split.
Qed.
