(** * Separate links for commands and events, and catching up: C68, C69. *)
From Verif Require Import Base Model_Types Model_EventBase Model_Command Model_Event Model_Host
  Spec_Wire Spec_Errors Spec_Host Spec_Link Spec_Example Spec_Retry Spec_Dialogue Spec_Split
  Proofs_Base Proofs_Streams Proofs_Split.
Open Scope list_scope.
Open Scope N_scope.

(** ** C68: commands and events over separate links

    Whatever the order of calls, the command link carries the commands that were
    reported as sent, which a receiver can tell apart, and the event link is
    read packet by packet. *)
Theorem C68_session F V St E (C : controller St E) h os s : contract C h ->
  Forall (typed_operation F) os -> possible h s ->
  let (s', log) := split_session F V C os s in
  map fst log = os
  /\ written h s' = written h s ++ flat_map link_bytes (split_sent log)
  /\ parse_link_commands (flat_map link_bytes (split_sent log))
     = Some (map (fun c => (command_opcode c, command_params c)) (split_sent log))
  /\ exists ps, Forall event_packet ps
      /\ (exists more, pending h s s' = concat ps ++ more)
      /\ consumed h s' = (consumed h s + length (concat ps))%nat
      /\ split_received log = map (link_result F V) ps.
Proof. exact (fun HC => split_session_spec F V C h HC os s). Qed.
Print Assumptions C68_session.

(** A command that is repeated until it is not blocked is written once if it
    succeeds and not at all otherwise. *)
Theorem C68_waiting F V St E (C : controller St E) h c n s : contract C h -> arguments_typed F c ->
  possible h s ->
  let (s', r) := waiting method_blocked (run_command F V cmd_link_header C c) n s in
  put h s s' (match r with
              | Some r => if succeeded r then link_bytes c else []
              | None => []
              end).
Proof. exact (fun HC => link_wait_command F V C h HC c n s). Qed.
Print Assumptions C68_waiting.

(** Each command gets its own answer, as over a UART (C65). *)
Theorem C68_answers F V respond cs answers s ps :
  Forall (fun c => arguments_typed F c /\ @rejection V N c = None) cs ->
  possible queue_history s -> takes (length cs) (q_ready s) ->
  q_pending s ++ concat (q_arrivals s) = concat ps -> Forall (unrelated F V) ps ->
  link_serves F V respond (q_written s) cs answers ->
  exists m, forall n, (m <= n)%nat ->
  exists s', link_asks F V (device respond) n cs s = (s', map Some answers)
    /\ q_written s' = q_written s ++ flat_map link_bytes cs.
Proof. exact (link_dialogues F V respond cs answers s ps). Qed.
Print Assumptions C68_answers.
Theorem C68_first F V St E (C : controller St E) h c n s s' a : contract C h -> arguments_typed F c ->
  possible h s -> link_ask F V C n c s = (s', Some a) ->
  exists ps p, Forall event_packet (ps ++ [p])
    /\ exchanged h s s' (link_bytes c) (concat (ps ++ [p]))
    /\ Forall (passed_over F V (command_opcode c)) ps /\ taken_for F V (command_opcode c) a p.
Proof. exact (fun HC => link_ask_first F V C h HC c n s s' a). Qed.
Print Assumptions C68_first.

Example C68_case :
  let os := [Send CReset; Receive; Send CReset; Receive; Send (CLeReceiverTest 0x28); Send (CReadRssi 0x0201)] in
  let s := {| q_received := []; q_consumed := 0;
              q_arrivals := [[0x10]; [0x01; 0x42; 0x1A; 0x01]; [0x00]];
              q_written := []; q_ready := [Busy; Ready; Ready] |} in
  Forall (typed_operation F41) os /\ possible queue_history s
  /\ let (s, log) := split_session F41 test_vendor queue_controller os s in
     q_written s = [0x03; 0x0C; 0x00; 0x05; 0x14; 0x02; 0x01; 0x02] /\ q_consumed s = 6%nat
     /\ parse_link_commands (q_written s) = Some [(0x0C03, []); (0x1405, [0x01; 0x02])]
     /\ map snd log
        = [SplitSent (Plain (Err WouldBlock)); SplitReceived (Ok (EvHardwareError (Build_hardware_error 0x42)));
           SplitSent (Plain (Ok tt));
           SplitReceived (Ok (EvDataBufferOverflow (Build_data_buffer_overflow Sco)));
           SplitSent (Checked (Err (Other (HInvalidTestChannel 0x28)))); SplitSent (Plain (Ok tt))].
Proof.
  cbv zeta. split; [repeat constructor|].
  split; [split; [constructor|split; [cbn; lia|repeat constructor]]|]. vm_compute. auto 10.
Qed.
Example C68_answers_case :
  let cs := [CReset; CReadRssi 0x0201; CDisconnect 0x0001 RemoteTerminationByUser] in
  let answers :=
    [Completed (RetReset Success);
     Completed (RetReadRssi {| rssi_status := Success; rssi_conn_handle := 0x0201; rssi_rssi := (-16)%Z |});
     Accepted CommandDisallowed] in
  Forall (fun c => arguments_typed F41 c /\ @rejection test_vendor N c = None) cs
  /\ possible queue_history example_device /\ takes (length cs) (q_ready example_device)
  /\ link_serves F41 test_vendor split_respond [] cs answers
  /\ snd (link_asks F41 test_vendor (device split_respond) 50 cs example_device) = map Some answers.
Proof. exact link_dialogue_case. Qed.

(** ** C69: a read that blocks has left no packet behind

    If after any session a read is blocked, every packet received by then was
    reported in the session, in order; what is left is the beginning of an event
    packet, and no whole one. *)
Theorem C69_uart F V St E (C : controller St E) h os s : buffering C h ->
  Forall (typed_operation F) os -> possible h s ->
  let (s1, log) := session F V C os s in
  let (s2, r) := uart_read F V C s1 in
  r = Err WouldBlock ->
  exists ps rest, Forall event_packet ps /\ received_packets log = map (uart_result F V) ps
    /\ pending h s s2 = flat_map uart_frame ps ++ rest
    /\ (rest = [] \/ exists l, rest = 0x04 :: l)
    /\ forall p more, event_packet p -> rest <> uart_frame p ++ more.
Proof. exact (fun HB => session_caught_up F V C h HB os s). Qed.
Print Assumptions C69_uart.
Theorem C69_link F V St E (C : controller St E) h os s : buffering C h ->
  Forall (typed_operation F) os -> possible h s ->
  let (s1, log) := split_session F V C os s in
  let (s2, r) := link_read F V C s1 in
  r = Err WouldBlock ->
  exists ps rest, Forall event_packet ps /\ split_received log = map (link_result F V) ps
    /\ pending h s s2 = concat ps ++ rest
    /\ forall p more, event_packet p -> rest <> p ++ more.
Proof. exact (fun HB => split_caught_up F V C h HB os s). Qed.
Print Assumptions C69_link.
Example C69_case :
  let s := {| q_received := []; q_consumed := 0;
              q_arrivals := [[0x04]; [0x10; 0x01; 0x42]; [0x04; 0x1A; 0x01]; []; [0x00; 0x04; 0x10]];
              q_written := []; q_ready := [] |} in
  let (s1, log) := session F41 test_vendor queue_controller [Receive; Receive; Receive] s in
  let (s2, r) := uart_read F41 test_vendor queue_controller s1 in
  r = Err WouldBlock
  /\ received_packets log = [Ok (PEvent (EvHardwareError (Build_hardware_error 0x42)));
                             Ok (PEvent (EvDataBufferOverflow (Build_data_buffer_overflow Sco)))]
  /\ pending queue_history s s2
     = flat_map uart_frame [[0x10; 0x01; 0x42]; [0x1A; 0x01; 0x00]] ++ [0x04; 0x10].
Proof. vm_compute. auto. Qed.
Example C69_link_case :
  let s := {| q_received := []; q_consumed := 0;
              q_arrivals := [[0x10]; [0x01; 0x42]; [0x1A; 0x01]; []; [0x00; 0x10]]; q_written := []; q_ready := [] |} in
  let (s1, log) := split_session F41 test_vendor queue_controller [Receive; Receive; Receive; Receive] s in
  let (s2, r) := link_read F41 test_vendor queue_controller s1 in
  r = Err WouldBlock
  /\ split_received log = [Ok (EvHardwareError (Build_hardware_error 0x42));
                           Ok (EvDataBufferOverflow (Build_data_buffer_overflow Sco))]
  /\ pending queue_history s s2 = concat [[0x10; 0x01; 0x42]; [0x1A; 0x01; 0x00]] ++ [0x10].
Proof. vm_compute. auto. Qed.
