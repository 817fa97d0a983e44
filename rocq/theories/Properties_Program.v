(** * Programs that decide from results what to do next (property C102). *)
From Verif Require Import Base Model_Types Model_EventBase Model_Command Model_Event Model_Host
  Spec_Wire Spec_Errors Spec_Host Spec_Link Spec_Example Spec_Split Spec_Retry Spec_Dialogue Spec_Loop Spec_Program
  Proofs_Base Proofs_Link Proofs_Queue Proofs_Program.
Open Scope list_scope.
Open Scope N_scope.

(** ** C102: programs may decide from each result what to do next

    A program may choose each call from the results of those before it, whatever
    they were.  It makes some history of calls: what the properties on histories
    of calls say (C38, C68, C76 and so on) holds of its run. *)
Theorem C102_histories F V St E (C : controller St E) A (p : program V (report V E) A) s s' a :
  (run (perform F V C) p s = (s', a) <-> exists log, session F V C (map fst log) s = (s', log) /\ goes p log a)
  /\ forall log, goes p log a -> typed_program F p -> Forall (typed_operation F) (map fst log).
Proof. exact (conj (run_session F V St E C A p s s' a) (fun log => goes_typed F V _ A p log a)). Qed.
Print Assumptions C102_histories.
Theorem C102_split_histories F V St E (C : controller St E) A (p : program V (split_report V E) A) s s' a :
  (run (split_perform F V C) p s = (s', a)
     <-> exists log, split_session F V C (map fst log) s = (s', log) /\ goes p log a)
  /\ forall log, goes p log a -> typed_program F p -> Forall (typed_operation F) (map fst log).
Proof. exact (conj (run_split_session F V St E C A p s s' a) (fun log => goes_typed F V _ A p log a)). Qed.
Print Assumptions C102_split_histories.

(** In particular: whenever it stopped, what it got are the packets consumed, in
    order, and what was written are the commands it was told were sent. *)
Theorem C102_uart F V St E (C : controller St E) h A (p : program V (report V E) A) s :
  contract C h -> typed_program F p -> possible h s ->
  let (s', a) := run (perform F V C) p s in
  exists log ps, goes p log a /\ Forall event_packet ps
    /\ received_packets log = map (uart_result F V) ps
    /\ written h s' = written h s ++ flat_map command_bytes (sent_commands log)
    /\ (exists more, pending h s s' = flat_map uart_frame ps ++ more)
    /\ consumed h s' = (consumed h s + length (flat_map uart_frame ps))%nat.
Proof. exact (run_uart F V St E C h A p s). Qed.
Print Assumptions C102_uart.
Theorem C102_split F V St E (C : controller St E) h A (p : program V (split_report V E) A) s :
  contract C h -> typed_program F p -> possible h s ->
  let (s', a) := run (split_perform F V C) p s in
  exists log ps, goes p log a /\ Forall event_packet ps
    /\ split_received log = map (link_result F V) ps
    /\ written h s' = written h s ++ flat_map link_bytes (split_sent log)
    /\ (exists more, pending h s s' = concat ps ++ more)
    /\ consumed h s' = (consumed h s + length (concat ps))%nat.
Proof. exact (run_split F V St E C h A p s). Qed.
Print Assumptions C102_split.

(** A program that polls until it read a hardware error, and then resets the
    controller: its second poll finds the event. *)
Example C102_polls_case :
  let s := {| q_received := [0x04]; q_consumed := 0; q_arrivals := [[0x10]; [1; 0x42; 0x04]]; q_written := [];
              q_ready := [Ready] |} in
  typed_program F41 (@polls test_vendor N 3)
  /\ possible queue_history s
  /\ let (s', a) := run (perform F41 test_vendor queue_controller) (polls 3) s in
     a = true /\ q_written s' = [0x01; 0x03; 0x0C; 0] /\ q_consumed s' = 4%nat
     /\ goes (@polls test_vendor N 3)
          [(Receive, Received (Err WouldBlock)); (Receive, Received (Err WouldBlock));
           (Receive, Received (Ok (PEvent (EvHardwareError (Build_hardware_error 0x42))))); (Send CReset, Sent (Plain (Ok tt)))] true.
Proof.
  cbv zeta. split; [apply polls_typed|]. split; [split; [repeat constructor|split; [cbn; lia|repeat constructor]]|].
  assert (G : goes (@polls test_vendor N 3)
       [(Receive, Received (Err WouldBlock)); (Receive, Received (Err WouldBlock));
        (Receive, Received (Ok (PEvent (EvHardwareError (Build_hardware_error 0x42))))); (Send CReset, Sent (Plain (Ok tt)))] true)
    by repeat constructor.
  set (g := goes _ _ _) in *. clearbody g. vm_compute. repeat split. exact G.
Qed.

(** ** Programs that wait

    A program that waits is told about refused arguments and about what was read.
    If it ends with some value with ideal channels between it and the device, it
    ends with that value through this crate if it is patient enough. *)
Theorem C102_waits_uart F V A (p : patient V N A) reply respond inbox a' sent inbox' s :
  typed_patient F p -> chunks_of F uart_frame command_bytes reply respond -> Forall event_packet inbox ->
  ideally (event_new F V) reply p [] inbox = Some (a', sent, inbox') ->
  possible queue_history s -> q_written s = [] -> takes (length sent) (q_ready s) ->
  q_pending s ++ concat (q_arrivals s) = flat_map uart_frame inbox ->
  exists m, forall patience, (m <= patience)%nat ->
  exists s', uart_wait_run F V (device respond) patience p s = (s', Some a')
    /\ q_written s' = flat_map command_bytes sent
    /\ q_pending s' ++ concat (q_arrivals s') = flat_map uart_frame inbox'.
Proof. exact (runs_uart F V A p reply respond inbox a' sent inbox' s). Qed.
Print Assumptions C102_waits_uart.
Theorem C102_waits_split F V A (p : patient V N A) reply respond inbox a' sent inbox' s :
  typed_patient F p -> chunks_of F (fun p => p) link_bytes reply respond -> Forall event_packet inbox ->
  ideally (event_new F V) reply p [] inbox = Some (a', sent, inbox') ->
  possible queue_history s -> q_written s = [] -> takes (length sent) (q_ready s) ->
  q_pending s ++ concat (q_arrivals s) = concat inbox ->
  exists m, forall patience, (m <= patience)%nat ->
  exists s', link_wait_run F V (device respond) patience p s = (s', Some a')
    /\ q_written s' = flat_map link_bytes sent
    /\ q_pending s' ++ concat (q_arrivals s') = concat inbox'.
Proof. exact (runs_link F V A p reply respond inbox a' sent inbox' s). Qed.
Print Assumptions C102_waits_split.

(** On any controller that keeps its contract, for any patience: a program that
    did not give up ends as the packets consumed lead it with ideal channels. *)
Theorem C102_any_uart F V St E (C : controller St E) h A (p : patient V E A) patience s s' a' :
  contract C h -> typed_patient F p -> possible h s -> uart_wait_run F V C patience p s = (s', Some a') ->
  exists ps cs, Forall event_packet ps
    /\ ideally (event_new F V) (fun _ _ => []) p [] ps = Some (a', cs, [])
    /\ exchanged h s s' (flat_map command_bytes cs) (flat_map uart_frame ps).
Proof. exact (runs_any_uart F V St E C h A p patience s s' a'). Qed.
Print Assumptions C102_any_uart.
Theorem C102_any_split F V St E (C : controller St E) h A (p : patient V E A) patience s s' a' :
  contract C h -> typed_patient F p -> possible h s -> link_wait_run F V C patience p s = (s', Some a') ->
  exists ps cs, Forall event_packet ps
    /\ ideally (event_new F V) (fun _ _ => []) p [] ps = Some (a', cs, [])
    /\ exchanged h s s' (flat_map link_bytes cs) (concat ps).
Proof. exact (runs_any_link F V St E C h A p patience s s' a'). Qed.
Print Assumptions C102_any_split.

(** A program that tries data of 40, 32, 31 and 30 bytes: two are refused without
    a byte written, the third is sent, and the device disallows it. *)
Example C102_waits_case :
  let p : patient test_vendor N _ := tries [40; 32; 31; 30]%nat in
  let sent : list (command test_vendor) := [CLeSetAdvertisingData (repeat 7 31)] in
  let s := {| q_received := []; q_consumed := 0; q_arrivals := []; q_written := []; q_ready := [Busy; Busy; Ready] |} in
  typed_patient F41 p /\ chunks_of F41 uart_frame command_bytes (@deny test_vendor) denies_uart
  /\ ideally (event_new F41 test_vendor) deny p [] [] = Some (Some (31%nat, CommandDisallowed), sent, [])
  /\ possible queue_history s /\ takes (length sent) (q_ready s)
  /\ let (s', a) := uart_wait_run F41 test_vendor (device denies_uart) 10 p s in
     a = Some (Some (31%nat, CommandDisallowed)) /\ q_written s' = flat_map command_bytes sent /\ q_arrivals s' = [].
Proof.
  cbv zeta. split; [apply tries_typed|]. split; [apply denies_uart_chunks|].
  split; [vm_compute; reflexivity|].
  split; [split; [constructor|split; [cbn; lia|repeat constructor]]|].
  split; [apply (takes_more 0 2), takes_none|].
  vm_compute. repeat split.
Qed.
Example C102_waits_split_case :
  let p : patient test_vendor N _ := tries [40; 32; 31; 30]%nat in
  let sent : list (command test_vendor) := [CLeSetAdvertisingData (repeat 7 31)] in
  let s := {| q_received := []; q_consumed := 0; q_arrivals := []; q_written := []; q_ready := [Busy; Busy; Ready] |} in
  chunks_of F41 (fun p => p) link_bytes (@deny test_vendor) denies_link
  /\ let (s', a) := link_wait_run F41 test_vendor (device denies_link) 10 p s in
     a = Some (Some (31%nat, CommandDisallowed)) /\ q_written s' = flat_map link_bytes sent /\ q_arrivals s' = [].
Proof.
  cbv zeta. split; [apply denies_link_chunks|]. vm_compute. repeat split.
Qed.
(** The same with a queue in which the answer waits already. *)
Example C102_any_case :
  let p : patient test_vendor N _ := tries [40; 31]%nat in
  let s := {| q_received := [0x04; 0x0E]; q_consumed := 0; q_arrivals := [[4; 1; 0x08]; [0x20; 0x0C; 0x04]];
              q_written := []; q_ready := [Busy; Ready] |} in
  contract queue_controller queue_history /\ typed_patient F41 p /\ possible queue_history s
  /\ (let (s', a) := uart_wait_run F41 test_vendor queue_controller 4 p s in
      a = Some (Some (31%nat, CommandDisallowed)) /\ q_consumed s' = 7%nat)
  /\ ideally (event_new F41 test_vendor) (fun _ _ => []) p [] [denial]
     = Some (Some (31%nat, CommandDisallowed), [CLeSetAdvertisingData (repeat 7 31)], []).
Proof.
  cbv zeta. split; [exact (buffering_contract _ _ queue_buffering)|]. split; [apply tries_typed|].
  split; [split; [repeat constructor|split; [cbn; lia|repeat constructor]]|].
  split; vm_compute; repeat split.
Qed.
