(** * Applications and devices that answer each other (property C87). *)
From Verif Require Import Base Model_Types Model_EventBase Model_Command Model_Event Model_Host
  Spec_Wire Spec_Errors Spec_Host Spec_Link Spec_Example Spec_Split Spec_Retry Spec_Dialogue Spec_Loop
  Proofs_Base Proofs_Loop.
Open Scope list_scope.
Open Scope N_scope.

(** ** C87: applications work as if messages were passed directly

    If an application that answers messages with commands and a device that
    answers commands with packets get to some state with ideal channels between
    them, then they get to the same state through this crate, if the application
    is patient enough: bytes may come in any pieces, at any time, and the device
    may be busy for any time.  The same commands are sent, and the same packets
    are left to read. *)
Theorem C87_uart F V A (react : A -> message V -> A * list (command V)) reply respond n a inbox a' sent inbox' s :
  sends_valid F react -> chunks_of F uart_frame command_bytes reply respond -> Forall event_packet inbox ->
  ideal react (event_new F V) reply n a [] inbox = Some (a', sent, inbox') ->
  possible queue_history s -> q_written s = [] -> takes (length sent) (q_ready s) ->
  q_pending s ++ concat (q_arrivals s) = flat_map uart_frame inbox ->
  exists m, forall patience, (m <= patience)%nat ->
  exists s', serve react (uart_get F V (device respond) patience) (uart_put F V (device respond) patience) n a s
             = (s', Some a')
    /\ q_written s' = flat_map command_bytes sent
    /\ q_pending s' ++ concat (q_arrivals s') = flat_map uart_frame inbox'.
Proof. exact (served_uart F V A react reply respond n a inbox a' sent inbox' s). Qed.
Print Assumptions C87_uart.

Theorem C87_split F V A (react : A -> message V -> A * list (command V)) reply respond n a inbox a' sent inbox' s :
  sends_valid F react -> chunks_of F (fun p => p) link_bytes reply respond -> Forall event_packet inbox ->
  ideal react (event_new F V) reply n a [] inbox = Some (a', sent, inbox') ->
  possible queue_history s -> q_written s = [] -> takes (length sent) (q_ready s) ->
  q_pending s ++ concat (q_arrivals s) = concat inbox ->
  exists m, forall patience, (m <= patience)%nat ->
  exists s', serve react (link_get F V (device respond) patience) (link_put F V (device respond) patience) n a s
             = (s', Some a')
    /\ q_written s' = flat_map link_bytes sent
    /\ q_pending s' ++ concat (q_arrivals s') = concat inbox'.
Proof. exact (served_link F V A react reply respond n a inbox a' sent inbox' s). Qed.
Print Assumptions C87_split.

(** On any controller that keeps its contract, and for any patience: an
    application that did not give up is where the packets consumed lead it with
    ideal channels, and what was written are the commands it sent there. *)
Theorem C87_any_uart F V St E (C : controller St E) h A (react : A -> message V -> A * list (command V))
    n patience a s s' a' :
  contract C h -> sends_typed F react -> possible h s ->
  serve react (uart_get F V C patience) (uart_put F V C patience) n a s = (s', Some a') ->
  exists ps cs, length ps = n /\ Forall event_packet ps
    /\ ideal react (event_new F V) (fun _ _ => []) n a [] ps = Some (a', cs, [])
    /\ exchanged h s s' (flat_map command_bytes cs) (flat_map uart_frame ps).
Proof. exact (any_uart F V St E C h A react n patience a s s' a'). Qed.
Print Assumptions C87_any_uart.

Theorem C87_any_split F V St E (C : controller St E) h A (react : A -> message V -> A * list (command V))
    n patience a s s' a' :
  contract C h -> sends_typed F react -> possible h s ->
  serve react (link_get F V C patience) (link_put F V C patience) n a s = (s', Some a') ->
  exists ps cs, length ps = n /\ Forall event_packet ps
    /\ ideal react (event_new F V) (fun _ _ => []) n a [] ps = Some (a', cs, [])
    /\ exchanged h s s' (flat_map link_bytes cs) (concat ps).
Proof. exact (any_link F V St E C h A react n patience a s s' a'). Qed.
Print Assumptions C87_any_split.

(** The application of the example, with a device that sends its answers byte by
    byte: seven messages, one of which is no event, and three commands. *)
Example C87_case :
  let sent : list (command test_vendor) := [CReadRssi 0x0201; CDisconnect 0x0201 RemoteTerminationByUser; CReset] in
  let s := {| q_received := []; q_consumed := 0;
              q_arrivals := [[0x04; 0x3E]; 19 :: skipn 2 (hd [] example_inbox) ++ [0x04; 0x10]; []; [1; 0x42]];
              q_written := []; q_ready := [Busy; Ready; Busy; Busy; Ready; Ready] |} in
  sends_valid F41 (@example_react test_vendor)
  /\ chunks_of F41 uart_frame command_bytes (@example_reply test_vendor) loop_uart
  /\ Forall event_packet example_inbox
  /\ ideal (@example_react test_vendor) (event_new F41 test_vendor) example_reply 7 0%nat [] example_inbox
     = Some (1%nat, sent, [])
  /\ possible queue_history s /\ takes (length sent) (q_ready s)
  /\ q_pending s ++ concat (q_arrivals s) = flat_map uart_frame example_inbox
  /\ let (s', a) := serve (@example_react test_vendor) (uart_get F41 test_vendor (device loop_uart) 40)
                      (uart_put F41 test_vendor (device loop_uart) 40) 7 0%nat s in
     a = Some 1%nat /\ q_written s' = flat_map command_bytes sent.
Proof.
  cbv zeta. split; [apply example_valid|]. split; [apply example_uart|]. split.
  { repeat constructor.
    - exists 0x3E, (skipn 2 (hd [] example_inbox)). repeat split; [repeat constructor|cbn; lia].
    - exists 0x10, [0x42]. repeat split; [repeat constructor|cbn; lia]. }
  split; [vm_compute; reflexivity|].
  split; [split; [constructor|split; [cbn; lia|repeat constructor]]|].
  split; [apply (takes_more 2 1), (takes_more 1 2), (takes_more 0 0), takes_none|].
  split; [vm_compute; reflexivity|]. vm_compute. split; reflexivity.
Qed.
Example C87_split_case :
  let sent : list (command test_vendor) := [CReadRssi 0x0201; CDisconnect 0x0201 RemoteTerminationByUser; CReset] in
  let s := {| q_received := []; q_consumed := 0;
              q_arrivals := [[0x3E]; 19 :: skipn 2 (hd [] example_inbox) ++ [0x10]; []; [1; 0x42]];
              q_written := []; q_ready := [Busy; Ready; Busy; Busy; Ready; Ready] |} in
  chunks_of F41 (fun p => p) link_bytes (@example_reply test_vendor) loop_link
  /\ q_pending s ++ concat (q_arrivals s) = concat example_inbox
  /\ let (s', a) := serve (@example_react test_vendor) (link_get F41 test_vendor (device loop_link) 40)
                      (link_put F41 test_vendor (device loop_link) 40) 7 0%nat s in
     a = Some 1%nat /\ q_written s' = flat_map link_bytes sent.
Proof.
  cbv zeta. split; [apply example_link|]. split; [vm_compute; reflexivity|]. vm_compute. split; reflexivity.
Qed.
