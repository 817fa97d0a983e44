(** * Sending and reading at the same time (property C118). *)
From Verif Require Import Base Model_Types Model_EventBase Model_Command Model_Event Model_Host
  Spec_Wire Spec_Errors Spec_Host Spec_Link Spec_Example Spec_Split Spec_Live Spec_Threads
  Proofs_Base Proofs_Link Proofs_Queue Proofs_Threads.
Open Scope list_scope.
Open Scope N_scope.

(** ** C118: one thread may send while another one reads

    The reader has made [n] reads, and the sender some calls, at any times before and
    within them.  The sender has made the calls of its first turns.  The commands
    that it was told were sent are what has been written, and a controller can tell them
    apart.  The packets that were reported to the reader are what has been taken, in
    order. *)
Theorem C118_threads F V St E (C : controller St E) h n st : contract C h ->
  possible (event_history F V h) st ->
  let (st', rs) := repeated (link_read F V (event_side F V C)) n st in
  exists calls ps, sender_calls st' = sender_calls st ++ calls /\ first_turns V st calls
  /\ Forall event_packet ps
  /\ filter (link_reports V) rs = map (link_result F V) ps
  /\ exchanged h (device_state st) (device_state st') (flat_map link_bytes (sender_sent V calls)) (concat ps)
  /\ parse_link_commands (flat_map link_bytes (sender_sent V calls))
     = Some (map (fun c => (command_opcode c, command_params c)) (sender_sent V calls)).
Proof. exact (threads F V C h n st). Qed.
Print Assumptions C118_threads.

(** The event link that is shared with a sender in this way is a transport like any
    other: it keeps the contract, gives what is there, and blocks only if too little is
    there, if the transport below does.  So what holds of reads from such transports (C34,
    C68, C110) holds with the sender, too. *)
Theorem C118_contract F V St E (C : controller St E) h : contract C h ->
  contract (event_side F V C) (event_history F V h).
Proof. exact (side_contract F V C h). Qed.
Print Assumptions C118_contract.
Theorem C118_buffering F V St E (C : controller St E) h : buffering C h ->
  buffering (event_side F V C) (event_history F V h).
Proof. exact (side_buffering F V C h). Qed.
Print Assumptions C118_buffering.
Theorem C118_prompt F V St E (C : controller St E) h : prompt C h ->
  prompt (event_side F V C) (event_history F V h).
Proof. exact (side_prompt F V C h). Qed.
Print Assumptions C118_prompt.

(** So if the reader reads again and again and the sender goes on for ever, each packet that
    arrives is reported at some time. *)
Theorem C118_unread F V St E (C : controller St E) h states results n ps rest : prompt C h ->
  endless (split_perform F V (event_side F V C)) (fun _ => Receive) states results ->
  possible (event_history F V h) (states 0%nat) -> again_and_again (fun m => split_read_went (results m) = true) ->
  Forall event_packet ps -> pending (event_history F V h) (states 0%nat) (states n) = concat ps ++ rest ->
  exists m more, (n <= m)%nat
  /\ split_received (until (fun _ => Receive) results m) = map (link_result F V) ps ++ more.
Proof. exact (unread F V C h states results n ps rest). Qed.
Print Assumptions C118_unread.

(** The last byte of an event arrives late.  Within the read, when the length has been
    looked at and the event has not been taken, the sender sends Reset and fails to send
    Read RSSI. *)
Definition shared_example : shared test_vendor queue N :=
  {| device_state := {| q_received := [0x10; 0x01]; q_consumed := 0; q_arrivals := [[0x42]]; q_written := [];
                        q_ready := [Ready; Busy] |};
     sender_turns := fun n => match n with 1%nat => [CReset; CReadRssi 0x0201] | _ => [] end; sender_calls := []; reader_writes := [] |}.
Example C118_case :
  contract queue_controller queue_history /\ possible (event_history F41 test_vendor queue_history) shared_example
  /\ (let (st', rs) := repeated (link_read F41 test_vendor (event_side F41 test_vendor queue_controller)) 1 shared_example in
      rs = [link_result F41 test_vendor [0x10; 0x01; 0x42]]
      /\ sender_sent test_vendor (sender_calls st') = [CReset]
      /\ map fst (sender_calls st') = [CReset; CReadRssi 0x0201]
      /\ q_written (device_state st') = [0x03; 0x0C; 0x00] /\ q_consumed (device_state st') = 3%nat).
Proof.
  split; [exact (buffering_contract _ _ queue_buffering)|]. split; [|vm_compute; repeat split].
  split; [vm_compute; repeat constructor; discriminate|]. intros [|[|n]]; repeat constructor; vm_compute; reflexivity.
Qed.
