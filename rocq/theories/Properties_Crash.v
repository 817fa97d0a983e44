(** * Programs that are stopped at any moment (property C117). *)
From Coq Require Import Lia.
From Verif Require Import Base Model_Types Model_EventBase Model_Command Model_Event Model_Host
  Spec_Wire Spec_Errors Spec_Host Spec_Link Spec_Example Spec_Split Spec_Crash
  Proofs_Base Proofs_Link Proofs_Queue Proofs_Crash.
Open Scope list_scope.
Open Scope N_scope.

(** ** C117: wherever a program is stopped, the streams are left between two packets

    A program makes calls and is stopped in one of them, before the transport is used or
    after any use of it.  From what arrived, whole packets have been taken: those that it
    was told of, and at most one more, if it was stopped in a read.  Whole commands have
    been written: those that it was told of, and at most one more, the one that it was
    just sending.  A controller can split what it got into these commands. *)
Theorem C117_stop F V St E (C : controller St E) h os o s x : contract C h ->
  Forall (typed_operation F) (os ++ [o]) -> possible h s ->
  let (s1, log) := session F V C os s in In x (moments F V C o s1) ->
  exists f, ended F (log, f)
  /\ (forall p, packet_lost f = Some p -> o = Receive) /\ (forall c, command_in_doubt f = Some c -> o = Send c)
  /\ Forall event_packet (packets_taken f)
  /\ exchanged h s x (flat_map command_bytes (all_sent (log, f))) (flat_map uart_frame (packets_taken f))
  /\ parse_commands (flat_map command_bytes (all_sent (log, f)))
     = Some (map (fun c => (command_opcode c, command_params c)) (all_sent (log, f))).
Proof. exact (fun HC => stop_parsed F V C h HC os o s x). Qed.
Print Assumptions C117_stop.

(** So any number of programs may be run and stopped one after the other: together they
    take a sequence of whole packets and write a sequence of whole commands, and each of
    them is told of all but one of its own at most. *)
Theorem C117_lives F V St E (C : controller St E) h s logs s' : contract C h ->
  possible h s -> lives F V C h s logs s' ->
  exists ends, map fst ends = logs /\ Forall (ended F) ends
  /\ Forall event_packet (flat_map (fun x => packets_taken (snd x)) ends)
  /\ exchanged h s s' (flat_map command_bytes (flat_map all_sent ends))
       (flat_map uart_frame (flat_map (fun x => packets_taken (snd x)) ends))
  /\ parse_commands (flat_map command_bytes (flat_map all_sent ends))
     = Some (map (fun c => (command_opcode c, command_params c)) (flat_map all_sent ends)).
Proof. exact (fun HC => lives_end F V C h HC s logs s'). Qed.
Print Assumptions C117_lives.

(** The same over a command link and an event link. *)
Theorem C117_split_stop F V St E (C : controller St E) h os o s x : contract C h ->
  Forall (typed_operation F) (os ++ [o]) -> possible h s ->
  let (s1, log) := split_session F V C os s in In x (split_moments F V C o s1) ->
  exists f, split_ended F (log, f)
  /\ (forall p, packet_lost f = Some p -> o = Receive) /\ (forall c, command_in_doubt f = Some c -> o = Send c)
  /\ Forall event_packet (packets_taken f)
  /\ exchanged h s x (flat_map link_bytes (split_all_sent (log, f))) (@concat N (packets_taken f))
  /\ parse_link_commands (flat_map link_bytes (split_all_sent (log, f)))
     = Some (map (fun c => (command_opcode c, command_params c)) (split_all_sent (log, f))).
Proof. exact (fun HC => split_stop_parsed F V C h HC os o s x). Qed.
Print Assumptions C117_split_stop.

Theorem C117_split_lives F V St E (C : controller St E) h s logs s' : contract C h ->
  possible h s -> split_lives F V C h s logs s' ->
  exists ends, map fst ends = logs /\ Forall (split_ended F) ends
  /\ Forall event_packet (flat_map (fun x => packets_taken (snd x)) ends)
  /\ exchanged h s s' (flat_map link_bytes (flat_map split_all_sent ends))
       (@concat N (flat_map (fun x => packets_taken (snd x)) ends))
  /\ parse_link_commands (flat_map link_bytes (flat_map split_all_sent ends))
     = Some (map (fun c => (command_opcode c, command_params c)) (flat_map split_all_sent ends)).
Proof. exact (fun HC => split_lives_end F V C h HC s logs s'). Qed.
Print Assumptions C117_split_lives.

(** Two events have arrived.  The first program is stopped in its first read: there are
    three moments when no byte has been taken, and one when the first packet has been.
    It is stopped at this last one, so the packet is lost.  The second program reads the
    second packet, and is stopped when it has just sent Reset. *)
Definition two_events : queue :=
  {| q_received := [0x04; 0x10; 0x01; 0x42; 0x04; 0x10; 0x01; 0x43]; q_consumed := 0;
     q_arrivals := []; q_written := []; q_ready := [Ready] |}.
Example C117_case :
  let C := queue_controller in let V := test_vendor in
  let x := q_take 4 two_events in let z := q_write [0x01; 0x03; 0x0C; 0x00] [] (q_take 8 two_events) in
  contract C queue_history /\ possible queue_history two_events
  /\ map q_pending (moments F41 V C Receive two_events)
     = repeat (q_received two_events) 3 ++ [[0x04; 0x10; 0x01; 0x43]]
  /\ In x (moments F41 V C Receive two_events)
  /\ lives F41 V C queue_history two_events
       [[]; [(Receive, Received (uart_result F41 V [0x10; 0x01; 0x43]))]] z.
Proof.
  cbv zeta.
  assert (P : possible queue_history two_events) by (vm_compute; repeat constructor; discriminate).
  assert (M : In (q_take 4 two_events) (moments F41 test_vendor queue_controller Receive two_events))
    by (vm_compute; tauto).
  split; [exact (buffering_contract _ _ queue_buffering)|]. split; [exact P|]. split; [vm_compute; reflexivity|]. split; [exact M|].
  assert (N : forall y, possible queue_history y -> nothing queue_history y y) by (intros y Hy; now apply nothing_refl).
  eapply one_more with (x := q_take 4 two_events) (y := q_take 4 two_events).
  - exists [], Receive, two_events. split; [repeat constructor|]. split; [reflexivity|exact M].
  - apply N. vm_compute. repeat constructor; discriminate.
  - eapply one_more; [|apply N|apply no_more].
    + exists [Receive], (Send CReset), (q_take 8 two_events). split; [repeat constructor|]. split; [vm_compute; reflexivity|].
      vm_compute. tauto.
    + vm_compute. repeat constructor; discriminate.
Qed.
