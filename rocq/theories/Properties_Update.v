(** * Programs built differently that follow one another (property C122). *)
From Coq Require Import Lia.
From Verif Require Import Base Model_Types Model_EventBase Model_Command Model_Event Model_Host
  Spec_Wire Spec_Errors Spec_Host Spec_Link Spec_Example Spec_Split Spec_Crash Spec_Update
  Proofs_Base Proofs_Link Proofs_Queue Proofs_Crash Proofs_Update.
Open Scope list_scope.
Open Scope N_scope.

(** ** C122: a program may be replaced by one that is built differently

    Programs are run and stopped one after the other (C117), each built with any version
    enabled and for any vendor.  Together they take whole packets, in order, and write
    whole commands, in order, which a controller can tell apart.  Each is told of its
    packets as its own version and vendor have it. *)
Theorem C122_updates St E (C : controller St E) h s ls s' : contract C h ->
  possible h s -> updates C h s ls s' ->
  exists ends, map of_life ends = ls /\ Forall end_told ends
    /\ Forall event_packet (flat_map end_packets ends)
    /\ exchanged h s s' (flat_map (fun x => flat_map command_bytes (end_sent x)) ends)
         (flat_map uart_frame (flat_map end_packets ends))
    /\ parse_commands (flat_map (fun x => flat_map command_bytes (end_sent x)) ends)
       = Some (flat_map (fun x => map (fun c => (command_opcode c, command_params c)) (end_sent x)) ends).
Proof. exact (fun HC => updates_end C h HC s ls s'). Qed.
Print Assumptions C122_updates.
Theorem C122_split_updates St E (C : controller St E) h s ls s' : contract C h ->
  possible h s -> split_updates C h s ls s' ->
  exists ends, map of_split_life ends = ls /\ Forall split_end_told ends
    /\ Forall event_packet (flat_map split_end_packets ends)
    /\ exchanged h s s' (flat_map (fun x => flat_map link_bytes (split_end_sent x)) ends)
         (concat (flat_map split_end_packets ends))
    /\ parse_link_commands (flat_map (fun x => flat_map link_bytes (split_end_sent x)) ends)
       = Some (flat_map (fun x => map (fun c => (command_opcode c, command_params c)) (split_end_sent x)) ends).
Proof. exact (fun HC => split_updates_end C h HC s ls s'). Qed.
Print Assumptions C122_split_updates.

(** Twice the same event arrives: a disconnection with a status of version 5.0.  A program
    for 4.1 refuses the first.  The program for 5.0 that replaces it understands the
    second; its vendor is another one. *)
Definition other_vendor : vendor :=
  {| VStatus := bool; VEvent := unit; VReturn := N; VError := N;
     vstatus_try_from := fun b => if b =? 200 then Ok true else Err b;
     vstatus_into := fun b => if b then 200 else 201;
     vevent_new := fun _ => Err (EVendor 7);
     vreturn_new := fun _ => Ok 9 |}.
Definition timed_out : queue :=
  {| q_received := [0x04; 0x05; 0x04; 0x43; 0x01; 0x00; 0x13; 0x04; 0x05; 0x04; 0x43; 0x01; 0x00; 0x13]; q_consumed := 0;
     q_arrivals := []; q_written := []; q_ready := [Ready] |}.
Example C122_case :
  let C := queue_controller in
  let packet := [0x05; 0x04; 0x43; 0x01; 0x00; 0x13] in
  let z := q_write [0x01; 0x03; 0x0C; 0x00] [] (q_take 14 timed_out) in
  contract C queue_history /\ possible queue_history timed_out
  /\ uart_result F41 test_vendor (E := N) packet = Err (Other (UBLE (EBadStatus 0x43)))
  /\ uart_result F50 other_vendor (E := N) packet
     = Ok (PEvent (EvDisconnectionComplete (Build_disconnection_complete LimitReached 1 RemoteTerminationByUser)))
  /\ updates C queue_history timed_out
       [{| built_for := F41; built_with := test_vendor;
           calls_made := [(Receive, Received (uart_result F41 test_vendor packet))] |};
        {| built_for := F50; built_with := other_vendor;
           calls_made := [(Receive, Received (uart_result F50 other_vendor packet))] |}] z.
Proof.
  cbv zeta.
  split; [exact (buffering_contract _ _ queue_buffering)|]. split; [vm_compute; repeat constructor; discriminate|].
  split; [vm_compute; reflexivity|]. split; [vm_compute; reflexivity|].
  assert (N : forall y, possible queue_history y -> nothing queue_history y y) by (intros y Hy; now apply nothing_refl).
  eapply one_update with (x := q_take 7 timed_out) (y := q_take 7 timed_out).
  - exists [Receive], Receive, (q_take 7 timed_out). split; [repeat constructor|]. split; [vm_compute; reflexivity|].
    now left.
  - apply N. vm_compute. repeat constructor; discriminate.
  - eapply one_update; [|apply N|apply no_update].
    + exists [Receive], (Send CReset), (q_take 14 timed_out). split; [repeat constructor|]. split; [vm_compute; reflexivity|].
      vm_compute. tauto.
    + vm_compute. repeat constructor; discriminate.
Qed.
