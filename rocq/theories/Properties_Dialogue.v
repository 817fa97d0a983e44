(** * Commands and their answers (property C65). *)
From Verif Require Import Base Model_Types Model_EventBase Model_Command Model_Event Model_Host
  Spec_Wire Spec_Errors Spec_Host Spec_Link Spec_Example Spec_Retry Spec_Dialogue Spec_Split
  Proofs_Base Proofs_Streams Proofs_Dialogue Proofs_Split.
Open Scope list_scope.
Open Scope N_scope.

(** ** C65: each command gets its own answer

    A host that sends commands one after another, and after each reads until it
    has an answer, gets the answers the device gave to these commands, in order,
    if it is patient enough; and each command was written once. *)
Theorem C65_answers F V respond cs answers s ps :
  Forall (fun c => arguments_typed F c /\ @rejection V N c = None) cs ->
  possible queue_history s -> takes (length cs) (q_ready s) ->
  (* events still to be read from before *)
  q_pending s ++ concat (q_arrivals s) = flat_map uart_frame ps -> Forall (unrelated F V) ps ->
  serves F V respond (q_written s) cs answers ->
  exists m, forall n, (m <= n)%nat ->
  exists s', asks F V (device respond) n cs s = (s', map Some answers)
    /\ q_written s' = q_written s ++ flat_map command_bytes cs.
Proof. exact (dialogues F V respond cs answers s ps). Qed.
Print Assumptions C65_answers.

(** A completion has the return parameters of the command it answers. *)
Theorem C65_variant F V (c : command V) ans r p : command_exists F c = true -> answers c = Some ans ->
  answered F V (command_opcode c) (Completed r) p -> ans r.
Proof. exact (answered_variant F V c ans r p). Qed.
Print Assumptions C65_variant.

(** On any controller that keeps its contract, what the host has for an answer is
    the first packet after the command that can be taken for one, and nothing
    beyond it was consumed. *)
Theorem C65_first F V St E (C : controller St E) h c n s s' a : contract C h -> arguments_typed F c ->
  possible h s -> ask F V C n c s = (s', Some a) ->
  exists ps p, Forall event_packet (ps ++ [p])
    /\ exchanged h s s' (command_bytes c) (flat_map uart_frame (ps ++ [p]))
    /\ Forall (passed_over F V (command_opcode c)) ps /\ taken_for F V (command_opcode c) a p.
Proof. exact (fun HC => ask_first F V C h HC c n s s' a). Qed.
Print Assumptions C65_first.
Example C65_first_case :
  let s := {| q_received := []; q_consumed := 0;
              q_arrivals := [[0x04; 0x10; 0x01; 0x42]; [0x04; 0x0E; 4; 1; 0x03; 0x0C; 0; 0x04]];
              q_written := []; q_ready := [Busy; Ready] |} in
  possible queue_history s
  /\ let (s', a) := ask F41 test_vendor queue_controller 9 CReset s in
     a = Some (Completed (RetReset Success)) /\ q_written s' = [1; 0x03; 0x0C; 0] /\ q_consumed s' = 11%nat.
Proof.
  cbv zeta. split; [split; [constructor|split; [cbn; lia|repeat constructor]]|]. vm_compute. auto.
Qed.

Example C65_case :
  let cs := [CReset; CReadRssi 0x0201; CDisconnect 0x0001 RemoteTerminationByUser] in
  let answers :=
    [Completed (RetReset Success);
     Completed (RetReadRssi {| rssi_status := Success; rssi_conn_handle := 0x0201; rssi_rssi := (-16)%Z |});
     Accepted CommandDisallowed] in
  Forall (fun c => arguments_typed F41 c /\ @rejection test_vendor N c = None) cs
  /\ possible queue_history example_device /\ takes (length cs) (q_ready example_device)
  /\ serves F41 test_vendor example_respond [] cs answers
  /\ snd (asks F41 test_vendor (device example_respond) 50 cs example_device) = map Some answers.
Proof. exact dialogue_case. Qed.
