(** * Programs that are started after others were stopped (property C119). *)
From Coq Require Import Lia.
From Verif Require Import Base Model_Types Model_Intervals Model_EventBase Model_Command Model_Event Model_Host
  Spec_Wire Spec_Errors Spec_Host Spec_Link Spec_Example Spec_Split Spec_Conform Spec_Follow Spec_Credit Spec_Facts Spec_Data
  Spec_Window Spec_Turns Spec_Own Spec_Apart Spec_Crash Spec_Restart
  Proofs_Base Proofs_Link Proofs_Queue Proofs_Conform Proofs_Follow Proofs_Facts Proofs_Data Proofs_Turns Proofs_Crash Proofs_Restart.
Open Scope list_scope.
Open Scope N_scope.

(** ** C119: after a restart, the answers to earlier commands come first

    Programs were stopped one after the other (C117).  They have written commands and
    taken packets; the device was at [d].  A further program makes calls and reads, and
    the device goes on to [d ++ d1]; it answers commands with the same opcode in order.
    The answers to a command that this program reads are first those to the commands of
    the earlier programs that had no answer yet, and then those to its own. *)
Theorem C119_answers F V St E (C : controller St E) h s logs y os d d1 (c : command V) : contract C h ->
  possible h s -> lives F V C h s logs y ->
  Forall (typed_operation F) os -> orderly F (d ++ d1) ->
  Forall (fun w => reserved_address_commands (snd w) = false) (sent_by (d ++ d1)) -> reached h s y d ->
  let (s', log) := session F V C os y in reached h s s' (d ++ d1) ->
  exists ends, map fst ends = logs /\ Forall (ended F) ends
  /\ exchanged h s y (flat_map command_bytes (flat_map all_sent ends))
       (flat_map uart_frame (flat_map (fun x => packets_taken (snd x)) ends))
  /\ forall k ev, nth_error (filter (answer_to (command_opcode c)) (events_read log)) k = Some ev ->
     exists pkt cmd, event_new F V pkt = Ok ev
     /\ nth_error (unanswered (command_opcode c) (flat_map all_sent ends) (flat_map (fun x => packets_taken (snd x)) ends)
                  ++ filter (command_with (command_opcode c)) (map command_wire (sent_commands log))) k = Some cmd
     /\ exists n, nth_error (filter (reply_with (command_opcode c)) (sent_by (d ++ d1))) n = Some (0x04, pkt)
        /\ nth_error (filter (command_with (command_opcode c)) (taken (d ++ d1))) n = Some cmd.
Proof. exact (fun HC => restart_answers F V C h HC s logs y os d d1 c). Qed.
Print Assumptions C119_answers.

(** The same over a command link and an event link. *)
Theorem C119_split_answers F V St E (C : controller St E) h s logs y os d d1 (c : command V) : contract C h ->
  possible h s -> split_lives F V C h s logs y ->
  Forall (typed_operation F) os -> orderly F (d ++ d1) -> apart (d ++ d1) ->
  Forall (fun w => reserved_address_commands (snd w) = false) (sent_by (d ++ d1)) -> links_reached h s y d ->
  let (s', log) := split_session F V C os y in links_reached h s s' (d ++ d1) ->
  exists ends, map fst ends = logs /\ Forall (split_ended F) ends
  /\ exchanged h s y (flat_map link_bytes (flat_map split_all_sent ends))
       (concat (flat_map (fun x => packets_taken (snd x)) ends))
  /\ forall k ev, nth_error (filter (answer_to (command_opcode c)) (split_events_read log)) k = Some ev ->
     exists pkt cmd, event_new F V pkt = Ok ev
     /\ nth_error (unanswered (command_opcode c) (flat_map split_all_sent ends) (flat_map (fun x => packets_taken (snd x)) ends)
                  ++ filter (command_with (command_opcode c)) (map command_wire (split_sent log))) k = Some cmd
     /\ exists n, nth_error (filter (reply_with (command_opcode c)) (sent_by (d ++ d1))) n = Some (0x04, pkt)
        /\ nth_error (filter (command_with (command_opcode c)) (taken (d ++ d1))) n = Some cmd.
Proof. exact (fun HC => split_restart_answers F V C h HC s logs y os d d1 c). Qed.
Print Assumptions C119_split_answers.

(** The first program is stopped when it has just asked for the RSSI of connection 0x40.
    The second one asks for that of connection 0x41, and reads the answer about 0x40. *)
Definition C119_reply : list N := framed 0x0E ([1] ++ le 2 (hci_opcode 0x05 0x005) ++ [0; 0x40; 0; 0xC0]).
Definition C119_before : list device_step := [ Takes (0x01, [0x05; 0x14; 2; 0x40; 0]); Sends (0x04, C119_reply) ].
Definition C119_after : list device_step := [ Takes (0x01, [0x05; 0x14; 2; 0x41; 0]) ].
Definition C119_start : queue :=
  {| q_received := []; q_consumed := 0; q_arrivals := [[]; uart_frame C119_reply]; q_written := []; q_ready := [Ready; Ready] |}.
Definition C119_stopped : queue :=
  {| q_received := []; q_consumed := 0; q_arrivals := [uart_frame C119_reply];
     q_written := [0x01; 0x05; 0x14; 2; 0x40; 0]; q_ready := [Ready] |}.
Example C119_case :
  let C := queue_controller in let h := queue_history in
  contract C h /\ possible h C119_start /\ lives F41 test_vendor C h C119_start [[]] C119_stopped
  /\ Forall (typed_operation F41) [Send (V := test_vendor) (CReadRssi 0x41); Receive]
  /\ orderly F41 (C119_before ++ C119_after)
  /\ Forall (fun w => reserved_address_commands (snd w) = false) (sent_by (C119_before ++ C119_after))
  /\ reached h C119_start C119_stopped C119_before
  /\ let (s', log) := session F41 test_vendor C [Send (CReadRssi 0x41); Receive] C119_stopped in
     reached h C119_start s' (C119_before ++ C119_after)
     /\ filter (answer_to (hci_opcode 0x05 0x005)) (events_read log)
        = [ EvCommandComplete (Build_command_complete 1 (RetReadRssi (Build_read_rssi_params Success 0x40 (-64)%Z))) ]
     /\ unanswered (hci_opcode 0x05 0x005) [@CReadRssi test_vendor 0x40] [] = [(0x01, [0x05; 0x14; 2; 0x40; 0])]
     /\ filter (command_with (hci_opcode 0x05 0x005)) (map command_wire (sent_commands log)) = [(0x01, [0x05; 0x14; 2; 0x41; 0])].
Proof.
  cbv zeta. assert (P : possible queue_history C119_start) by (vm_compute; repeat constructor; discriminate).
  assert (P' : possible queue_history C119_stopped) by (vm_compute; repeat constructor; discriminate).
  split; [exact (buffering_contract _ _ queue_buffering)|]. split; [exact P|].
  split.
  { eapply one_more with (x := C119_stopped) (y := C119_stopped); [|now apply nothing_refl|apply no_more].
    exists [], (Send (CReadRssi 0x40)), C119_start. split; [repeat constructor; vm_compute; reflexivity|]. split; [reflexivity|].
    vm_compute. tauto. }
  split; [repeat constructor; vm_compute; reflexivity|].
  split.
  { split.
    { unfold C119_before, C119_after, taken. cbn [flat_map app].
      repeat (apply Forall_cons;
        [right; match goal with |- context [(_, ?x :: ?y :: _ :: ?p) = _] => exists x, y, p; split; reflexivity end|]).
      constructor. }
    intros before w after Hd.
    assert (Q : conforming_packet F41 C119_reply) by (apply return_checked; vm_compute; reflexivity).
    unfold C119_before, C119_after in Hd. cbn [app] in Hd. places.
    all: subst w; split; [left; split; [reflexivity|exact (conforming_event_packet F41 _ Q)]|]; split; [intros _; exact Q|].
    all: intros op Z H; apply andb_prop in H; destruct H as [_ H]; apply orb_prop in H; destruct H as [H|H];
      apply andb_prop in H; destruct H as [H1 H2]; [|discriminate H1].
    all: apply N.eqb_eq in H2; subst op; vm_compute; reflexivity. }
  split; [repeat constructor|].
  split; [split; [exists []|exists (uart_frame C119_reply)]; vm_compute; reflexivity|].
  set (run := session F41 test_vendor queue_controller [Send (CReadRssi 0x41); Receive] C119_stopped).
  let v := eval vm_compute in run in assert (R : run = v) by (vm_compute; reflexivity).
  rewrite R. clear R run. split; [split; exists []; vm_compute; reflexivity|]. repeat split.
Qed.
