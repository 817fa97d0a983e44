(** * Runs without an end over separate links (property C116). *)
From Coq Require Import Lia.
From Verif Require Import Base Model_Types Model_Intervals Model_EventBase Model_Command Model_Event Model_Host
  Spec_Wire Spec_Errors Spec_Host Spec_Link Spec_Example Spec_Split Spec_Conform Spec_Follow Spec_Credit Spec_Facts Spec_Data
  Spec_Window Spec_Turns Spec_Own Spec_Apart Spec_Live Spec_LiveOwn Spec_LiveApart
  Proofs_Base Proofs_Link Proofs_Queue Proofs_Conform Proofs_Follow Proofs_Facts Proofs_Data Proofs_Turns Proofs_Live Proofs_LiveOwn
  Proofs_LiveApart.
Open Scope list_scope.
Open Scope N_scope.

(** ** C116: over separate links too, the turn and the answers come

    A host has one link for commands and one for events, and sends only when it
    knows that it may.  The controller is fair and goes on, what is sent gets there,
    and again and again a read does not fail by the link.  Then it is the host's turn
    again and again. *)
Theorem C116_turn_comes F V St E (C : controller St E) h calls states results d : prompt C h ->
  endless (split_perform F V C) calls states results -> (forall n, typed_operation F (calls n)) -> possible h (states 0%nat) ->
  links_go_on F h states d -> (forall n, split_patient (until calls results n)) ->
  again_and_again (fun n => split_read_went (results n) = true) ->
  again_and_again (fun n => split_may_send (until calls results n)).
Proof. exact (fun HP R T S G => split_turn_connected F V C h HP calls states results R T S d (go_on_connected _ _ _ _ G) G). Qed.
Print Assumptions C116_turn_comes.

(** Each command gets its own answer at some time, as in C114. *)
Theorem C116_own_answer_comes F V St E (C : controller St E) h calls states results d (c : command V) : prompt C h ->
  endless (split_perform F V C) calls states results -> (forall n, typed_operation F (calls n)) -> possible h (states 0%nat) ->
  links_reply F (command_opcode c) h states d ->
  again_and_again (fun n => split_read_went (results n) = true) ->
  forall n k cmd,
  nth_error (filter (command_with (command_opcode c)) (links_out (until calls results n))) k = Some cmd ->
  exists m ev pkt, (n <= m)%nat
  /\ nth_error (filter (answer_to (command_opcode c)) (split_events_read (until calls results m))) k = Some ev
  /\ event_new F V pkt = Ok ev
  /\ nth_error (filter (reply_with (command_opcode c)) (sent_by (d m))) k = Some (0x04, pkt)
  /\ nth_error (filter (command_with (command_opcode c)) (taken (d m))) k = Some cmd.
Proof.
  exact (fun HP R T S A W n k cmd => split_own_answer_comes F V C h HP calls states results R T S d (reply_connected _ _ _ _ _ A) c A n k cmd W).
Qed.
Print Assumptions C116_own_answer_comes.

(** Reset for ever: the host may send in call 0, not in call 1, and again in call 2,
    after it has read the answer. *)
Example C116_case :
  let call := split_perform F41 test_vendor link_reset_controller in
  let states := states_of call link_resets empty_queue in let results := results_of call link_resets empty_queue in
  prompt link_reset_controller queue_history
  /\ endless call link_resets states results
  /\ (forall n, typed_operation F41 (@link_resets test_vendor n)) /\ possible queue_history (states 0%nat)
  /\ links_go_on F41 queue_history states reset_device
  /\ links_reply F41 (command_opcode (@CReset test_vendor)) queue_history states reset_device
  /\ (forall n, split_patient (until link_resets results n))
  /\ again_and_again (fun n => split_read_went (results n) = true)
  /\ split_may_send (until link_resets results 0) /\ ~ split_may_send (until link_resets results 1)
  /\ split_may_send (until link_resets results 2)
  /\ filter (command_with 0x0C03) (links_out (until link_resets results 1)) = [reset_packet]
  /\ filter (answer_to 0x0C03) (split_events_read (until link_resets results 1)) = []
  /\ length (filter (answer_to 0x0C03) (split_events_read (until link_resets results 2))) = 1%nat.
Proof.
  cbv zeta. split; [apply buffering_prompt, answering_buffering; intros _; vm_compute; repeat constructor|]. split; [apply endless_of|].
  split; [intros n; unfold link_resets; destruct (Nat.even n); exact I|].
  split; [cbn; repeat split; repeat constructor|].
  split; [exact (link_resets_go_on test_vendor)|]. split; [exact (link_resets_reply test_vendor)|].
  split; [exact (link_reset_patient test_vendor)|]. split; [exact (link_resets_read test_vendor)|].
  vm_compute. split; [reflexivity|]. split; [discriminate|]. repeat split.
Qed.
