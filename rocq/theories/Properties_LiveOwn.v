(** * Every command gets its answer (property C114). *)
From Coq Require Import Lia.
From Verif Require Import Base Model_Types Model_Intervals Model_EventBase Model_Command Model_Event Model_Host
  Spec_Wire Spec_Errors Spec_Host Spec_Link Spec_Example Spec_Split Spec_Conform Spec_Follow Spec_Credit Spec_Facts Spec_Data
  Spec_Window Spec_Turns Spec_Own Spec_Live Spec_LiveOwn
  Proofs_Base Proofs_Link Proofs_Queue Proofs_Conform Proofs_Follow Proofs_Facts Proofs_Data Proofs_Turns Proofs_Live Proofs_LiveOwn.
Open Scope list_scope.
Open Scope N_scope.

(** ** C114: every command gets its own answer at some time

    The controller of C106 may do commands in any order, but answers each at some
    time.  What is sent gets there, and the host goes on reading.  Then for the [k]th
    command with some opcode that the host has sent, it reads at some time a [k]th
    event that answers this opcode, and this event is the controller's answer to
    that very command. *)
Theorem C114_own_answer_comes F V St E (C : controller St E) h calls states results d (c : command V) : buffering C h ->
  endless (data_perform F V C) calls states results -> (forall n, typed_data_operation F V (calls n)) -> possible h (states 0%nat) ->
  replies_to_all F (command_opcode c) h states d ->
  again_and_again (fun n => calls n = Fetch) ->
  forall n k cmd,
  nth_error (filter (command_with (command_opcode c)) (put_out V (until calls results n))) k = Some cmd ->
  exists m ev pkt, (n <= m)%nat
  /\ nth_error (filter (answer_to (command_opcode c)) (events_got (until calls results m))) k = Some ev
  /\ event_new F V pkt = Ok ev
  /\ nth_error (filter (reply_with (command_opcode c)) (sent_by (d m))) k = Some (0x04, pkt)
  /\ nth_error (filter (command_with (command_opcode c)) (taken (d m))) k = Some cmd.
Proof. exact (fun HB R T S A W => own_answer_comes F V C h HB calls states results R T S d c A W). Qed.
Print Assumptions C114_own_answer_comes.

(** Reset for ever: the first Reset is sent in call 0 and its answer is read in call 1. *)
Example C114_case :
  let call := data_perform F41 test_vendor reset_controller in
  let states := states_of call reset_calls empty_queue in let results := results_of call reset_calls empty_queue in
  buffering reset_controller queue_history
  /\ endless call reset_calls states results
  /\ (forall n, typed_data_operation F41 test_vendor (reset_calls n)) /\ possible queue_history (states 0%nat)
  /\ replies_to_all F41 (command_opcode (@CReset test_vendor)) queue_history states reset_device
  /\ again_and_again (fun n => @reset_calls test_vendor n = Fetch)
  /\ filter (command_with 0x0C03) (put_out test_vendor (until reset_calls results 1)) = [reset_packet]
  /\ filter (answer_to 0x0C03) (events_got (until reset_calls results 1)) = []
  /\ length (filter (answer_to 0x0C03) (events_got (until reset_calls results 2))) = 1%nat.
Proof.
  cbv zeta. split; [apply answering_buffering; intros _; vm_compute; repeat constructor|]. split; [apply endless_of|].
  split; [intros n; unfold reset_calls, in_turn; destruct (Nat.even n); exact I|].
  split; [cbn; repeat split; repeat constructor|].
  split; [exact (resets_answered test_vendor)|]. split; [exact (in_turn_reads test_vendor _ _ _ _ _ (reset_write _) (reset_read _))|].
  vm_compute. repeat split.
Qed.
