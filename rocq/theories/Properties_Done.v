(** * A program that sends a list of commands, each in its turn (property C129).

    [next_call cs log]: if a command of [cs] is left and it is the host's turn, the program
    sends it, otherwise it reads; [writes_go]: the transport does not refuse to write for
    ever; [next_operation] and [links_work] likewise over separate links.  [goes_on] as in
    C111, [links_go_on], [links_reply] as in C116, [replies_to_all] as in C114, [truthful], [all_heard],
    [approved] as in C125. *)
From Coq Require Import Lia.
From Verif Require Import Base Model_Types Model_Intervals Model_EventBase Model_Command Model_Event Model_Host
  Spec_Wire Spec_Errors Spec_Host Spec_Link Spec_Example Spec_Split Spec_Conform Spec_Follow Spec_Credit Spec_Facts Spec_Data
  Spec_Window Spec_Turns Spec_Own Spec_Apart Spec_Live Spec_LiveOwn Spec_LiveApart Spec_Device Spec_Refuse Spec_Several Spec_Done
  Proofs_Base Proofs_Link Proofs_Queue Proofs_Conform Proofs_Follow Proofs_Facts Proofs_Data Proofs_Turns Proofs_Own
  Proofs_Live Proofs_LiveOwn Proofs_Several Proofs_Done.
Open Scope list_scope.
Open Scope N_scope.

(** ** C129: a program that sends its commands in turn gets done

    It keeps its turns, at some time it has sent all its commands, each once and in
    order, and from then on it only reads. *)
Theorem C129_sends F V St E (C : controller St E) h calls states results cs d : buffering C h ->
  endless (data_perform F V C) calls states results -> possible h (states 0%nat) ->
  Forall (typed_data_operation F V) (map Order cs) ->
  (forall n, calls n = next_call cs (until calls results n)) -> writes_go calls results ->
  goes_on F h states d ->
  (forall n, patient (until calls results n))
  /\ exists m0, forall m, (m0 <= m)%nat -> ordered (until calls results m) = cs /\ calls m = Fetch.
Proof.
  exact (fun HB R S Hcs P W G => conj (program_patient V calls results cs P)
    (program_sends F V C h HB calls states results cs R S Hcs P W d G)).
Qed.
Print Assumptions C129_sends.
(** If moreover every command is answered, then at some time the controller has taken
    just these commands, the host has read an answer to each, and knows the settings. *)
Theorem C129_done F V St E (C : controller St E) h calls states results cs d accepts x : buffering C h ->
  endless (data_perform F V C) calls states results -> possible h (states 0%nat) ->
  Forall (typed_data_operation F V) (map Order cs) ->
  (forall n, calls n = next_call cs (until calls results n)) -> writes_go calls results ->
  goes_on F h states d -> (forall c : command V, replies_to_all F (command_opcode c) h states d) ->
  (forall m, truthful accepts (d m)) ->
  exists m0, forall m, (m0 <= m)%nat ->
  ordered (until calls results m) = cs
  /\ commands_taken (d m) = map (fun c => (command_opcode c, command_params c)) cs
  /\ all_heard (events_got (until calls results m)) cs
  /\ decide accepts [] (commands_taken (d m)) x = fold_left asked (approved (events_got (until calls results m)) [] cs) x.
Proof. exact (fun HB R S Hcs P W G A => program_done F V C h HB calls states results cs R S Hcs P W d G A accepts x). Qed.
Print Assumptions C129_done.
(** So it is over separate links. *)
Theorem C129_sends_apart F V St E (C : controller St E) h calls states results cs d : prompt C h ->
  endless (split_perform F V C) calls states results -> possible h (states 0%nat) ->
  Forall (typed_operation F) (map Send cs) ->
  (forall n, calls n = next_operation cs (until calls results n)) -> links_work results ->
  links_go_on F h states d ->
  (forall n, split_patient (until calls results n))
  /\ exists m0, forall m, (m0 <= m)%nat -> split_sent (until calls results m) = cs /\ calls m = Receive.
Proof.
  exact (fun HP R S Hcs P W G => conj (split_program_patient V calls results cs P)
    (split_program_sends F V C h HP calls states results cs R S Hcs P W d G)).
Qed.
Print Assumptions C129_sends_apart.
Theorem C129_done_apart F V St E (C : controller St E) h calls states results cs d accepts x : prompt C h ->
  endless (split_perform F V C) calls states results -> possible h (states 0%nat) ->
  Forall (typed_operation F) (map Send cs) ->
  (forall n, calls n = next_operation cs (until calls results n)) -> links_work results ->
  links_go_on F h states d -> (forall c : command V, links_reply F (command_opcode c) h states d) ->
  (forall m, truthful accepts (d m)) ->
  exists m0, forall m, (m0 <= m)%nat ->
  split_sent (until calls results m) = cs
  /\ commands_taken (d m) = map (fun c => (command_opcode c, command_params c)) cs
  /\ all_heard (split_events_read (until calls results m)) cs
  /\ decide accepts [] (commands_taken (d m)) x
     = fold_left asked (approved (split_events_read (until calls results m)) [] cs) x.
Proof. exact (fun HP R S Hcs P W G A => split_program_done F V C h HP calls states results cs R S Hcs P W d G A accepts x). Qed.
Print Assumptions C129_done_apart.

(** Two Resets: the host has to wait before the second. *)
Example C129_case :
  let call := data_perform F41 test_vendor reset_controller in
  let states := states_of call two_calls empty_queue in let results := results_of call two_calls empty_queue in
  buffering reset_controller queue_history
  /\ endless call two_calls states results /\ possible queue_history (states 0%nat)
  /\ Forall (typed_data_operation F41 test_vendor) (map Order [CReset; CReset])
  /\ (forall n, two_calls n = next_call [CReset; CReset] (until two_calls results n)) /\ writes_go two_calls results
  /\ goes_on F41 queue_history states two_device
  /\ (forall c : command test_vendor, replies_to_all F41 (command_opcode c) queue_history states two_device)
  /\ (forall m, truthful (fun _ _ => true) (two_device m))
  /\ ~ may_send (until two_calls results 1) /\ may_send (until two_calls results 2)
  /\ approved (events_got (until two_calls results 4)) [] [@CReset test_vendor; CReset] = [CReset; CReset].
Proof.
  cbv zeta. split; [apply answering_buffering; intros _; vm_compute; repeat constructor|]. split; [apply endless_of|].
  split; [cbn; repeat split; repeat constructor|]. split; [repeat constructor|].
  split; [exact (two_program test_vendor)|]. split; [exact (two_writes test_vendor)|].
  split; [exact (two_go_on test_vendor)|]. split; [intros c; apply (two_reply test_vendor)|]. split; [exact two_truthful|].
  unfold may_send. vm_compute. repeat split; discriminate.
Qed.
Example C129_apart_case :
  let call := split_perform F41 test_vendor link_reset_controller in
  let states := states_of call two_sends empty_queue in let results := results_of call two_sends empty_queue in
  prompt link_reset_controller queue_history
  /\ endless call two_sends states results /\ possible queue_history (states 0%nat)
  /\ Forall (typed_operation F41) (map Send [@CReset test_vendor; CReset])
  /\ (forall n, two_sends n = next_operation [CReset; CReset] (until two_sends results n)) /\ links_work results
  /\ links_go_on F41 queue_history states two_device
  /\ (forall c : command test_vendor, links_reply F41 (command_opcode c) queue_history states two_device)
  /\ (forall m, truthful (fun _ _ => true) (two_device m))
  /\ ~ split_may_send (until two_sends results 1) /\ split_may_send (until two_sends results 2)
  /\ approved (split_events_read (until two_sends results 4)) [] [@CReset test_vendor; CReset] = [CReset; CReset].
Proof.
  cbv zeta. split; [apply buffering_prompt, answering_buffering; intros _; vm_compute; repeat constructor|]. split; [apply endless_of|].
  split; [cbn; repeat split; repeat constructor|]. split; [repeat constructor|].
  split; [exact (two_link_program test_vendor)|]. split; [exact (two_link_work test_vendor)|].
  split; [exact (two_link_go_on test_vendor)|]. split; [intros c; apply (two_link_reply test_vendor)|]. split; [exact two_truthful|].
  unfold split_may_send. vm_compute. repeat split; discriminate.
Qed.
