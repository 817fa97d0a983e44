(** * A program that sends commands and data, each in its turn (property C132).

    [sends_both cs ws calls results]: the program has the commands [cs] and the data [ws];
    when it may send the next command or the next packet it sends one of them, otherwise it
    reads; [calls_work]: the transport does not refuse to write for ever.  [goes_on] as in
    C111, [frees] and [limits] as in C112, [commands_taken], [truthful], [all_heard] and
    [approved] as in C125, [granted] as in C130, [comes_to_rest] as in C128. *)
From Coq Require Import Lia.
From Verif Require Import Base Model_Types Model_Intervals Model_EventBase Model_Command Model_Event Model_Host
  Spec_Wire Spec_Errors Spec_Host Spec_Link Spec_Example Spec_Split Spec_Conform Spec_Follow Spec_Credit Spec_Facts Spec_Data
  Spec_Window Spec_Turns Spec_Own Spec_Live Spec_LiveOwn Spec_Device Spec_Refuse Spec_Several Spec_Rest Spec_Deliver Spec_Granted Spec_Mixed
  Proofs_Base Proofs_Link Proofs_Queue Proofs_Conform Proofs_Follow Proofs_Facts Proofs_Data Proofs_Window Proofs_Turns
  Proofs_Live Proofs_Deliver Proofs_Mixed.
Open Scope list_scope.
Open Scope N_scope.

(** ** C132: commands and data do not get in each other's way

    Whatever the program prefers, it keeps to the room for both.  If it is told the buffers
    at some time, then at some time it has sent all, each list in order, the controller has
    taken just these commands and data, and the program only reads from then on. *)
Theorem C132_done F V St E (C : controller St E) h calls states results cs ws size number d : buffering C h ->
  endless (data_perform F V C) calls states results -> possible h (states 0%nat) ->
  Forall (typed_data_operation F V) (map Order cs) -> Forall (typed_data_operation F V) (map Transmit ws) ->
  sends_both cs ws calls results -> calls_work results ->
  goes_on F h states d -> frees F size number h states d ->
  Forall (fun w => is_data w = true /\ data_size w <= size) ws ->
  (forall n, patient (until calls results n) /\ careful (until calls results n))
  /\ ((exists n, limits (until calls results n) <> None) ->
      exists m0, forall m, (m0 <= m)%nat ->
      ordered (until calls results m) = cs /\ passed (until calls results m) = ws /\ calls m = Fetch
      /\ commands_taken (d m) = map (fun c => (command_opcode c, command_params c)) cs /\ filter is_data (taken (d m)) = ws).
Proof.
  exact (fun HB R S Hcs Hws P W G Fr Hs => conj
    (fun n => conj (mixed_patient V calls results cs ws P n)
                   (mixed_careful F V C h HB calls states results R S cs ws Hcs Hws P size number d Fr Hs n))
    (both_sent F V C h HB calls states results R S cs ws Hcs Hws P W size number d G Fr Hs)).
Qed.
Print Assumptions C132_done.
(** If moreover every command is answered, then at some time the host has read an answer to
    each, has found approved just those that the controller accepts, and knows the settings. *)
Theorem C132_known F V St E (C : controller St E) h calls states results cs ws size number d accepts x : buffering C h ->
  endless (data_perform F V C) calls states results -> possible h (states 0%nat) ->
  Forall (typed_data_operation F V) (map Order cs) -> Forall (typed_data_operation F V) (map Transmit ws) ->
  sends_both cs ws calls results -> calls_work results ->
  goes_on F h states d -> frees F size number h states d ->
  Forall (fun w => is_data w = true /\ data_size w <= size) ws ->
  (forall c : command V, replies_to_all F (command_opcode c) h states d) -> (forall m, truthful accepts (d m)) ->
  (exists n, limits (until calls results n) <> None) ->
  exists m0, forall m, (m0 <= m)%nat ->
  all_heard (events_got (until calls results m)) cs
  /\ approved (events_got (until calls results m)) [] cs = granted accepts [] cs
  /\ decide accepts [] (commands_taken (d m)) x = fold_left asked (granted accepts [] cs) x.
Proof.
  exact (fun HB R S Hcs Hws P W G Fr Hs A => both_known F V C h HB calls states results R S cs ws Hcs Hws P W size number d G Fr Hs A accepts x).
Qed.
Print Assumptions C132_known.
(** So such a device comes to rest, and what C128 says of two devices is true of it. *)
Theorem C132_rest F V St E (C : controller St E) h calls states results cs ws size number d accepts : buffering C h ->
  endless (data_perform F V C) calls states results -> possible h (states 0%nat) ->
  Forall (typed_data_operation F V) (map Order cs) -> Forall (typed_data_operation F V) (map Transmit ws) ->
  sends_both cs ws calls results -> calls_work results ->
  goes_on F h states d -> frees F size number h states d ->
  Forall (fun w => is_data w = true /\ data_size w <= size) ws ->
  (forall c : command V, replies_to_all F (command_opcode c) h states d) -> (forall m, truthful accepts (d m)) ->
  (exists n, limits (until calls results n) <> None) ->
  comes_to_rest F V (fun m => decide accepts [] (commands_taken (d m)) after_reset)
    (fun m => approved (events_got (until calls results m)) [] (ordered (until calls results m))).
Proof.
  exact (fun HB R S Hcs Hws P W G Fr Hs A => both_rest F V C h HB calls states results R S cs ws Hcs Hws P W size number d G Fr Hs A accepts).
Qed.
Print Assumptions C132_rest.

(** The program of C131, with the command that asks for the buffers. *)
Example C132_case :
  let call := data_perform F41 test_vendor one_buffer_controller in
  let states := states_of call pass_calls empty_queue in let results := results_of call pass_calls empty_queue in
  let cs := [@CLeReadBufferSize test_vendor] in let ws := [one_buffer_packet 1; one_buffer_packet 2] in
  buffering one_buffer_controller queue_history
  /\ endless call pass_calls states results /\ possible queue_history (states 0%nat)
  /\ Forall (typed_data_operation F41 test_vendor) (map Order cs) /\ Forall (typed_data_operation F41 test_vendor) (map Transmit ws)
  /\ sends_both cs ws pass_calls results /\ calls_work results
  /\ goes_on F41 queue_history states pass_device /\ frees F41 27 1 queue_history states pass_device
  /\ Forall (fun w => is_data w = true /\ data_size w <= 27) ws
  /\ (forall c : command test_vendor, replies_to_all F41 (command_opcode c) queue_history states pass_device)
  /\ (forall m, truthful (fun _ _ => true) (pass_device m))
  /\ limits (until pass_calls results 2) <> None
  /\ ordered (until pass_calls results 5) = cs /\ passed (until pass_calls results 4) = [one_buffer_packet 1]
  /\ passed (until pass_calls results 5) = ws.
Proof.
  cbv zeta. split; [apply answering_buffering; intros l; destruct (nth 0 l 0 =? 1); vm_compute; repeat constructor|]. split; [apply endless_of|].
  split; [cbn; repeat split; repeat constructor|]. split; [repeat constructor|].
  assert (D : data_packet (one_buffer_packet 1)) by (exists 0x40, 0, [7]; repeat split; [repeat constructor..|]; left; split; reflexivity).
  split; [repeat (apply Forall_cons; [exact D|]); apply Forall_nil|].
  split; [exact (pass_both test_vendor)|]. split; [exact (pass_works test_vendor)|]. split; [exact (pass_goes_on test_vendor)|].
  split; [exact (pass_frees test_vendor)|]. split; [repeat constructor; vm_compute; discriminate|].
  split; [intros c; exact (pass_reply test_vendor _)|]. split; [exact pass_truthful|].
  split; [vm_compute; discriminate|]. split; [|split]; vm_compute; reflexivity.
Qed.
