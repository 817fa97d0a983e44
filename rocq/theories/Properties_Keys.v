(** * Requests for keys and their answers (property C108). *)
From Verif Require Import Base Model_Types Model_Intervals Model_EventBase Model_Command Model_Event Model_Host
  Spec_Wire Spec_Errors Spec_Host Spec_Link Spec_Example Spec_Split Spec_Conform Spec_Follow Spec_Credit Spec_Facts Spec_Data
  Spec_Window Spec_Turns Spec_Keys Proofs_Base Proofs_Link Proofs_Queue Proofs_Conform Proofs_Follow Proofs_Facts Proofs_Data
  Proofs_Turns Proofs_Keys.
Open Scope list_scope.
Open Scope N_scope.

(** ** C108: each request for a key is answered for its connection with its key

    The host answers the requests it reads in order, with the key it has for each or
    by saying that it has none.  Whatever else is sent and read in between, and
    however far packets are on their way, the answers the controller gets are those
    to its first requests, byte by byte; when nothing is on the way and the host has
    answered all it read, to all its requests. *)
Theorem C108_keys key_for F V St E (C : controller St E) h os s d : contract C h ->
  (forall c r e k, key_for c r e = Some k -> length k = 16%nat) ->
  Forall (typed_data_operation F V) os -> possible h s -> conforming_device F d ->
  let (s', log) := data_session F V C os s in
  answers_keys key_for log ->
  (exists on_the_way, written h s' = written h s ++ flat_map wire_bytes (taken d) ++ on_the_way) ->
  (exists on_the_way, flat_map wire_bytes (sent_by d) = pending h s s' ++ on_the_way) ->
  (exists later, map (key_reply key_for) (filter is_key_request (sent_by d)) = filter is_key_reply (taken d) ++ later)
  /\ (written h s' = written h s ++ flat_map wire_bytes (taken d) ->
      consumed h s' = (consumed h s + length (flat_map wire_bytes (sent_by d)))%nat ->
      flat_map (key_call key_for) (events_got log) = key_calls log ->
      map (key_reply key_for) (filter is_key_request (sent_by d)) = filter is_key_reply (taken d)).
Proof. exact (fun HC => keys_answered key_for F V C h HC os s d). Qed.
Print Assumptions C108_keys.

(** Two requests, one with a key and one without, and a command and another event in between. *)
Definition C108_key : list N := [0; 1; 2; 3; 4; 5; 6; 7; 8; 9; 10; 11; 12; 13; 14; 15].
Definition C108_key_for (c r e : N) : option (list N) :=
  if (c =? 0x40) && (r =? 0x0807060504030201) && (e =? 0x1234) then Some C108_key else None.
Definition C108_events : list (list N) :=
  [ framed 0x3E ([0x05] ++ le 2 0x40 ++ [1; 2; 3; 4; 5; 6; 7; 8] ++ [0x34; 0x12]);
    framed 0x3E ([0x05] ++ le 2 0x41 ++ [1; 2; 3; 4; 5; 6; 7; 8] ++ [0x34; 0x12]);
    framed 0x0E ([1] ++ le 2 (hci_opcode 0x03 0x003) ++ [0]) ].
Definition C108_device : list device_step :=
  let event k := Sends (0x04, nth k C108_events []) in
  [ event 0%nat; event 1%nat; Takes (0x01, [0x1A; 0x20; 18; 0x40; 0] ++ C108_key);
    Takes (0x01, [0x03; 0x0C; 0]); event 2%nat; Takes (0x01, [0x1B; 0x20; 2; 0x41; 0]) ].
Definition C108_operations : list (data_operation test_vendor) :=
  [ Fetch; Fetch; Order (CLeLongTermKeyRequestReply 0x40 C108_key); Order CReset; Fetch;
    Order (CLeLongTermKeyRequestNegativeReply 0x41) ].
Definition C108_state : queue :=
  {| q_received := []; q_consumed := 0;
     q_arrivals := let event k := uart_frame (nth k C108_events []) in
       [event 0%nat ++ event 1%nat; []; []; []; []; []; []; []; event 2%nat; []; []; []; []];
     q_written := []; q_ready := repeat Ready 5 |}.
Example C108_case :
  contract queue_controller queue_history
  /\ (forall c r e k, C108_key_for c r e = Some k -> length k = 16%nat)
  /\ Forall (typed_data_operation F41 test_vendor) C108_operations /\ possible queue_history C108_state
  /\ conforming_device F41 C108_device
  /\ let (s', log) := data_session F41 test_vendor queue_controller C108_operations C108_state in
     answers_keys C108_key_for log
     /\ written queue_history s' = flat_map wire_bytes (taken C108_device)
     /\ pending queue_history C108_state s' = flat_map wire_bytes (sent_by C108_device)
     /\ consumed queue_history s' = length (flat_map wire_bytes (sent_by C108_device))
     /\ flat_map (key_call C108_key_for) (events_got log) = key_calls log
     /\ length (filter is_key_reply (taken C108_device)) = 2%nat.
Proof.
  split; [exact (buffering_contract _ _ queue_buffering)|].
  split.
  { intros c r e k. unfold C108_key_for. destruct (_ && _ && _)%bool; intros H; inversion H; reflexivity. }
  split; [repeat constructor; try exact I; try (cbn; lia)|].
  split; [vm_compute; repeat split; repeat constructor|].
  split.
  { split.
    { unfold C108_device, taken. cbn [flat_map app].
      repeat (apply Forall_cons;
        [right; match goal with |- context [(_, ?x :: ?y :: _ :: ?p) = _] => exists x, y, p; split; reflexivity end|]).
      constructor. }
    assert (P : Forall (conforming_packet F41) C108_events).
    { unfold C108_events. apply Forall_cons; [|apply Forall_cons; [|apply Forall_cons; [|constructor]]].
      1,2: apply event_checked; vm_compute; reflexivity. apply return_checked; vm_compute; reflexivity. }
    assert (Q : Forall (fun w => fst w = 0x04 /\ conforming_packet F41 (snd w)) (sent_by C108_device)).
    { unfold C108_device, sent_by. cbn [flat_map app].
      repeat (apply Forall_cons; [split; [reflexivity|]; cbn [snd]; apply (proj1 (Forall_forall _ _) P); cbn; tauto|]). constructor. }
    eapply Forall_impl; [|exact Q]. intros [t p] [Ht Hp]. cbn [fst snd] in *. split; [|auto].
    left. split; [exact Ht|]. exact (conforming_event_packet F41 p Hp). }
  set (run := data_session F41 test_vendor queue_controller C108_operations C108_state).
  let v := eval vm_compute in run in assert (R : run = v) by (vm_compute; reflexivity).
  rewrite R. clear R run. split; [exists []; vm_compute; reflexivity|]. repeat split.
Qed.
