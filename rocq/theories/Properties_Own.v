(** * Several commands at a time (property C106). *)
From Verif Require Import Base Model_Types Model_Intervals Model_EventBase Model_Command Model_Event Model_Host
  Spec_Wire Spec_Errors Spec_Host Spec_Link Spec_Example Spec_Split Spec_Conform Spec_Follow Spec_Credit Spec_Facts Spec_Data
  Spec_Window Spec_Turns Spec_Own Proofs_Base Proofs_Link Proofs_Queue Proofs_Conform Proofs_Follow Proofs_Facts Proofs_Data
  Proofs_Turns Proofs_Own.
Open Scope list_scope.
Open Scope N_scope.

(** ** C106: with several commands under way, each answer is known by its command

    The answers read that are, by their variant or opcode, for the command [c] are
    the replies of the controller to the commands with this opcode, one by one: the
    first to the first, the second to the second, and so on, each to a command that
    was sent.  When all is read, none is missing. *)
Theorem C106_own_answer F V St E (C : controller St E) h os s d (c : command V) : contract C h ->
  Forall (typed_data_operation F V) os -> possible h s -> orderly F d ->
  Forall (fun w => reserved_address_commands (snd w) = false) (sent_by d) ->
  let (s', log) := data_session F V C os s in
  (exists on_the_way, written h s' = written h s ++ flat_map wire_bytes (taken d) ++ on_the_way) ->
  (exists on_the_way, flat_map wire_bytes (sent_by d) = pending h s s' ++ on_the_way) ->
  (forall k ev, nth_error (filter (answer_to (command_opcode c)) (events_got log)) k = Some ev ->
     exists pkt cmd, nth_error (filter (reply_with (command_opcode c)) (sent_by d)) k = Some (0x04, pkt)
     /\ event_new F V pkt = Ok ev
     /\ nth_error (filter (command_with (command_opcode c)) (put_out V log)) k = Some cmd
     /\ nth_error (filter (command_with (command_opcode c)) (taken d)) k = Some cmd)
  /\ (consumed h s' = (consumed h s + length (flat_map wire_bytes (sent_by d)))%nat ->
      length (filter (answer_to (command_opcode c)) (events_got log))
      = length (filter (reply_with (command_opcode c)) (sent_by d))).
Proof. exact (fun HC => own_answer F V C h HC os s d c). Qed.
Print Assumptions C106_own_answer.
(** The variants it goes by are those the documentation names for the commands. *)
Theorem C106_documented V (c : command V) P r : answers c = Some P -> P r -> return_opcode r = Some (command_opcode c).
Proof. exact (documented_variant V c P r). Qed.
Print Assumptions C106_documented.
Example C106_documented_case : exists P, answers (V := test_vendor) (CReadRssi 0x40) = Some P
  /\ P (RetReadRssi (Build_read_rssi_params Success 0x40 (-64)%Z)).
Proof. eexists. split; [reflexivity|]. now eexists. Qed.

(** Read RSSI of two connections and LE Rand, all at once; LE Rand is answered first. *)
Definition C106_replies : list (list N) :=
  [ framed 0x0E ([3] ++ le 2 (hci_opcode 0x03 0x003) ++ [0]);
    framed 0x0E ([1] ++ le 2 (hci_opcode 0x08 0x018) ++ [0; 1; 2; 3; 4; 5; 6; 7; 8]);
    framed 0x0E ([2] ++ le 2 (hci_opcode 0x05 0x005) ++ [0; 0x40; 0; 0xC0]);
    framed 0x0E ([3] ++ le 2 (hci_opcode 0x05 0x005) ++ [0; 0x41; 0; 0xD0]) ].
Definition C106_device : list device_step :=
  let reply k := Sends (0x04, nth k C106_replies []) in
  [ Takes (0x01, [0x03; 0x0C; 0]); reply 0%nat; Takes (0x01, [0x05; 0x14; 2; 0x40; 0]); Takes (0x01, [0x05; 0x14; 2; 0x41; 0]);
    Takes (0x01, [0x18; 0x20; 0]); reply 1%nat; reply 2%nat; reply 3%nat ].
Definition C106_operations : list (data_operation test_vendor) :=
  [ Order CReset; Fetch; Order (CReadRssi 0x40); Order (CReadRssi 0x41); Order CLeRand; Fetch; Fetch; Fetch ].
Definition C106_state : queue :=
  {| q_received := []; q_consumed := 0;
     q_arrivals := let reply k := uart_frame (nth k C106_replies []) in
       [[]; reply 0%nat; []; []; []; []; []; reply 1%nat ++ reply 2%nat ++ reply 3%nat; []; []; []; []; []; []; []; []];
     q_written := []; q_ready := repeat Ready 5 |}.
Example C106_case :
  contract queue_controller queue_history
  /\ Forall (typed_data_operation F41 test_vendor) C106_operations /\ possible queue_history C106_state
  /\ orderly F41 C106_device
  /\ Forall (fun w => reserved_address_commands (snd w) = false) (sent_by C106_device)
  /\ let (s', log) := data_session F41 test_vendor queue_controller C106_operations C106_state in
     written queue_history s' = flat_map wire_bytes (taken C106_device)
     /\ pending queue_history C106_state s' = flat_map wire_bytes (sent_by C106_device)
     /\ consumed queue_history s' = length (flat_map wire_bytes (sent_by C106_device))
     /\ filter (answer_to (hci_opcode 0x05 0x005)) (events_got log)
        = [ EvCommandComplete (Build_command_complete 2 (RetReadRssi (Build_read_rssi_params Success 0x40 (-64)%Z)));
            EvCommandComplete (Build_command_complete 3 (RetReadRssi (Build_read_rssi_params Success 0x41 (-48)%Z))) ]
     /\ nth_error (filter (command_with (hci_opcode 0x05 0x005)) (put_out _ log)) 1 = Some (0x01, [0x05; 0x14; 2; 0x41; 0]).
Proof.
  split; [exact (buffering_contract _ _ queue_buffering)|].
  split; [repeat constructor; try exact I; cbn; lia|].
  split; [vm_compute; repeat split; repeat constructor|].
  split.
  { split.
    { unfold C106_device, taken. cbn [flat_map app].
      repeat (apply Forall_cons;
        [right; match goal with |- context [(_, ?x :: ?y :: _ :: ?p) = _] => exists x, y, p; split; reflexivity end|]).
      constructor. }
    intros before w after Hd.
    assert (P : Forall (conforming_packet F41) C106_replies).
    { unfold C106_replies. repeat (apply Forall_cons; [apply return_checked; vm_compute; reflexivity|]). constructor. }
    inversion P as [|? ? P0 P']; subst. inversion P' as [|? ? P1 P'']; subst. inversion P'' as [|? ? P2 P3']; subst.
    inversion P3' as [|? ? P3 _]; subst. clear P P' P'' P3'.
    assert (Q : forall pkt, conforming_packet F41 pkt -> incoming_packet (0x04, pkt)).
    { intros pkt H. left. split; [reflexivity|]. exact (conforming_event_packet F41 pkt H). }
    unfold C106_device in Hd. places.
    all: subst w; split; [now apply Q|]; split; [intros _; assumption|].
    all: intros op Z H; apply andb_prop in H; destruct H as [_ H]; apply orb_prop in H; destruct H as [H|H];
      apply andb_prop in H; destruct H as [H1 H2]; [|discriminate H1].
    all: apply N.eqb_eq in H2; subst op; vm_compute; reflexivity. }
  split; [repeat constructor|].
  set (run := data_session F41 test_vendor queue_controller C106_operations C106_state).
  let v := eval vm_compute in run in assert (R : run = v) by (vm_compute; reflexivity).
  rewrite R. clear R run. repeat split.
Qed.
