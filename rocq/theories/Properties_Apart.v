(** * Several commands at a time over separate links (property C107). *)
From Verif Require Import Base Model_Types Model_Intervals Model_EventBase Model_Command Model_Event Model_Host
  Spec_Wire Spec_Errors Spec_Host Spec_Link Spec_Example Spec_Split Spec_Conform Spec_Follow Spec_Credit Spec_Facts Spec_Data
  Spec_Window Spec_Turns Spec_Own Spec_Apart Proofs_Base Proofs_Link Proofs_Queue Proofs_Conform Proofs_Follow Proofs_Facts Proofs_Data
  Proofs_Turns Proofs_Own Proofs_Apart.
Open Scope list_scope.
Open Scope N_scope.

(** ** C107: so it is over a command link and an event link

    A host that counts answers never sends a command too early, *)
Theorem C107_never_early F V St E (C : controller St E) h os s d w : contract C h ->
  Forall (typed_operation F) os -> possible h s -> fair F (d ++ [Takes w]) -> apart (d ++ [Takes w]) ->
  let (s', log) := split_session F V C os s in
  split_patient log ->
  (exists on_the_way, written h s' = written h s ++ flat_map bare_bytes (taken (d ++ [Takes w])) ++ on_the_way) ->
  (exists on_the_way, flat_map bare_bytes (sent_by d) = pending h s s' ++ on_the_way) ->
  0 < allowed d.
Proof. exact (fun HC => split_never_early F V C h HC os s d w). Qed.
Print Assumptions C107_never_early.
(** nor does it wait in vain, *)
Theorem C107_exact F V St E (C : controller St E) h os s d : contract C h ->
  Forall (typed_operation F) os -> possible h s -> fair F d -> apart d ->
  Forall (fun w => reserved_address_commands (snd w) = false) (sent_by d) ->
  let (s', log) := split_session F V C os s in
  written h s' = written h s ++ flat_map bare_bytes (taken d) ->
  pending h s s' = flat_map bare_bytes (sent_by d) ->
  consumed h s' = (consumed h s + length (flat_map bare_bytes (sent_by d)))%nat ->
  split_commands log - split_answers log = how_many is_command (taken d) - how_many is_reply (sent_by d)
  /\ (how_many is_reply (sent_by d) = how_many is_command (taken d) -> split_number log = allowed d).
Proof. exact (fun HC => split_turn_known F V C h HC os s d). Qed.
Print Assumptions C107_exact.
(** and each answer is known by its command. *)
Theorem C107_own_answer F V St E (C : controller St E) h os s d (c : command V) : contract C h ->
  Forall (typed_operation F) os -> possible h s -> orderly F d -> apart d ->
  Forall (fun w => reserved_address_commands (snd w) = false) (sent_by d) ->
  let (s', log) := split_session F V C os s in
  (exists on_the_way, written h s' = written h s ++ flat_map bare_bytes (taken d) ++ on_the_way) ->
  (exists on_the_way, flat_map bare_bytes (sent_by d) = pending h s s' ++ on_the_way) ->
  (forall k ev, nth_error (filter (answer_to (command_opcode c)) (split_events_read log)) k = Some ev ->
     exists pkt cmd, nth_error (filter (reply_with (command_opcode c)) (sent_by d)) k = Some (0x04, pkt)
     /\ event_new F V pkt = Ok ev
     /\ nth_error (filter (command_with (command_opcode c)) (links_out log)) k = Some cmd
     /\ nth_error (filter (command_with (command_opcode c)) (taken d)) k = Some cmd)
  /\ (consumed h s' = (consumed h s + length (flat_map bare_bytes (sent_by d)))%nat ->
      length (filter (answer_to (command_opcode c)) (split_events_read log))
      = length (filter (reply_with (command_opcode c)) (sent_by d))).
Proof. exact (fun HC => split_own_answer F V C h HC os s d c). Qed.
Print Assumptions C107_own_answer.

(** Reset; then Read RSSI of two connections and LE Rand at once, since there is room
    for three.  LE Rand is answered first.  Then Reset. *)
Definition C107_replies : list (list N) :=
  [ framed 0x0E ([3] ++ le 2 (hci_opcode 0x03 0x003) ++ [0]);
    framed 0x0E ([1] ++ le 2 (hci_opcode 0x08 0x018) ++ [0; 1; 2; 3; 4; 5; 6; 7; 8]);
    framed 0x0E ([2] ++ le 2 (hci_opcode 0x05 0x005) ++ [0; 0x40; 0; 0xC0]);
    framed 0x0E ([3] ++ le 2 (hci_opcode 0x05 0x005) ++ [0; 0x41; 0; 0xD0]) ].
Definition C107_device : list device_step :=
  let reply k := Sends (0x04, nth k C107_replies []) in
  [ Takes (0x01, [0x03; 0x0C; 0]); reply 0%nat; Takes (0x01, [0x05; 0x14; 2; 0x40; 0]); Takes (0x01, [0x05; 0x14; 2; 0x41; 0]);
    Takes (0x01, [0x18; 0x20; 0]); reply 1%nat; reply 2%nat; reply 3%nat ].
Definition C107_operations : list (operation test_vendor) :=
  [ Send CReset; Receive; Send (CReadRssi 0x40); Send (CReadRssi 0x41); Send CLeRand; Receive; Receive; Receive ].
Definition C107_state : queue :=
  {| q_received := []; q_consumed := 0;
     q_arrivals := let reply k := nth k C107_replies [] in
       [[]; reply 0%nat; []; []; []; []; reply 1%nat ++ reply 2%nat ++ reply 3%nat; []; []; []; []; []; []; []; []; []];
     q_written := []; q_ready := repeat Ready 5 |}.
Lemma C107_device_packets :
  Forall outgoing_packet (taken C107_device) /\ Forall (conforming_packet F41) C107_replies
  /\ forall pkt, conforming_packet F41 pkt -> incoming_packet (0x04, pkt).
Proof.
  split; [|split].
  - unfold C107_device, taken. cbn [flat_map app].
    repeat (apply Forall_cons;
      [right; match goal with |- context [(_, ?x :: ?y :: _ :: ?p) = _] => exists x, y, p; split; reflexivity end|]).
    constructor.
  - unfold C107_replies. repeat (apply Forall_cons; [apply return_checked; vm_compute; reflexivity|]). constructor.
  - intros pkt H. left. split; [reflexivity|]. exact (conforming_event_packet F41 pkt H).
Qed.
Example C107_case :
  contract queue_controller queue_history
  /\ Forall (typed_operation F41) C107_operations /\ possible queue_history C107_state
  /\ fair F41 (C107_device ++ [Takes (0x01, [0x03; 0x0C; 0])]) /\ orderly F41 C107_device
  /\ apart (C107_device ++ [Takes (0x01, [0x03; 0x0C; 0])])
  /\ Forall (fun w => reserved_address_commands (snd w) = false) (sent_by C107_device)
  /\ let (s', log) := split_session F41 test_vendor queue_controller C107_operations C107_state in
     split_patient log
     /\ written queue_history s' = flat_map bare_bytes (taken C107_device)
     /\ pending queue_history C107_state s' = flat_map bare_bytes (sent_by C107_device)
     /\ consumed queue_history s' = length (flat_map bare_bytes (sent_by C107_device))
     /\ split_number log = 3
     /\ filter (answer_to (hci_opcode 0x05 0x005)) (split_events_read log)
        = [ EvCommandComplete (Build_command_complete 2 (RetReadRssi (Build_read_rssi_params Success 0x40 (-64)%Z)));
            EvCommandComplete (Build_command_complete 3 (RetReadRssi (Build_read_rssi_params Success 0x41 (-48)%Z))) ]
     /\ nth_error (filter (command_with (hci_opcode 0x05 0x005)) (links_out log)) 1 = Some (0x01, [0x05; 0x14; 2; 0x41; 0]).
Proof.
  destruct C107_device_packets as (T & P & Q).
  split; [exact (buffering_contract _ _ queue_buffering)|].
  split; [repeat constructor; try exact I; cbn; lia|].
  split; [vm_compute; repeat split; repeat constructor|].
  inversion P as [|? ? P0 P']; subst. inversion P' as [|? ? P1 P'']; subst. inversion P'' as [|? ? P2 P3']; subst.
  inversion P3' as [|? ? P3 _]; subst. clear P P' P'' P3'.
  split.
  { split.
    { unfold taken. rewrite flat_map_app. apply Forall_app. split; [exact T|].
      apply Forall_cons; [right; now eexists _, _, []|constructor]. }
    intros before w after Hd. unfold C107_device in Hd. cbn [app] in Hd. places.
    all: subst w; split; [now apply Q|]; split; [intros _; assumption|]; split; vm_compute; [intros _; reflexivity || discriminate|discriminate]. }
  split.
  { split; [exact T|]. intros before w after Hd. unfold C107_device in Hd. places.
    all: subst w; split; [now apply Q|]; split; [intros _; assumption|].
    all: intros op Z H; apply andb_prop in H; destruct H as [_ H]; apply orb_prop in H; destruct H as [H|H];
      apply andb_prop in H; destruct H as [H1 H2]; [|discriminate H1].
    all: apply N.eqb_eq in H2; subst op; vm_compute; reflexivity. }
  split; [split; repeat constructor|]. split; [repeat constructor|].
  set (run := split_session F41 test_vendor queue_controller C107_operations C107_state).
  let v := eval vm_compute in run in assert (R : run = v) by (vm_compute; reflexivity).
  rewrite R. clear R run. split; [|repeat split].
  intros before c r after H. places. all: reflexivity.
Qed.
