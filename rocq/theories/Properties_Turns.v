(** * Room for commands, and a host that waits its turn (property C105). *)
From Verif Require Import Base Model_Types Model_Intervals Model_EventBase Model_Command Model_Event Model_Host
  Spec_Wire Spec_Errors Spec_Host Spec_Link Spec_Example Spec_Split Spec_Conform Spec_Follow Spec_Credit Spec_Facts Spec_Data
  Spec_Window Spec_Turns Proofs_Base Proofs_Link Proofs_Queue Proofs_Conform Proofs_Follow Proofs_Facts Proofs_Data Proofs_Turns.
Open Scope list_scope.
Open Scope N_scope.

(** ** C105: a host that counts answers never sends a command too early

    The host calls a method only while the commands it has no answer for are fewer
    than the last number it has read.  However far the packets are on their way, the
    controller then takes no command when it allows none. *)
Theorem C105_never_early F V St E (C : controller St E) h os s d w : contract C h ->
  Forall (typed_data_operation F V) os -> possible h s -> fair F (d ++ [Takes w]) -> is_command w = true ->
  let (s', log) := data_session F V C os s in
  patient log ->
  (exists on_the_way, written h s' = written h s ++ flat_map wire_bytes (taken (d ++ [Takes w])) ++ on_the_way) ->
  (exists on_the_way, flat_map wire_bytes (sent_by d) = pending h s s' ++ on_the_way) ->
  0 < allowed d.
Proof. exact (fun HC => never_early F V C h HC os s d w). Qed.
Print Assumptions C105_never_early.
(** Nor does it wait in vain: with nothing on the way, it knows how many commands
    are not answered, and when all are, how many are allowed.  (A reply of the kind
    that is refused, C85, is missed.) *)
Theorem C105_exact F V St E (C : controller St E) h os s d : contract C h ->
  Forall (typed_data_operation F V) os -> possible h s -> fair F d ->
  Forall (fun w => reserved_address_commands (snd w) = false) (sent_by d) ->
  let (s', log) := data_session F V C os s in
  written h s' = written h s ++ flat_map wire_bytes (taken d) ->
  pending h s s' = flat_map wire_bytes (sent_by d) ->
  consumed h s' = (consumed h s + length (flat_map wire_bytes (sent_by d)))%nat ->
  commands_sent log - answers_read log = how_many is_command (taken d) - how_many is_reply (sent_by d)
  /\ (how_many is_reply (sent_by d) = how_many is_command (taken d) -> last_number log = allowed d).
Proof. exact (fun HC => turn_known F V C h HC os s d). Qed.
Print Assumptions C105_exact.

(** Reset, then LE Rand and Read BD_ADDR at once, since there is room for two.  The
    next has to wait until there is room for two again, since one is not answered. *)
Definition C105_replies : list (list N) :=
  [ framed 0x0E ([2] ++ le 2 (hci_opcode 0x03 0x003) ++ [0]);
    framed 0x0E ([1] ++ le 2 (hci_opcode 0x08 0x018) ++ [0; 1; 2; 3; 4; 5; 6; 7; 8]);
    framed 0x0E ([2] ++ le 2 0) ].
Definition C105_before : list device_step :=
  let reply k := Sends (0x04, nth k C105_replies []) in
  [ Takes (0x01, [0x03; 0x0C; 0]); reply 0%nat; Takes (0x01, [0x18; 0x20; 0]); Takes (0x01, [0x09; 0x10; 0]);
    reply 1%nat; reply 2%nat ].
Definition C105_operations : list (data_operation test_vendor) :=
  [ Order CReset; Fetch; Order CLeRand; Order CReadBdAddr; Fetch; Fetch; Order CReset ].
Definition C105_state : queue :=
  {| q_received := []; q_consumed := 0;
     q_arrivals := let reply k := uart_frame (nth k C105_replies []) in
       [[]; reply 0%nat; []; []; []; []; reply 1%nat ++ reply 2%nat; []; []; []; []; []; []; []];
     q_written := []; q_ready := repeat Ready 5 |}.
Example C105_case :
  contract queue_controller queue_history
  /\ Forall (typed_data_operation F41 test_vendor) C105_operations /\ possible queue_history C105_state
  /\ fair F41 (C105_before ++ [Takes (0x01, [0x03; 0x0C; 0])])
  /\ allowed C105_before = 2
  /\ Forall (fun w => reserved_address_commands (snd w) = false) (sent_by C105_before)
  /\ let (s', log) := data_session F41 test_vendor queue_controller C105_operations C105_state in
     patient log
     /\ written queue_history s' = flat_map wire_bytes (taken (C105_before ++ [Takes (0x01, [0x03; 0x0C; 0])]))
     /\ pending queue_history C105_state s' = flat_map wire_bytes (sent_by C105_before)
     /\ consumed queue_history s' = length (flat_map wire_bytes (sent_by C105_before))
     /\ commands_sent log = 4 /\ answers_read log = 2 /\ last_number log = 2.
Proof.
  split; [exact (buffering_contract _ _ queue_buffering)|].
  split; [repeat constructor|].
  split; [vm_compute; repeat split; repeat constructor|].
  split.
  { split.
    { unfold C105_before, taken. cbn [flat_map app].
      repeat (apply Forall_cons; [right; eexists _, _, []; split; reflexivity|]). constructor. }
    intros before w after Hd.
    assert (P : Forall (conforming_packet F41) C105_replies).
    { unfold C105_replies. repeat (apply Forall_cons); [..|constructor].
      - apply return_checked; vm_compute; reflexivity.
      - apply return_checked; vm_compute; reflexivity.
      - exists 0x0E. eexists. split; [reflexivity|]. apply conforming_flow. reflexivity. }
    inversion P as [|? ? P0 P']; subst. inversion P' as [|? ? P1 P'']; subst. inversion P'' as [|? ? P2 _]; subst. clear P P' P''.
    assert (Q : forall pkt, conforming_packet F41 pkt -> incoming_packet (0x04, pkt)).
    { intros pkt H. left. split; [reflexivity|]. exact (conforming_event_packet F41 pkt H). }
    unfold C105_before in Hd. cbn [app] in Hd. places.
    all: subst w; split; [now apply Q|]; split; [intros _; assumption|]; split; vm_compute; [intros _; reflexivity || discriminate|discriminate]. }
  split; [reflexivity|]. split; [repeat constructor|].
  set (run := data_session F41 test_vendor queue_controller C105_operations C105_state).
  let v := eval vm_compute in run in assert (R : run = v) by (vm_compute; reflexivity).
  rewrite R. clear R run. split; [|repeat split].
  intros before c r after H. places. all: reflexivity.
Qed.
(** A host that only looks at the last number sends too early. *)
Example C105_careless_case :
  fair F41 [Takes (0x01, [0x03; 0x0C; 0]); Takes (0x01, [0x03; 0x0C; 0])]
  /\ (let (s', log) := data_session F41 test_vendor queue_controller [Order CReset; Order CReset] C105_state in
      (forall before c r after, log = before ++ (Order c, r) :: after -> 0 < last_number before)
      /\ written queue_history s' = flat_map wire_bytes (taken [Takes (0x01, [0x03; 0x0C; 0]); Takes (0x01, [0x03; 0x0C; 0])]))
  /\ allowed [Takes (0x01, [0x03; 0x0C; 0])] = 0.
Proof.
  split.
  { split; [repeat (apply Forall_cons; [right; eexists _, _, []; split; reflexivity|]); constructor|].
    intros before w after Hd. places. }
  split; [|reflexivity].
  set (run := data_session F41 test_vendor queue_controller [Order CReset; Order CReset] C105_state).
  let v := eval vm_compute in run in assert (R : run = v) by (vm_compute; reflexivity).
  rewrite R. clear R run. split; [|reflexivity].
  intros before c r after H. places. all: reflexivity.
Qed.
