(** * What a host learns about controllers and peers: C99. *)
From Coq Require Import ZArith.
From Verif Require Import Base Model_Types Model_EventBase Model_Command Model_Event Model_Host
  Spec_Wire Spec_Errors Spec_Host Spec_Link Spec_Split Spec_Example Spec_Conform Spec_Pass Spec_Follow Spec_Facts
  Proofs_Base Proofs_Link Proofs_Conform Proofs_Facts.
Open Scope list_scope.
Open Scope N_scope.

(** ** C99: what a host notes down is what the controller told it *)
Theorem C99_uart F V St E (C : controller St E) h os s ps more : contract C h ->
  Forall (typed_operation F) os -> possible h s -> Forall (conforming_packet F) ps ->
  let (s', log) := session F V C os s in
  pending h s s' = flat_map uart_frame ps ++ more ->
  consumed h s' = (consumed h s + length (flat_map uart_frame ps))%nat ->
  flat_map noted (events_read log) = flat_map (told F) ps.
Proof. exact (facts_uart F V C h os s ps more). Qed.
Print Assumptions C99_uart.

Theorem C99_split F V St E (C : controller St E) h os s ps more : contract C h ->
  Forall (typed_operation F) os -> possible h s -> Forall (conforming_packet F) ps ->
  let (s', log) := split_session F V C os s in
  pending h s s' = concat ps ++ more ->
  consumed h s' = (consumed h s + length (concat ps))%nat ->
  flat_map noted (split_events_read log) = flat_map (told F) ps.
Proof. exact (facts_split F V C h os s ps more). Qed.
Print Assumptions C99_split.

(** The application that forgets what has ended knows exactly the facts that some
    packet told and that no later packet ended. *)
Theorem C99_known_uart F V St E (C : controller St E) h os s ps more : contract C h ->
  Forall (typed_operation F) os -> possible h s -> Forall (conforming_packet F) ps ->
  let (s', log) := session F V C os s in
  pending h s s' = flat_map uart_frame ps ++ more ->
  consumed h s' = (consumed h s + length (flat_map uart_frame ps))%nat ->
  forall f, In f (fold_left keep (flat_map noted (events_read log)) []) <->
    lasting f /\ exists before pkt after, ps = before ++ pkt :: after /\ told F pkt = [f]
      /\ Forall (fun q => ~ ended_by F f q) after.
Proof. exact (kept_uart F V C h os s ps more). Qed.
Print Assumptions C99_known_uart.

Theorem C99_known_split F V St E (C : controller St E) h os s ps more : contract C h ->
  Forall (typed_operation F) os -> possible h s -> Forall (conforming_packet F) ps ->
  let (s', log) := split_session F V C os s in
  pending h s s' = concat ps ++ more ->
  consumed h s' = (consumed h s + length (concat ps))%nat ->
  forall f, In f (fold_left keep (flat_map noted (split_events_read log)) []) <->
    lasting f /\ exists before pkt after, ps = before ++ pkt :: after /\ told F pkt = [f]
      /\ Forall (fun q => ~ ended_by F f q) after.
Proof. exact (kept_split F V C h os s ps more). Qed.
Print Assumptions C99_known_split.

(** Own address and features (one bit of which this version does not define), then
    the version, the features and the signal strength of the peer, which leaves. *)
Definition C99_packets : list (list N) :=
  [ framed 0x0E ([1] ++ le 2 (hci_opcode 0x04 0x009) ++ [0; 1; 2; 3; 4; 5; 6]);
    framed 0x0E ([1] ++ le 2 (hci_opcode 0x08 0x003) ++ [0; 0x31; 0; 0; 0; 0; 0; 0; 0]);
    framed 0x0C [0; 0x40; 0; 9; 0x0F; 0; 0x02; 0x01];
    framed 0x3E [0x04; 0; 0x40; 0; 0x11; 0; 0; 0; 0; 0; 0; 0];
    framed 0x0E ([1] ++ le 2 (hci_opcode 0x05 0x005) ++ [0; 0x40; 0; 0xBA]);
    framed 0x05 [0; 0x40; 0; 0x13] ].
Definition C99_state : queue :=
  {| q_received := flat_map uart_frame C99_packets; q_consumed := 0; q_arrivals := []; q_written := [];
     q_ready := [] |}.
Example C99_case :
  Forall (conforming_packet F41) C99_packets
  /\ possible queue_history C99_state
  /\ let (s', log) := session F41 test_vendor queue_controller (repeat Receive 6) C99_state in
     pending queue_history C99_state s' = flat_map uart_frame C99_packets
     /\ consumed queue_history s' = length (flat_map uart_frame C99_packets)
     /\ flat_map noted (events_read log)
        = [ Address [1; 2; 3; 4; 5; 6]; LeFeatures [0; 4]; PeerVersion 0x40 9 15 0x0102;
            PeerFeatures 0x40 [0; 4]; SignalStrength 0x40 (-70); ConnectionGone 0x40 ]
     /\ fold_left keep (flat_map noted (events_read log)) [] = [LeFeatures [0; 4]; Address [1; 2; 3; 4; 5; 6]].
Proof.
  split.
  { unfold C99_packets. repeat (apply Forall_cons); [..|constructor];
      first [apply return_checked; [reflexivity|] | apply event_checked]; vm_compute; reflexivity. }
  split; [cbn; split; [repeat constructor|split; [lia|constructor]]|].
  vm_compute. repeat split.
Qed.
Example C99_split_case :
  let s := {| q_received := concat C99_packets; q_consumed := 0; q_arrivals := []; q_written := []; q_ready := [] |} in
  possible queue_history s
  /\ let (s', log) := split_session F41 test_vendor queue_controller (repeat Receive 6) s in
     pending queue_history s s' = concat C99_packets
     /\ consumed queue_history s' = length (concat C99_packets)
     /\ fold_left keep (flat_map noted (split_events_read log)) [] = [LeFeatures [0; 4]; Address [1; 2; 3; 4; 5; 6]].
Proof. cbv zeta. split; [cbn; split; [repeat constructor|split; [lia|constructor]]|]. vm_compute. repeat split. Qed.
