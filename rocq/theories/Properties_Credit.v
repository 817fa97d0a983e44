(** * Flow control: C84, C85. *)
From Verif Require Import Base Model_Types Model_EventBase Model_Command Model_Event Model_Host
  Spec_Wire Spec_Errors Spec_Host Spec_Link Spec_Split Spec_Example Spec_Conform Spec_Pass Spec_Core Spec_Follow Spec_Credit
  Proofs_Base Proofs_Link Proofs_Follow Proofs_Credit.
Open Scope list_scope.
Open Scope N_scope.

(** ** C84: completed data packets are counted exactly *)
Theorem C84_uart F V St E (C : controller St E) h os s ps more : contract C h ->
  Forall (typed_operation F) os -> possible h s -> Forall (conforming_packet F) ps ->
  let (s', log) := session F V C os s in
  pending h s s' = flat_map uart_frame ps ++ more ->
  consumed h s' = (consumed h s + length (flat_map uart_frame ps))%nat ->
  forall conn n, counted_all conn (events_read log) n <-> n = total (map (completed conn) ps).
Proof. exact (credits_uart F V C h os s ps more). Qed.
Print Assumptions C84_uart.

Theorem C84_split F V St E (C : controller St E) h os s ps more : contract C h ->
  Forall (typed_operation F) os -> possible h s -> Forall (conforming_packet F) ps ->
  let (s', log) := split_session F V C os s in
  pending h s s' = concat ps ++ more ->
  consumed h s' = (consumed h s + length (concat ps))%nat ->
  forall conn n, counted_all conn (split_events_read log) n <-> n = total (map (completed conn) ps).
Proof. exact (credits_split F V C h os s ps more). Qed.
Print Assumptions C84_split.

Definition C84_pair (h n : N) : completed_packets_pair := Build_completed_packets_pair h n.
Definition C84_packets : list (list N) :=
  map (fun l => framed 0x13 (N.of_nat (length l) :: flat_map pair_bytes l))
    [[C84_pair 0x40 3; C84_pair 0x41 1]; []; [C84_pair 0x41 2; C84_pair 0x40 0x0102; C84_pair 0x41 4]].
Definition C84_state : queue :=
  {| q_received := flat_map uart_frame C84_packets; q_consumed := 0; q_arrivals := []; q_written := [];
     q_ready := [] |}.
Example C84_case :
  Forall (conforming_packet F41) C84_packets
  /\ possible queue_history C84_state
  /\ total (map (completed 0x40) C84_packets) = 0x0105 /\ total (map (completed 0x41) C84_packets) = 7
  /\ let (s', log) := session F41 test_vendor queue_controller (repeat Receive 3) C84_state in
     pending queue_history C84_state s' = flat_map uart_frame C84_packets
     /\ consumed queue_history s' = length (flat_map uart_frame C84_packets)
     /\ length (events_read log) = 3%nat.
Proof.
  split.
  { unfold C84_packets. cbn [map]. repeat (apply Forall_cons); [| | |constructor];
      (eexists _, _; split; [reflexivity|]; apply conforming_completed; [cbn; lia|]);
      repeat (constructor; [split; [cbn; lia|reflexivity]|]); constructor. }
  split; [cbn; split; [repeat constructor|split; [lia|constructor]]|].
  split; [reflexivity|]. split; [reflexivity|]. vm_compute. repeat split.
Qed.
Example C84_split_case :
  let s := {| q_received := concat C84_packets; q_consumed := 0; q_arrivals := []; q_written := []; q_ready := [] |} in
  possible queue_history s
  /\ let (s', log) := split_session F41 test_vendor queue_controller (repeat Receive 3) s in
     pending queue_history s s' = concat C84_packets
     /\ consumed queue_history s' = length (concat C84_packets)
     /\ length (split_events_read log) = 3%nat.
Proof. cbv zeta. split; [cbn; split; [repeat constructor|split; [lia|constructor]]|]. vm_compute. repeat split. Qed.

(** ** C85: the host knows how many commands the controller has room for

    Refuted as stated: the answer to Read Local Supported Commands is refused if
    it has Set or Delete Reserved LT_ADDR, and with it goes the room it gives. *)
Theorem C85_refuted : exists F V os s ps n, Forall (typed_operation F) os /\ possible queue_history s
  /\ Forall (conforming_packet F) ps
  /\ let (s', log) := session F V queue_controller os s in
     pending queue_history s s' = flat_map uart_frame ps
     /\ consumed queue_history s' = (consumed queue_history s + length (flat_map uart_frame ps))%nat
     /\ fold_left known_room (events_read log) n = 0 /\ fold_left room ps n = 1.
Proof. exact room_missed. Qed.
Print Assumptions C85_refuted.

(** Apart from that it does. *)
Theorem C85_uart F V St E (C : controller St E) h os s ps more n : contract C h ->
  Forall (typed_operation F) os -> possible h s -> Forall (conforming_packet F) ps ->
  let (s', log) := session F V C os s in
  pending h s s' = flat_map uart_frame ps ++ more ->
  consumed h s' = (consumed h s + length (flat_map uart_frame ps))%nat ->
  fold_left known_room (events_read log) n
  = fold_left room (filter (fun p => negb (reserved_address_commands p)) ps) n.
Proof. exact (room_uart F V C h os s ps more n). Qed.
Print Assumptions C85_uart.

Theorem C85_split F V St E (C : controller St E) h os s ps more n : contract C h ->
  Forall (typed_operation F) os -> possible h s -> Forall (conforming_packet F) ps ->
  let (s', log) := split_session F V C os s in
  pending h s s' = concat ps ++ more ->
  consumed h s' = (consumed h s + length (concat ps))%nat ->
  fold_left known_room (split_events_read log) n
  = fold_left room (filter (fun p => negb (reserved_address_commands p)) ps) n.
Proof. exact (room_split F V C h os s ps more n). Qed.
Print Assumptions C85_split.

(** No room after Disconnect; then room for two, outside any answer. *)
Definition C85_packets : list (list N) := [framed 0x0F [0; 0; 0x06; 0x04]; framed 0x0E ([2] ++ le 2 0)].
Definition C85_state : queue :=
  {| q_received := concat C85_packets; q_consumed := 0; q_arrivals := []; q_written := []; q_ready := [] |}.
Example C85_case :
  Forall (conforming_packet F41) C85_packets
  /\ possible queue_history C85_state
  /\ filter (fun p => negb (reserved_address_commands p)) C85_packets = C85_packets
  /\ let (s', log) := split_session F41 test_vendor queue_controller (repeat Receive 2) C85_state in
     pending queue_history C85_state s' = concat C85_packets
     /\ consumed queue_history s' = length (concat C85_packets)
     /\ map (fun k => fold_left known_room (firstn k (split_events_read log)) 1) [1%nat; 2%nat] = [0; 2].
Proof.
  split.
  { constructor; [exact (Forall_inv room_conforms)|]. constructor; [|constructor].
    eexists _, _. split; [reflexivity|]. apply conforming_flow. reflexivity. }
  split; [cbn; split; [repeat constructor|split; [lia|constructor]]|].
  split; [reflexivity|]. vm_compute. repeat split.
Qed.
