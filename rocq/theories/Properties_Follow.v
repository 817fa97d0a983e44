(** * Following the connections of a controller: C83. *)
From Verif Require Import Base Model_Types Model_Intervals Model_EventBase Model_Command Model_Event Model_Host
  Spec_Wire Spec_Errors Spec_Host Spec_Link Spec_Split Spec_Example Spec_Conform Spec_Pass Spec_Follow
  Proofs_Base Proofs_Link Proofs_Follow.
Open Scope list_scope.
Open Scope N_scope.

(** ** C83: the events tell which connections are open, with whom and how

    Refuted as stated: a connection with a supervision timeout of 100 ms is
    missed. *)
Theorem C83_refuted F V : exists os s ps, Forall (typed_operation F) os /\ possible queue_history s
  /\ Forall (conforming_packet F) ps
  /\ let (s', log) := session F V queue_controller os s in
     pending queue_history s s' = flat_map uart_frame ps
     /\ consumed queue_history s' = (consumed queue_history s + length (flat_map uart_frame ps))%nat
     /\ ~ Forall2 describes (fold_left happened ps []) (fold_left follow (events_read log) []).
Proof. exact (missed F V). Qed.
Print Assumptions C83_refuted.

(** All packets of a conforming controller are read: apart from those connections
    and changes, host and controller agree. *)
Theorem C83_uart F V St E (C : controller St E) h os s ps more cs ks : contract C h ->
  Forall (typed_operation F) os -> possible h s ->
  Forall (conforming_packet F) ps -> Forall2 describes cs ks ->
  let (s', log) := session F V C os s in
  pending h s s' = flat_map uart_frame ps ++ more ->
  consumed h s' = (consumed h s + length (flat_map uart_frame ps))%nat ->
  Forall2 describes (fold_left happened (filter (fun p => negb (hidden p)) ps) cs)
    (fold_left follow (events_read log) ks).
Proof. exact (followed_uart F V C h os s ps more cs ks). Qed.
Print Assumptions C83_uart.

Theorem C83_split F V St E (C : controller St E) h os s ps more cs ks : contract C h ->
  Forall (typed_operation F) os -> possible h s ->
  Forall (conforming_packet F) ps -> Forall2 describes cs ks ->
  let (s', log) := split_session F V C os s in
  pending h s s' = concat ps ++ more ->
  consumed h s' = (consumed h s + length (concat ps))%nat ->
  Forall2 describes (fold_left happened (filter (fun p => negb (hidden p)) ps) cs)
    (fold_left follow (split_events_read log) ks).
Proof. exact (followed_split F V C h os s ps more cs ks). Qed.
Print Assumptions C83_split.

(** Three connections, one of them changed and encrypted, another one ended; an
    event about something else, and a change that fails. *)
Definition C83_packets : list (list N) := [
  [0x03; 11; 0; 0x02; 0; 1; 1; 1; 2; 2; 2; 1; 0];
  [0x3E; 19; 0x01; 0; 0x40; 0; 0; 0; 1; 2; 3; 4; 5; 6; 0x18; 0; 4; 0; 0x64; 0; 5];
  [0x3E; 19; 0x01; 0; 0x41; 0; 1; 1; 6; 5; 4; 3; 2; 0xC1; 0x06; 0; 0; 0; 0x20; 0; 0];
  [0x08; 4; 0; 0x41; 0; 1];
  [0x10; 1; 0x42];
  [0x3E; 10; 0x03; 0; 0x41; 0; 0x50; 0; 1; 0; 0x90; 1];
  [0x3E; 10; 0x03; 0x0C; 0x41; 0; 0x60; 0; 1; 0; 0x90; 1];
  [0x05; 4; 0; 0x40; 0; 0x13]].
Definition C83_state : queue :=
  {| q_received := flat_map uart_frame C83_packets; q_consumed := 0; q_arrivals := []; q_written := [];
     q_ready := [] |}.
Example C83_case :
  Forall (conforming_packet F41) C83_packets
  /\ possible queue_history C83_state
  /\ filter (fun p => negb (hidden p)) C83_packets = C83_packets
  /\ let (s', log) := session F41 test_vendor queue_controller (repeat Receive 8) C83_state in
     pending queue_history C83_state s' = flat_map uart_frame C83_packets
     /\ consumed queue_history s' = length (flat_map uart_frame C83_packets)
     /\ fold_left happened C83_packets []
        = [{| c_handle := 0x41; c_kind := LowEnergy 1 [1; 6; 5; 4; 3; 2; 0xC1] 0x50 1 0x190;
              c_encrypted := true |};
           {| c_handle := 0x02; c_kind := Classic 1 [1; 1; 1; 2; 2; 2]; c_encrypted := false |}]
     /\ fold_left follow (events_read log) []
        = [{| k_handle := 0x41;
              k_kind := KnownLe Peripheral (BdRandom [6; 5; 4; 3; 2; 0xC1])
                          {| fci_interval := 0x50 * interval_unit; fci_latency := 1;
                             fci_timeout := 0x190 * timeout_unit |};
              k_encrypted := true |};
           {| k_handle := 0x02; k_kind := KnownClassic Acl [1; 1; 1; 2; 2; 2]; k_encrypted := false |}].
Proof.
  split.
  { unfold C83_packets. repeat (apply Forall_cons); [| | | | | | | |constructor].
    - exists 0x03, [0; 0x02; 0; 1; 1; 1; 2; 2; 2; 1; 0]. split; [reflexivity|].
      eapply conforming_event; [cbn; left; reflexivity|].
      exists [0], [0x02; 0; 1; 1; 1; 2; 2; 2; 1; 0]. split; [reflexivity|].
      split; [exists 0; split; [vm_compute; discriminate|reflexivity]|].
      exists [0x02; 0], [1; 1; 1; 2; 2; 2; 1; 0]. split; [reflexivity|]. split; [exists 0x02; repeat split; lia|].
      exists [1; 1; 1; 2; 2; 2], [1; 0]. split; [reflexivity|].
      split; [split; [reflexivity|repeat constructor]|].
      exists [1], [0]. split; [reflexivity|]. split; [exists 1; repeat split; lia|].
      exists [0], []. split; [reflexivity|]. split; [exists 0; repeat split; lia|reflexivity].
    - exists 0x3E, ([0x01; 0x00] ++ connection_body 0x40 0 0 0x18 4 0x64 5 [1; 2; 3; 4; 5; 6]).
      split; [reflexivity|].
      apply conforming_connection; try (unfold parameter_ranges, timeout_suffices; lia); [reflexivity|].
      repeat constructor.
    - exists 0x3E, ([0x01; 0x00] ++ connection_body 0x41 1 1 6 0 0x20 0 [6; 5; 4; 3; 2; 0xC1]).
      split; [reflexivity|].
      apply conforming_connection; try (unfold parameter_ranges, timeout_suffices; lia); [reflexivity|].
      repeat constructor.
    - exists 0x08, [0; 0x41; 0; 1]. split; [reflexivity|].
      eapply conforming_event; [cbn; right; right; left; reflexivity|].
      exists [0], [0x41; 0; 1]. split; [reflexivity|]. split; [exists 0; split; [vm_compute; discriminate|reflexivity]|].
      exists [0x41; 0], [1]. split; [reflexivity|]. split; [exists 0x41; repeat split; lia|].
      exists [1], []. split; [reflexivity|]. split; [exists 1; repeat split; lia|reflexivity].
    - exists 0x10, [0x42]. split; [reflexivity|].
      eapply conforming_event; [cbn; do 5 right; left; reflexivity|].
      exists [0x42], []. split; [reflexivity|]. split; [split; [reflexivity|repeat constructor]|reflexivity].
    - exists 0x3E, ([0x03; 0x00] ++ update_body 0x41 0x50 1 0x190). split; [reflexivity|].
      apply conforming_update. unfold parameter_ranges, timeout_suffices. lia.
    - exists 0x3E, ([0x03; 0x0C] ++ [0x41; 0; 0x60; 0; 1; 0; 0x90; 1]). split; [reflexivity|].
      apply conforming_failed_update; [lia|vm_compute; discriminate|reflexivity|repeat constructor].
    - exists 0x05, [0; 0x40; 0; 0x13]. split; [reflexivity|].
      eapply conforming_event; [cbn; right; left; reflexivity|].
      exists [0], [0x40; 0; 0x13]. split; [reflexivity|].
      split; [exists 0; split; [vm_compute; discriminate|reflexivity]|].
      exists [0x40; 0], [0x13]. split; [reflexivity|]. split; [exists 0x40; repeat split; lia|].
      exists [0x13], []. split; [reflexivity|].
      split; [exists 0x13; split; [vm_compute; discriminate|reflexivity]|reflexivity]. }
  split; [cbn; split; [repeat constructor|split; [lia|constructor]]|].
  split; [reflexivity|].
  vm_compute. repeat split.
Qed.
Example C83_split_case :
  let s := {| q_received := concat C83_packets; q_consumed := 0; q_arrivals := []; q_written := []; q_ready := [] |} in
  possible queue_history s
  /\ let (s', log) := split_session F41 test_vendor queue_controller (repeat Receive 8) s in
     pending queue_history s s' = concat C83_packets
     /\ consumed queue_history s' = length (concat C83_packets)
     /\ map k_handle (fold_left follow (split_events_read log) []) = [0x41; 0x02].
Proof. cbv zeta. split; [cbn; split; [repeat constructor|split; [lia|constructor]]|]. vm_compute. repeat split. Qed.
