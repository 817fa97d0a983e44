(** * The masks needed to follow connections: C86. *)
From Coq Require Import String.
From Verif Require Import Base Model_Types Model_Bitflags Model_FlagNames Model_Intervals Model_EventBase Model_Command Model_Event
  Model_Host Spec_Wire Spec_Errors Spec_Host Spec_Link Spec_Example Spec_Split Spec_FlagNames Spec_Conform Spec_Device Spec_Air
  Spec_Enabled Spec_Pass Spec_Follow Spec_Watch Proofs_Base Proofs_Device Proofs_Follow Proofs_Watch.
Open Scope list_scope.
Open Scope N_scope.

(** ** C86: the host learns all about its connections if it asked for six events

    [told … d cs]: a session in which the calls [cs] succeeded, and after which a
    controller that had been reset has the settings [d] (Spec_Air.v).  It tells
    about everything that happens to its connections exactly if the masks of the
    host have the flags of [wants_connections]. *)
Theorem C86_flags F V St E (C : controller St E) h os s d cs :
  contract C h -> Forall (typed_operation F) os -> possible h s -> told F V C h os s d cs ->
  (watches F d <-> wants_connections F cs).
Proof. exact (watched F V C h os s d cs). Qed.
Print Assumptions C86_flags.

(** Then, as long as the host only reads, it knows all connections, but for those
    of C83, from the events the controller lets through. *)
Theorem C86_uart F V St E (C : controller St E) h os s d cs :
  contract C h -> Forall (typed_operation F) os -> possible h s -> told F V C h os s d cs ->
  wants_connections F cs ->
  forall n s0 ps more open ks, possible h s0 -> Forall (conforming_packet F) ps -> Forall2 describes open ks ->
  let (s', log) := session F V C (repeat Receive n) s0 in
  pending h s0 s' = flat_map uart_frame (filter (lets_through d) ps) ++ more ->
  consumed h s' = (consumed h s0 + length (flat_map uart_frame (filter (lets_through d) ps)))%nat ->
  Forall2 describes (fold_left happened (filter (fun p => negb (hidden p)) ps) open)
    (fold_left follow (events_read log) ks).
Proof. exact (known_uart F V C h os s d cs). Qed.
Print Assumptions C86_uart.

Theorem C86_split F V St E (C : controller St E) h os s d cs :
  contract C h -> Forall (typed_operation F) os -> possible h s -> told F V C h os s d cs ->
  wants_connections F cs ->
  forall n s0 ps more open ks, possible h s0 -> Forall (conforming_packet F) ps -> Forall2 describes open ks ->
  let (s', log) := split_session F V C (repeat Receive n) s0 in
  pending h s0 s' = concat (filter (lets_through d) ps) ++ more ->
  consumed h s' = (consumed h s0 + length (concat (filter (lets_through d) ps)))%nat ->
  Forall2 describes (fold_left happened (filter (fun p => negb (hidden p)) ps) open)
    (fold_left follow (split_events_read log) ks).
Proof. exact (known_split F V C h os s d cs). Qed.
Print Assumptions C86_split.

(** A host that sets both masks; an event that is not let through; and a host that
    does not and misses a connection. *)
Definition watch_operations : list (operation test_vendor) :=
  [Send CReset; Send (CSetEventMask 0x2000000000000094); Send (CLeSetEventMask 0x05)].
Definition watch_state : queue :=
  {| q_received := []; q_consumed := 0; q_arrivals := []; q_written := []; q_ready := [Ready; Ready; Ready] |}.
Definition watch_result := session F41 test_vendor queue_controller watch_operations watch_state.
Definition watch_calls : list (command test_vendor) := sent_commands (snd watch_result).
Definition watch_packets : list (N * list N) :=
  match parse_commands (q_written (fst watch_result)) with Some packets => packets | None => [] end.
Definition watch_settings : settings := fold_left carry_out watch_packets after_reset.
Definition watch_events : list (list N) :=
  [[0x10; 1; 0x42]; [0x3E; 19; 1; 0; 1; 0; 0; 0; 1; 2; 3; 4; 5; 6; 6; 0; 0; 0; 100; 0; 0]].
Definition watch_sent : queue :=
  {| q_received := flat_map uart_frame (filter (lets_through watch_settings) watch_events); q_consumed := 0;
     q_arrivals := []; q_written := []; q_ready := [] |}.
Example C86_case :
  Forall (typed_operation F41) watch_operations /\ possible queue_history watch_state
  /\ told F41 test_vendor queue_controller queue_history watch_operations watch_state watch_settings watch_calls
  /\ wants_connections F41 watch_calls
  /\ Forall (conforming_packet F41) watch_events /\ possible queue_history watch_sent
  /\ length (filter (lets_through watch_settings) watch_events) = 1%nat
  /\ (let (s', log) := session F41 test_vendor queue_controller (repeat Receive 2) watch_sent in
      pending queue_history watch_sent s' = flat_map uart_frame (filter (lets_through watch_settings) watch_events)
      /\ consumed queue_history s'
         = (0 + length (flat_map uart_frame (filter (lets_through watch_settings) watch_events)))%nat
      /\ length (fold_left follow (events_read log) []) = 1%nat
      /\ length (fold_left happened watch_events []) = 1%nat)
  /\ ~ wants_connections F41 [CReset (V := test_vendor)]
  /\ filter (lets_through after_reset) watch_events = [[0x10; 1; 0x42]].
Proof.
  split; [repeat constructor|].
  split; [split; [constructor|split; [cbn; lia|repeat constructor]]|].
  split.
  { left. change (session _ _ _ watch_operations watch_state) with watch_result.
    rewrite (surjective_pairing watch_result). split; [reflexivity|].
    exists (q_written (fst watch_result)), watch_packets.
    split; [reflexivity|]. split; [vm_compute; reflexivity|reflexivity]. }
  split; [split; repeat constructor|].
  split.
  { constructor; [|constructor; [apply connection_conforms|constructor]].
    exists 0x10, [0x42]. split; [reflexivity|].
    eapply conforming_event; [cbn; do 5 right; left; reflexivity|].
    exists [0x42], []. split; [reflexivity|]. split; [split; [reflexivity|repeat constructor]|reflexivity]. }
  split; [vm_compute; split; [repeat constructor|split; [lia|constructor]]|].
  split; [reflexivity|]. split; [vm_compute; repeat split|].
  split; [|reflexivity].
  intros [H _]. unfold connection_flags in H.
  apply Forall_inv_tail, Forall_inv_tail, Forall_inv_tail, Forall_inv in H. vm_compute in H. discriminate H.
Qed.
Example C86_split_case :
  let s := {| q_received := concat (filter (lets_through watch_settings) watch_events); q_consumed := 0; q_arrivals := []; q_written := []; q_ready := [] |} in
  possible queue_history s
  /\ let (s', log) := split_session F41 test_vendor queue_controller (repeat Receive 2) s in
     pending queue_history s s' = concat (filter (lets_through watch_settings) watch_events)
     /\ consumed queue_history s' = (0 + length (concat (filter (lets_through watch_settings) watch_events)))%nat
     /\ length (fold_left follow (split_events_read log) []) = 1%nat.
Proof. cbv zeta. split; [vm_compute; split; [repeat constructor|split; [lia|constructor]]|]. vm_compute. repeat split. Qed.
