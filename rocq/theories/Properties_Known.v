(** * Asking only for events the crate knows: C94. *)
From Coq Require Import String.
From Verif Require Import Base Model_Types Model_Bitflags Model_FlagNames Model_Intervals Model_EventBase Model_Command Model_Event
  Model_Host Spec_Wire Spec_Errors Spec_Report Spec_Host Spec_Link Spec_Example Spec_Split Spec_FlagNames Spec_Device Spec_Air
  Spec_Enabled Spec_Blame Spec_Known Proofs_Base Proofs_Known.
Open Scope list_scope.
Open Scope N_scope.

(** ** C94: a host that asks for events the crate knows reads no unknown ones

    [told … d cs]: a session in which the calls [cs] succeeded, and after which a
    controller that had been reset has the settings [d] (Spec_Air.v).  Packets
    with the event code 0xFF are the vendor's. *)
Theorem C94_flags F V St E (C : controller St E) h os s d cs : vendor_total V -> vendor_names_status V ->
  contract C h -> Forall (typed_operation F) os -> possible h s -> told F V C h os s d cs ->
  Forall (from_flags F) cs ->
  (forall pkt, may_come d cs pkt -> at_ pkt 0 <> 0xFF -> ~ unknown (event_new F V pkt)) <-> asks_known F cs.
Proof. exact (known_told F V C h os s d cs). Qed.
Print Assumptions C94_flags.

(** So it is in every session that reads such packets. *)
Theorem C94_uart F V St E (C : controller St E) h os s d cs : vendor_total V -> vendor_names_status V ->
  contract C h -> Forall (typed_operation F) os -> possible h s -> told F V C h os s d cs ->
  Forall (from_flags F) cs -> asks_known F cs ->
  forall os' s0 ps more, Forall (typed_operation F) os' -> possible h s0 ->
  Forall (fun pkt => may_come d cs pkt /\ at_ pkt 0 <> 0xFF) ps ->
  let (s', log) := session F V C os' s0 in
  pending h s0 s' = flat_map uart_frame ps ++ more ->
  consumed h s' = (consumed h s0 + length (flat_map uart_frame ps))%nat ->
  forall o r, In (o, Received r) log -> ~ uart_unknown r.
Proof. exact (known_uart_reads F V C h os s d cs). Qed.
Print Assumptions C94_uart.
Theorem C94_split F V St E (C : controller St E) h os s d cs : vendor_total V -> vendor_names_status V ->
  contract C h -> Forall (typed_operation F) os -> possible h s -> told F V C h os s d cs ->
  Forall (from_flags F) cs -> asks_known F cs ->
  forall os' s0 ps more, Forall (typed_operation F) os' -> possible h s0 ->
  Forall (fun pkt => may_come d cs pkt /\ at_ pkt 0 <> 0xFF) ps ->
  let (s', log) := split_session F V C os' s0 in
  pending h s0 s' = concat ps ++ more ->
  consumed h s' = (consumed h s0 + length (concat ps))%nat ->
  forall o r, In (o, SplitReceived r) log -> ~ link_unknown r.
Proof. exact (known_split_reads F V C h os s d cs). Qed.
Print Assumptions C94_split.

(** A host that asks for disconnections, hardware errors, and advertising reports;
    a controller that reports two of them and answers Reset; and what a host hears
    that never gave a mask. *)
Definition known_operations : list (operation test_vendor) :=
  [Send CReset; Send (CSetEventMask 0x2000000000008010); Send (CLeSetEventMask 0x02)].
Definition known_state : queue :=
  {| q_received := []; q_consumed := 0; q_arrivals := []; q_written := []; q_ready := [Ready; Ready; Ready] |}.
Definition known_result := session F41 test_vendor queue_controller known_operations known_state.
Definition known_calls : list (command test_vendor) := sent_commands (snd known_result).
Definition known_packets : list (N * list N) :=
  match parse_commands (q_written (fst known_result)) with Some packets => packets | None => [] end.
Definition known_settings : settings := fold_left carry_out known_packets after_reset.
Definition known_sent : list (list N) := [[0x0E; 4; 1; 0x03; 0x0C; 0]; [0x10; 1; 0x42]; [0x3E; 2; 2; 0]].
Definition known_queue : queue :=
  {| q_received := flat_map uart_frame known_sent; q_consumed := 0; q_arrivals := []; q_written := []; q_ready := [] |}.
Example C94_case :
  Forall (typed_operation F41) known_operations /\ possible queue_history known_state
  /\ told F41 test_vendor queue_controller queue_history known_operations known_state known_settings known_calls
  /\ Forall (from_flags F41) known_calls
  /\ (forall name, In name ["DISCONNECTION_COMPLETE"; "HARDWARE_ERROR"; "LE_META_EVENT"]%string ->
        has_flag (event_constant F41 name) (wanted_mask known_calls) = true)
  /\ asks_known F41 known_calls
  /\ Forall (fun pkt => may_come known_settings known_calls pkt /\ at_ pkt 0 <> 0xFF) known_sent
  /\ possible queue_history known_queue
  /\ (let (s', log) := session F41 test_vendor queue_controller (repeat Receive 3) known_queue in
      pending queue_history known_queue s' = flat_map uart_frame known_sent
      /\ consumed queue_history s' = (0 + length (flat_map uart_frame known_sent))%nat
      /\ length (received_packets log) = 3%nat)
  /\ may_come (V := test_vendor) after_reset [] [0x04; 10; 1; 2; 3; 4; 5; 6; 7; 8; 9; 1]
  /\ unknown (event_new F41 test_vendor [0x04; 10; 1; 2; 3; 4; 5; 6; 7; 8; 9; 1])
  /\ ~ asks_known (V := test_vendor) F41 [].
Proof.
  assert (T : told F41 test_vendor queue_controller queue_history known_operations known_state known_settings known_calls).
  { left. change (session _ _ _ known_operations known_state) with known_result.
    rewrite (surjective_pairing known_result). split; [reflexivity|].
    exists (q_written (fst known_result)), known_packets.
    split; [reflexivity|]. split; [vm_compute; reflexivity|reflexivity]. }
  split; [repeat constructor|].
  split; [split; [constructor|split; [cbn; lia|repeat constructor]]|].
  split; [exact T|].
  split; [repeat constructor|].
  split.
  { intros name H. cbn [In] in H. decompose [or] H; try contradiction; subst name; vm_compute; reflexivity. }
  split.
  { assert (M : wanted_mask known_calls = 0x2000000000008010) by (vm_compute; reflexivity).
    assert (L : wanted_le_mask known_calls = 0x02) by (vm_compute; reflexivity).
    unfold asks_known. rewrite M, L.
    assert (K : forallb (fun name => negb (has_flag (event_constant F41 name) 0x2000000000008010)
                                     || existsb (String.eqb name) known_flags)%bool EventFlags_names = true)
      by (vm_compute; reflexivity).
    assert (K' : forallb (fun name => negb (has_flag (le_event_constant F41 name) 0x02)
                                      || existsb (String.eqb name) known_le_flags)%bool LeEventFlags_names = true)
      by (vm_compute; reflexivity).
    rewrite forallb_forall in K, K'. split; [|intros _]; intros name H.
    - assert (In name EventFlags_names) as I.
      { apply has_flag_bit in H. destruct H as (b & H & _). now apply Proofs_Sets.declared_name in H. }
      specialize (K name I). cbn beta in K. rewrite H in K. cbn [negb orb] in K.
      apply existsb_exists in K. destruct K as (y & Hy & E). apply String.eqb_eq in E. now subst.
    - assert (In name LeEventFlags_names) as I.
      { apply has_flag_bit in H. destruct H as (b & H & _). now apply Proofs_Sets.declared_name in H. }
      specialize (K' name I). cbn beta in K'. rewrite H in K'. cbn [negb orb] in K'.
      apply existsb_exists in K'. destruct K' as (y & Hy & E). apply String.eqb_eq in E. now subst. }
  split.
  { unfold known_sent. repeat apply Forall_cons; [| | |constructor]; (split; [|discriminate]).
    - split; [exists 0x0E, [1; 0x03; 0x0C; 0]; repeat split; repeat constructor; cbn; lia|].
      split; [vm_compute; reflexivity|]. split; [intros K; discriminate K|]. intros _. right.
      exists CReset. split; [vm_compute; auto|]. split; [discriminate|reflexivity].
    - split; [exists 0x10, [0x42]; repeat split; repeat constructor; cbn; lia|].
      split; [vm_compute; reflexivity|]. split; intros K; discriminate K.
    - split; [exists 0x3E, [2; 0]; repeat split; repeat constructor; cbn; lia|].
      split; [vm_compute; reflexivity|]. split; [intros _; vm_compute; discriminate|intros K; discriminate K]. }
  split; [vm_compute; split; [repeat constructor|split; [lia|constructor]]|].
  split; [vm_compute; repeat split|].
  split.
  { split; [exists 0x04, [1; 2; 3; 4; 5; 6; 7; 8; 9; 1]; repeat split; repeat constructor; cbn; lia|].
    split; [vm_compute; reflexivity|]. split; intros K; discriminate K. }
  split; [exists 0x04; left; reflexivity|].
  intros [K _]. specialize (K "INQUIRY_COMPLETE"%string eq_refl). cbn in K. intuition discriminate.
Qed.
Example C94_split_case :
  let s := {| q_received := concat known_sent; q_consumed := 0; q_arrivals := []; q_written := []; q_ready := [] |} in
  possible queue_history s
  /\ let (s', log) := split_session F41 test_vendor queue_controller (repeat Receive 3) s in
     pending queue_history s s' = concat known_sent
     /\ consumed queue_history s' = (0 + length (concat known_sent))%nat
     /\ length (split_received log) = 3%nat.
Proof. cbv zeta. split; [cbn; split; [repeat constructor|split; [lia|constructor]]|]. vm_compute. repeat split. Qed.
