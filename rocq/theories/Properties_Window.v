(** * Data buffers of a controller, and a host that counts (property C104). *)
From Verif Require Import Base Model_Types Model_Intervals Model_EventBase Model_Command Model_Event Model_Host
  Spec_Wire Spec_Errors Spec_Host Spec_Link Spec_Example Spec_Split Spec_Conform Spec_Follow Spec_Credit Spec_Facts Spec_Data
  Spec_Window Proofs_Base Proofs_Link Proofs_Queue Proofs_Conform Proofs_Follow Proofs_Facts Proofs_Data Proofs_Window.
Open Scope list_scope.
Open Scope N_scope.

(** ** C104: a host that counts completed packets never overruns the data buffers

    The host asks for the size and number of the buffers, counts the data packets
    it sends, and takes off what the events it reads say is completed or gone.  It
    sends only while its count is below the number it was told.  However far the
    packets are on their way, the controller then never has more data packets than
    buffers, and none that is too large for one. *)
Theorem C104_never_overrun F V St E (C : controller St E) h size number os s d : contract C h ->
  Forall (typed_data_operation F V) os -> possible h s -> honest F size number d ->
  let (s', log) := data_session F V C os s in
  careful log ->
  (exists on_the_way, written h s' = written h s ++ flat_map wire_bytes (taken d) ++ on_the_way) ->
  (exists on_the_way, flat_map wire_bytes (sent_by d) = pending h s s' ++ on_the_way) ->
  N.of_nat (length (held (memory_after d))) <= number
  /\ Forall (fun w => is_data w = true -> data_size w <= size) (taken d).
Proof. exact (fun HC => never_overrun F V C h HC size number os s d). Qed.
Print Assumptions C104_never_overrun.
(** Nor does it lose any room: with nothing on the way, its count is, for every
    connection, the number of packets the controller has. *)
Theorem C104_exact F V St E (C : controller St E) h size number os s d : contract C h ->
  Forall (typed_data_operation F V) os -> possible h s -> honest F size number d ->
  let (s', log) := data_session F V C os s in
  written h s' = written h s ++ flat_map wire_bytes (taken d) ->
  pending h s s' = flat_map wire_bytes (sent_by d) ->
  consumed h s' = (consumed h s + length (flat_map wire_bytes (sent_by d)))%nat ->
  (exists out, outstanding log out)
  /\ forall out, outstanding log out ->
     length out = length (held (memory_after d))
     /\ forall c, packets_of c out = packets_of c (held (memory_after d)).
Proof. exact (fun HC => no_room_lost F V C h HC size number os s d). Qed.
Print Assumptions C104_exact.

(** Two buffers of 27 octets, two connections.  The third packet waits until one is
    completed, the fourth until the other connection is gone. *)
Definition C104_data (handle : N) : N * list N := (0x02, le 2 handle ++ [1; 0; 7]).
Definition C104_replies : list (list N) :=
  [ framed 0x0E ([1] ++ le 2 (hci_opcode 0x08 0x002) ++ [0; 27; 0; 2]);
    framed 0x13 [2; 0x40; 0; 1; 0; 0x41; 0; 0; 0];
    framed 0x05 [0; 0x41; 0; 0x13] ].
Definition C104_device : list device_step :=
  let reply k := Sends (0x04, nth k C104_replies []) in
  [ Takes (0x01, [0x02; 0x20; 0]); reply 0%nat; Takes (C104_data 0x40); Takes (C104_data 0x41); reply 1%nat;
    Takes (C104_data 0x2040); reply 2%nat; Takes (C104_data 0x40) ].
Definition C104_operations : list (data_operation test_vendor) :=
  [ Order CLeReadBufferSize; Fetch; Transmit (C104_data 0x40); Transmit (C104_data 0x41); Fetch;
    Transmit (C104_data 0x2040); Fetch; Transmit (C104_data 0x40) ].
Definition C104_state : queue :=
  {| q_received := []; q_consumed := 0;
     q_arrivals := let reply k := uart_frame (nth k C104_replies []) in
       [[]; reply 0%nat; []; []; []; []; reply 1%nat; []; []; []; reply 2%nat; []; []; []];
     q_written := []; q_ready := repeat Ready 5 |}.
Definition C104_pairs := [Build_completed_packets_pair 0x40 1; Build_completed_packets_pair 0x41 0].
Example C104_case :
  contract queue_controller queue_history
  /\ Forall (typed_data_operation F41 test_vendor) C104_operations /\ possible queue_history C104_state
  /\ honest F41 27 2 C104_device
  /\ let (s', log) := data_session F41 test_vendor queue_controller C104_operations C104_state in
     careful log
     /\ written queue_history s' = flat_map wire_bytes (taken C104_device)
     /\ pending queue_history C104_state s' = flat_map wire_bytes (sent_by C104_device)
     /\ consumed queue_history s' = length (flat_map wire_bytes (sent_by C104_device))
     /\ limits log = Some (27, 2) /\ outstanding log [0x40; 0x40] /\ held (memory_after C104_device) = [0x40; 0x40].
Proof.
  assert (D : forall x, x < 65536 -> data_packet (C104_data x)).
  { intros x Hx. exists (x mod 256), (x / 256 mod 256), [7].
    repeat split; try (unfold byte; apply N.mod_lt; discriminate); [repeat constructor|].
    left. split; [|reflexivity]. unfold C104_data. rewrite !le_2. reflexivity. }
  split; [exact (buffering_contract _ _ queue_buffering)|].
  split.
  { repeat constructor; try exact I; apply D; lia. }
  split; [vm_compute; repeat split; repeat constructor|].
  split.
  { split.
    { unfold C104_device, taken. cbn [flat_map app]. apply Forall_cons.
      - right. exists 0x02, 0x20, []. split; reflexivity.
      - repeat (apply Forall_cons; [left; apply D; lia|]). constructor. }
    intros before w after Hd.
    assert (P : Forall (conforming_packet F41) C104_replies).
    { unfold C104_replies. repeat (apply Forall_cons); [..|constructor].
      - apply return_checked; vm_compute; reflexivity.
      - exists 0x13. eexists. split; [reflexivity|].
        apply (conforming_completed F41 [Build_completed_packets_pair 0x40 1; Build_completed_packets_pair 0x41 0]);
          [cbn; lia|repeat (constructor; [split; [cbn; lia|reflexivity]|]); constructor].
      - apply event_checked; vm_compute; reflexivity. }
    inversion P as [|? ? P0 P']; subst. inversion P' as [|? ? P1 P'']; subst. inversion P'' as [|? ? P2 _]; subst. clear P P' P''.
    assert (Q : forall pkt, conforming_packet F41 pkt -> incoming_packet (0x04, pkt)).
    { intros pkt H. left. split; [reflexivity|]. exact (conforming_event_packet F41 pkt H). }
    unfold C104_device in Hd.
    repeat match goal with
           | H : _ = ?l ++ _ :: _ |- _ => destruct l as [|x l]; [injection H as K _; try discriminate K|injection H as <- H]
           | H : [] = _ |- _ => now destruct before
           end.
    all: subst w; split; [now apply Q|]; intros _; split; [assumption|].
    - split; [intros c; apply N.le_0_l|]. intros a b [K|[]]. injection K as <- <-. split; reflexivity.
    - split; [|intros a b []]. intros c.
      change (completed c _) with ((if 0x40 =? c then 1 else 0) + ((if 0x41 =? c then 0 else 0) + 0)).
      destruct (N.eqb_spec 0x40 c) as [<-|_]; [vm_compute; discriminate|]. destruct (0x41 =? c); apply N.le_0_l.
    - split; [intros c; apply N.le_0_l|]. intros a b [K|[]]. discriminate K. }
  set (run := data_session F41 test_vendor queue_controller C104_operations C104_state).
  let v := eval vm_compute in run in assert (R : run = v) by (vm_compute; reflexivity).
  rewrite R. clear R run D. split; [|split; [reflexivity|split; [reflexivity|split; [reflexivity|split; [reflexivity|split]]]]].
  3: reflexivity.
  - intros before w r after H Hw.
    repeat match goal with
           | H : _ = ?l ++ _ :: _ |- _ => destruct l as [|x l]; [injection H as K _; try discriminate K|injection H as <- H]
           | H : [] = _ |- _ => now destruct before
           end.
    all: subst w.
    + exists [], 27, 2. split; [account [@nil completed_packets_pair]|vm_compute; repeat split; discriminate].
    + exists [0x40], 27, 2. split; [account [@nil completed_packets_pair]|vm_compute; repeat split; discriminate].
    + exists [0x41], 27, 2. split; [account [[]; C104_pairs]|vm_compute; repeat split; discriminate].
    + exists [0x40], 27, 2. split; [account [[]; C104_pairs; []]|vm_compute; repeat split; discriminate].
  - account [[]; C104_pairs; []].
Qed.
