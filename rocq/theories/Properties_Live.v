(** * Runs without an end (properties C110 to C112). *)
From Coq Require Import Lia.
From Verif Require Import Base Model_Types Model_Intervals Model_EventBase Model_Command Model_Event Model_Host
  Spec_Wire Spec_Errors Spec_Host Spec_Link Spec_Example Spec_Split Spec_Conform Spec_Follow Spec_Credit Spec_Facts Spec_Data
  Spec_Window Spec_Turns Spec_Live
  Proofs_Base Proofs_Link Proofs_Queue Proofs_Conform Proofs_Follow Proofs_Facts Proofs_Data Proofs_Turns Proofs_Live.
Open Scope list_scope.
Open Scope N_scope.

(** ** C110: no packet is left unread for ever

    Of the packets that had arrived when call [n] was made, all are reported, in
    order, as soon as there were as many reads since in which the transport did not
    fail as there were packets unread.  Commands may be sent between the reads. *)
Theorem C110_uart_by F V St E (C : controller St E) h calls states results n m ps rest : prompt C h ->
  endless (perform F V C) calls states results -> (forall n, typed_operation F (calls n)) -> possible h (states 0%nat) ->
  Forall event_packet ps -> pending h (states 0%nat) (states n) = flat_map uart_frame ps ++ rest -> (n <= m)%nat ->
  (length ps <= length (received_packets (until calls results n)) + times read_went results n m)%nat ->
  exists more, received_packets (until calls results m) = map (uart_result F V) ps ++ more.
Proof. exact (fun HP R T S => uart_by F V C h HP calls states results R T S n m ps rest). Qed.
Print Assumptions C110_uart_by.
Theorem C110_link_by F V St E (C : controller St E) h calls states results n m ps rest : prompt C h ->
  endless (split_perform F V C) calls states results -> (forall n, typed_operation F (calls n)) -> possible h (states 0%nat) ->
  Forall event_packet ps -> pending h (states 0%nat) (states n) = concat ps ++ rest -> (n <= m)%nat ->
  (length ps <= length (split_received (until calls results n)) + times split_read_went results n m)%nat ->
  exists more, split_received (until calls results m) = map (link_result F V) ps ++ more.
Proof. exact (fun HP R T S => link_by F V C h HP calls states results R T S n m ps rest). Qed.
Print Assumptions C110_link_by.
(** So a program that goes on reading gets them all. *)
Theorem C110_uart F V St E (C : controller St E) h calls states results n ps rest : prompt C h ->
  endless (perform F V C) calls states results -> (forall n, typed_operation F (calls n)) -> possible h (states 0%nat) ->
  again_and_again (fun m => read_went (results m) = true) ->
  Forall event_packet ps -> pending h (states 0%nat) (states n) = flat_map uart_frame ps ++ rest ->
  exists m more, (n <= m)%nat /\ received_packets (until calls results m) = map (uart_result F V) ps ++ more.
Proof. exact (fun HP R T S => uart_some_day F V C h HP calls states results R T S n ps rest). Qed.
Print Assumptions C110_uart.
Theorem C110_link F V St E (C : controller St E) h calls states results n ps rest : prompt C h ->
  endless (split_perform F V C) calls states results -> (forall n, typed_operation F (calls n)) -> possible h (states 0%nat) ->
  again_and_again (fun m => split_read_went (results m) = true) ->
  Forall event_packet ps -> pending h (states 0%nat) (states n) = concat ps ++ rest ->
  exists m more, (n <= m)%nat /\ split_received (until calls results m) = map (link_result F V) ps ++ more.
Proof. exact (fun HP R T S => link_some_day F V C h HP calls states results R T S n ps rest). Qed.
Print Assumptions C110_link.
(** The same with data packets between them (C103), on a controller without failures. *)
Theorem C110_data_by F V St E (C : controller St E) h calls states results n m ps rest : buffering C h ->
  endless (data_perform F V C) calls states results -> (forall n, typed_data_operation F V (calls n)) -> possible h (states 0%nat) ->
  Forall incoming_packet ps -> pending h (states 0%nat) (states n) = flat_map wire_bytes ps ++ rest -> (n <= m)%nat ->
  (length ps <= length (got V (until calls results n)) + times fetch_went results n m)%nat ->
  exists more, got V (until calls results m) = map (arrives_as F V) ps ++ more.
Proof. exact (fun HB R T S => data_by F V C h HB calls states results R T S n m ps rest). Qed.
Print Assumptions C110_data_by.
Theorem C110_data F V St E (C : controller St E) h calls states results n ps rest : buffering C h ->
  endless (data_perform F V C) calls states results -> (forall n, typed_data_operation F V (calls n)) -> possible h (states 0%nat) ->
  again_and_again (fun m => calls m = Fetch) ->
  Forall incoming_packet ps -> pending h (states 0%nat) (states n) = flat_map wire_bytes ps ++ rest ->
  exists m more, (n <= m)%nat /\ got V (until calls results m) = map (arrives_as F V) ps ++ more.
Proof. exact (fun HB R T S => data_some_day F V C h HB calls states results R T S n ps rest). Qed.
Print Assumptions C110_data.

(** A controller with failures, two events that come in pieces (the second is
    refused), a command between the reads, and reads for ever after. *)
Definition C110_packets : list (list N) := [framed 0x10 [0x42]; framed 0x77 []].
Definition C110_calls (n : nat) : operation test_vendor := match n with 2%nat => Send CReset | _ => Receive end.
Definition C110_state (packets : list N) : list bool * queue :=
  ([false; true; false; false; false; false; true],
   {| q_received := []; q_consumed := 0; q_arrivals := [firstn 3 packets; skipn 3 packets]; q_written := []; q_ready := [Ready] |}).
Example C110_uart_case :
  let call := perform F41 test_vendor shaky_controller in
  let s := C110_state (flat_map uart_frame C110_packets) in
  let states := states_of call C110_calls s in let results := results_of call C110_calls s in
  prompt shaky_controller shaky_history /\ ~ buffering shaky_controller shaky_history
  /\ endless call C110_calls states results /\ (forall n, typed_operation F41 (C110_calls n)) /\ possible shaky_history (states 0%nat)
  /\ again_and_again (fun m => read_went (results m) = true)
  /\ Forall event_packet C110_packets
  /\ pending shaky_history (states 0%nat) (states 2%nat) = flat_map uart_frame C110_packets
  /\ length (received_packets (until C110_calls results 2)) = 1%nat
  /\ read_went (results 0%nat) = false /\ read_went (results 3%nat) = false /\ times read_went results 2 5 = 1%nat
  /\ received_packets (until C110_calls results 4) = firstn 1 (map (uart_result F41 test_vendor) C110_packets)
  /\ received_packets (until C110_calls results 5) = map (uart_result F41 test_vendor) C110_packets.
Proof.
  cbv zeta. split; [exact shaky_prompt|]. split.
  { intros HB. pose proof (peek_ready _ _ HB ([true], {| q_received := [1]; q_consumed := 0; q_arrivals := []; q_written := []; q_ready := [] |}) 0%nat) as K.
    assert (P : possible shaky_history ([true], {| q_received := [1]; q_consumed := 0; q_arrivals := []; q_written := []; q_ready := [] |}))
      by (cbn; repeat constructor).
    specialize (K P). cbn in K. destruct K as [b K]. discriminate K. }
  split; [apply endless_of|]. split; [intros [|[|[|n]]]; exact I|].
  split; [cbn; repeat split; repeat constructor|]. split.
  { set (call := perform F41 test_vendor shaky_controller). set (s := C110_state _).
    intros n. exists (n + 6)%nat. split; [lia|].
    let v := eval vm_compute in (states_of call C110_calls s 6) in assert (K : states_of call C110_calls s 6 = v) by (vm_compute; reflexivity).
    destruct (stays call C110_calls s 6 _ Receive (Received (Err WouldBlock)) K) with (n := (n + 6)%nat) as [_ ->]; [| |lia|reflexivity].
    - intros k L. do 3 (destruct k as [|k]; [lia|]). reflexivity.
    - vm_compute. reflexivity. }
  split; [repeat constructor; eexists _, _; (split; [reflexivity|]); vm_compute; repeat split; repeat constructor|].
  vm_compute. repeat split.
Qed.
Example C110_link_case :
  let call := split_perform F41 test_vendor shaky_controller in
  let s := C110_state (concat C110_packets) in
  let states := states_of call C110_calls s in let results := results_of call C110_calls s in
  endless call C110_calls states results /\ possible shaky_history (states 0%nat)
  /\ again_and_again (fun m => split_read_went (results m) = true)
  /\ pending shaky_history (states 0%nat) (states 2%nat) = concat C110_packets
  /\ length (split_received (until C110_calls results 2)) = 1%nat
  /\ split_read_went (results 0%nat) = false /\ times split_read_went results 2 4 = 1%nat
  /\ split_received (until C110_calls results 4) = map (link_result F41 test_vendor) C110_packets.
Proof.
  cbv zeta. split; [apply endless_of|].
  split; [cbn; repeat split; repeat constructor|]. split.
  { set (call := split_perform F41 test_vendor shaky_controller). set (s := C110_state _).
    intros n. exists (n + 6)%nat. split; [lia|].
    let v := eval vm_compute in (states_of call C110_calls s 6) in assert (K : states_of call C110_calls s 6 = v) by (vm_compute; reflexivity).
    destruct (stays call C110_calls s 6 _ Receive (SplitReceived (Err WouldBlock)) K) with (n := (n + 6)%nat) as [_ ->]; [| |lia|reflexivity].
    - intros k L. do 3 (destruct k as [|k]; [lia|]). reflexivity.
    - vm_compute. reflexivity. }
  vm_compute. repeat split.
Qed.
Example C110_data_case :
  let call := data_perform F41 test_vendor queue_controller in
  let calls := fun n => match n with 2%nat => Order CReset | _ => Fetch end in
  let states := states_of call calls data_queue in let results := results_of call calls data_queue in
  buffering queue_controller queue_history
  /\ endless call calls states results /\ (forall n, typed_data_operation F41 test_vendor (calls n)) /\ possible queue_history (states 0%nat)
  /\ again_and_again (fun m => calls m = Fetch)
  /\ Forall incoming_packet data_stream
  /\ (exists n rest, pending queue_history (states 0%nat) (states n) = flat_map wire_bytes data_stream ++ rest)
  /\ got test_vendor (until calls results 10) = map (arrives_as F41 test_vendor) data_stream.
Proof.
  cbv zeta. split; [exact queue_buffering|]. split; [apply endless_of|]. split; [intros [|[|[|n]]]; exact I|].
  split; [cbn; repeat split; repeat constructor|].
  split; [intros n; exists (n + 3)%nat; split; [lia|]; do 3 (destruct n as [|n]; [reflexivity|]); reflexivity|].
  split.
  { unfold data_stream. repeat (apply Forall_cons); [..|constructor].
    - left. split; [reflexivity|]. exists 0x10, [0x42]. split; [reflexivity|]. vm_compute. repeat split; repeat constructor.
    - right. exists 0x01, 0x20, [7; 8; 9]. repeat split; [repeat constructor..|]. left. split; reflexivity.
    - left. split; [reflexivity|]. exists 0x77, []. split; [reflexivity|]. vm_compute. repeat split; repeat constructor.
    - right. exists 0x02, 0x00, [5]. repeat split; [repeat constructor..|]. right. split; reflexivity. }
  split; [exists 10%nat; eexists; vm_compute; reflexivity|vm_compute; reflexivity].
Qed.

(** ** C111: a host that waits its turn gets its turn

    The host of C105 calls a method only while the commands it has no answer for
    are fewer than the last number it has read.  If it goes on reading, what is sent
    gets there and the controller goes on answering, then it may send again and
    again: it is never left waiting for ever. *)
Theorem C111_turn_comes F V St E (C : controller St E) h calls states results d : buffering C h ->
  endless (data_perform F V C) calls states results -> (forall n, typed_data_operation F V (calls n)) -> possible h (states 0%nat) ->
  goes_on F h states d ->
  (forall n, patient (until calls results n)) -> again_and_again (fun n => calls n = Fetch) ->
  again_and_again (fun n => may_send (until calls results n)).
Proof. exact (turn_comes F V C h calls states results d). Qed.
Print Assumptions C111_turn_comes.

(** A host that for ever sends Reset and reads the answer: after each Reset it has
    to wait. *)
Example C111_case :
  let call := data_perform F41 test_vendor reset_controller in
  let states := states_of call reset_calls empty_queue in let results := results_of call reset_calls empty_queue in
  buffering reset_controller queue_history
  /\ endless call reset_calls states results
  /\ (forall n, typed_data_operation F41 test_vendor (reset_calls n)) /\ possible queue_history (states 0%nat)
  /\ goes_on F41 queue_history states reset_device
  /\ (forall n, patient (until reset_calls results n)) /\ again_and_again (fun n => @reset_calls test_vendor n = Fetch)
  /\ may_send (until reset_calls results 0) /\ ~ may_send (until reset_calls results 1) /\ may_send (until reset_calls results 2)
  /\ ~ may_send (until reset_calls results 7) /\ commands_sent (until reset_calls results 7) = 4.
Proof.
  cbv zeta. split; [apply answering_buffering; intros _; vm_compute; repeat constructor|]. split; [apply endless_of|].
  split; [intros n; unfold reset_calls, in_turn; destruct (Nat.even n); exact I|].
  split; [cbn; repeat split; repeat constructor|].
  split; [exact (resets_go_on test_vendor)|]. split; [exact (reset_patient test_vendor)|]. split; [exact (in_turn_reads test_vendor _ _ _ _ _ (reset_write _) (reset_read _))|].
  unfold may_send. vm_compute. repeat split; discriminate.
Qed.

(** ** C112: a host that counts data packets gets its buffers back

    The host of C104 sends data only while its count of packets is below the number
    of buffers it was told.  If it has been told, goes on reading, what is sent gets
    there, and the controller, unless more data come, has a buffer free at some time,
    then the host may send data again and again. *)
Theorem C112_buffer_comes F V St E (C : controller St E) h calls states results size number d : buffering C h ->
  endless (data_perform F V C) calls states results -> (forall n, typed_data_operation F V (calls n)) -> possible h (states 0%nat) ->
  frees F size number h states d ->
  (forall n, careful (until calls results n)) -> again_and_again (fun n => calls n = Fetch) ->
  (exists n, limits (until calls results n) <> None) ->
  again_and_again (fun n => may_transmit (until calls results n)).
Proof. exact (fun HB R T S G => buffer_comes_back F V C h HB calls states results R T S size number d G). Qed.
Print Assumptions C112_buffer_comes.

(** One buffer, which is filled and freed for ever: after each packet the host has to
    wait. *)
Example C112_case :
  let call := data_perform F41 test_vendor one_buffer_controller in
  let states := states_of call one_buffer_calls empty_queue in let results := results_of call one_buffer_calls empty_queue in
  buffering one_buffer_controller queue_history
  /\ endless call one_buffer_calls states results
  /\ (forall n, typed_data_operation F41 test_vendor (one_buffer_calls n)) /\ possible queue_history (states 0%nat)
  /\ frees F41 27 1 queue_history states one_buffer_device
  /\ (forall n, careful (until one_buffer_calls results n)) /\ again_and_again (fun n => @one_buffer_calls test_vendor n = Fetch)
  /\ limits (until one_buffer_calls results 2) = Some (27, 1)
  /\ may_transmit (until one_buffer_calls results 2) /\ ~ may_transmit (until one_buffer_calls results 3)
  /\ data_sent (until one_buffer_calls results 7) = [0x40; 0x40; 0x40].
Proof.
  cbv zeta. split; [apply answering_buffering; intros l; destruct (nth 0 l 0 =? 1); vm_compute; repeat constructor|]. split; [apply endless_of|].
  split.
  { intros n. unfold one_buffer_calls, in_turn. destruct (Nat.even n); [|exact I]. destruct (Nat.div2 n); [exact I|].
    exists 0x40, 0, [7]. repeat split; [repeat constructor..|]. left. split; reflexivity. }
  split; [cbn; repeat split; repeat constructor|].
  split; [exact (one_buffer_frees test_vendor)|]. split; [exact (one_buffer_careful test_vendor)|]. split; [exact (in_turn_reads test_vendor _ _ _ _ _ (one_buffer_write _) (one_buffer_read _))|].
  split; [vm_compute; reflexivity|]. split; [|split; [|vm_compute; reflexivity]].
  - exists [], 27, 1. split; [exists [[]]; split; [vm_compute; repeat constructor|reflexivity]|]. split; reflexivity.
  - intros (out & size & number & (ls & H1 & H2) & H3 & H4). vm_compute in H3. injection H3 as <- <-.
    vm_compute in H1. inversion H1 as [|? l ? ls' K1 K2]; subst. inversion K2; subst.
    vm_compute in H4. discriminate H4.
Qed.
