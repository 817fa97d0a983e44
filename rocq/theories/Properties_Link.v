(** * Reading events and sessions: C34-C38. *)
From Verif Require Import Base Model_Types Model_EventBase Model_Command Model_Event Model_Host
  Spec_Wire Spec_Errors Spec_Host Spec_Link Spec_Example Proofs_Link Proofs_Queue.

(** There are controllers that keep the contract. *)
Theorem C34_contract_met : buffering queue_controller queue_history.
Proof. exact queue_buffering. Qed.
Print Assumptions C34_contract_met.
Example C34_contract_case : possible queue_history example_queue.
Proof. split; [constructor|]. split; [cbn; lia|repeat constructor]. Qed.

(** ** C34 UART read consumes nothing until a whole packet is available *)

(** A read that does not report a packet has consumed nothing. *)
Theorem C34_nothing_lost F V St E (C : controller St E) h s : contract C h -> possible h s ->
  let (s', r) := uart_read F V C s in
  uart_reports V r = false -> nothing h s s'.
Proof. exact (uart_nothing_lost F V C h s). Qed.
Print Assumptions C34_nothing_lost.

(** With a controller that buffers, the result depends only on the bytes that
    have arrived by then, however they were split. *)
Theorem C34_result F V St E (C : controller St E) h s : buffering C h -> possible h s ->
  let (s', r) := uart_read F V C s in
  match uart_front (pending h s s') with
  | Whole p => r = uart_result F V p /\ took h s s' (uart_frame p)
  | Foreign t => r = Err (Other (UBadPacketType t)) /\ nothing h s s'
  | Incomplete => r = Err WouldBlock /\ nothing h s s'
  end.
Proof. exact (fun HB => uart_read_front F V C h HB s). Qed.
Print Assumptions C34_result.
Example C34_result_case :
  let (s1, r1) := uart_read F41 test_vendor queue_controller example_queue in
  let (s2, r2) := uart_read F41 test_vendor queue_controller s1 in
  r1 = Ok (PEvent (EvHardwareError (Build_hardware_error 0x42)))
  /\ q_consumed s1 = 4%nat
  /\ r2 = Ok (PEvent (EvDataBufferOverflow (Build_data_buffer_overflow Sco)))
  /\ q_consumed s2 = 8%nat
  /\ snd (uart_read F41 test_vendor queue_controller s2) = Err WouldBlock.
Proof. vm_compute. auto. Qed.

(** All packets that are sent are reported, in order, after as many reads as
    there are packets and chunks. *)
Theorem C34_everything_arrives F V ps s n : possible queue_history s -> Forall event_packet ps ->
  q_pending s ++ concat (q_arrivals s) = flat_map uart_frame ps ->
  (length ps + length (q_arrivals s) <= n)%nat ->
  filter (uart_reports V) (snd (repeated (uart_read F V queue_controller) n s))
  = map (uart_result F V) ps.
Proof. exact (queue_delivers F V n ps s). Qed.
Print Assumptions C34_everything_arrives.
Example C34_everything_case :
  Forall event_packet [[0x10; 1; 0x42]; [0x1A; 1; 0]]
  /\ q_pending example_queue ++ concat (q_arrivals example_queue)
     = flat_map uart_frame [[0x10; 1; 0x42]; [0x1A; 1; 0]]
  /\ snd (repeated (uart_read F41 test_vendor queue_controller) 3 example_queue)
     = [Ok (PEvent (EvHardwareError (Build_hardware_error 0x42))); Ok (PEvent (EvDataBufferOverflow (Build_data_buffer_overflow Sco))); Err WouldBlock].
Proof.
  split; [|split; vm_compute; reflexivity].
  repeat constructor; [exists 0x10, [0x42]|exists 0x1A, [0]]; repeat split; repeat constructor.
Qed.

(** ** C35 UART read stays in sync with packet boundaries *)

(** The reports of any number of reads are those of packets that were received
    one after another, and exactly these packets were consumed. *)
Theorem C35_in_sync F V St E (C : controller St E) h n s : contract C h -> possible h s ->
  let (s', rs) := repeated (uart_read F V C) n s in
  exists ps, Forall event_packet ps /\ took h s s' (flat_map uart_frame ps)
    /\ filter (uart_reports V) rs = map (uart_result F V) ps.
Proof. exact (fun HC => uart_reads F V C h HC n s). Qed.
Print Assumptions C35_in_sync.

(** Packets that have been received are reported one by one, malformed ones
    included. *)
Theorem C35_delivered F V St E (C : controller St E) h ps rest s : buffering C h -> possible h s ->
  Forall event_packet ps -> pending h s s = flat_map uart_frame ps ++ rest ->
  let (s', rs) := repeated (uart_read F V C) (length ps) s in
  rs = map (uart_result F V) ps /\ took h s s' (flat_map uart_frame ps).
Proof. exact (fun HB Hs Hps => uart_deliver F V C h HB ps Hps rest s Hs). Qed.
Print Assumptions C35_delivered.
Example C35_case :
  let s := {| q_received := [0x04; 0x77; 0x02; 9; 9; 0x04; 0x10; 1; 0x42; 0x04]; q_consumed := 0;
              q_arrivals := []; q_written := []; q_ready := [] |} in
  possible queue_history s
  /\ pending queue_history s s = flat_map uart_frame [[0x77; 2; 9; 9]; [0x10; 1; 0x42]] ++ [0x04]
  /\ snd (repeated (uart_read F41 test_vendor queue_controller) 3 s)
     = [Err (Other (UBLE (EUnknownEvent 0x77))); Ok (PEvent (EvHardwareError (Build_hardware_error 0x42))); Err WouldBlock].
Proof.
  cbv zeta. split; [split; [repeat constructor|split; [cbn; lia|constructor]]|].
  split; vm_compute; reflexivity.
Qed.

(** ** C36 A read that meets a foreign packet type *)

(** It is reported (by a controller that buffers, at once and every time). *)
Theorem C36_reported F V St E (C : controller St E) h n s t : buffering C h -> possible h s ->
  nth_error (pending h s s) 0 = Some t -> t <> 0x04 ->
  let (s', rs) := repeated (uart_read F V C) n s in
  rs = repeat (Err (Other (UBadPacketType t))) n /\ nothing h s s'.
Proof. exact (fun HB => foreign_buffered F V C h HB n s t). Qed.
Print Assumptions C36_reported.

(** On no controller do reads ever get past it. *)
Theorem C36_progress_refuted F V St E (C : controller St E) h n s t : contract C h -> possible h s ->
  nth_error (pending h s s) 0 = Some t -> t <> 0x04 ->
  let (s', rs) := repeated (uart_read F V C) n s in
  nothing h s s'
  /\ Forall (fun r => r = Err (Other (UBadPacketType t)) \/ r = Err WouldBlock
                      \/ exists e, r = Err (Other (UComm e))) rs.
Proof. exact (fun HC => foreign_stuck F V C h HC n s t). Qed.
Print Assumptions C36_progress_refuted.
Example C36_case :
  let s := {| q_received := [0x02; 0x04; 0x10; 1; 0x42]; q_consumed := 0;
              q_arrivals := []; q_written := []; q_ready := [] |} in
  possible queue_history s /\ nth_error (pending queue_history s s) 0 = Some 0x02
  /\ snd (repeated (uart_read F41 test_vendor queue_controller) 2 s)
     = [Err (Other (UBadPacketType 2)); Err (Other (UBadPacketType 2))].
Proof.
  cbv zeta. split; [split; [repeat constructor|split; [cbn; lia|constructor]]|].
  split; vm_compute; reflexivity.
Qed.

(** ** C37 event_link read is the same framing without the packet type *)
Theorem C37_nothing_lost F V St E (C : controller St E) h s : contract C h -> possible h s ->
  let (s', r) := link_read F V C s in
  link_reports V r = false -> nothing h s s'.
Proof. exact (link_nothing_lost F V C h s). Qed.
Print Assumptions C37_nothing_lost.

Theorem C37_result F V St E (C : controller St E) h s : buffering C h -> possible h s ->
  let (s', r) := link_read F V C s in
  match link_front (pending h s s') with
  | Whole p => r = link_result F V p /\ took h s s' p
  | _ => r = Err WouldBlock /\ nothing h s s'
  end.
Proof. exact (fun HB => link_read_front F V C h HB s). Qed.
Print Assumptions C37_result.

Theorem C37_in_sync F V St E (C : controller St E) h n s : contract C h -> possible h s ->
  let (s', rs) := repeated (link_read F V C) n s in
  exists ps, Forall event_packet ps /\ took h s s' (concat ps)
    /\ filter (link_reports V) rs = map (link_result F V) ps.
Proof. exact (fun HC => link_reads F V C h HC n s). Qed.
Print Assumptions C37_in_sync.

Theorem C37_delivered F V St E (C : controller St E) h ps rest s : buffering C h -> possible h s ->
  Forall event_packet ps -> pending h s s = concat ps ++ rest ->
  let (s', rs) := repeated (link_read F V C) (length ps) s in
  rs = map (link_result F V) ps /\ took h s s' (concat ps).
Proof. exact (fun HB Hs Hps => link_deliver F V C h HB ps Hps rest s Hs). Qed.
Print Assumptions C37_delivered.

(** All packets that are sent are reported, in order, after as many reads as
    there are packets and chunks. *)
Theorem C37_everything_arrives F V ps s n : possible queue_history s -> Forall event_packet ps ->
  q_pending s ++ concat (q_arrivals s) = concat ps ->
  (length ps + length (q_arrivals s) <= n)%nat ->
  filter (link_reports V) (snd (repeated (link_read F V queue_controller) n s))
  = map (link_result F V) ps.
Proof. exact (queue_link_delivers F V n ps s). Qed.
Print Assumptions C37_everything_arrives.
Example C37_case :
  let s := {| q_received := [0x77; 0x02; 9]; q_consumed := 0;
              q_arrivals := [[9; 0x10; 1]; [0x42; 0x10]]; q_written := []; q_ready := [] |} in
  possible queue_history s
  /\ snd (repeated (link_read F41 test_vendor queue_controller) 3 s)
     = [Err (Other (LBLE (EUnknownEvent 0x77))); Ok (EvHardwareError (Build_hardware_error 0x42)); Err WouldBlock].
Proof.
  cbv zeta. split; [split; [repeat constructor|split; [cbn; lia|repeat constructor]]|].
  vm_compute; reflexivity.
Qed.

(** ** C38 Sessions: reads and commands do not disturb each other *)
Theorem C38_session F V St E (C : controller St E) h os s : contract C h ->
  Forall (typed_operation F) os -> possible h s ->
  let (s', log) := session F V C os s in
  map fst log = os
  /\ written h s' = written h s ++ flat_map command_bytes (sent_commands log)
  /\ exists ps, Forall event_packet ps
      /\ (exists more, pending h s s' = flat_map uart_frame ps ++ more)
      /\ consumed h s' = (consumed h s + length (flat_map uart_frame ps))%nat
      /\ received_packets log = map (uart_result F V) ps.
Proof. exact (fun HC => session_spec F V C h HC os s). Qed.
Print Assumptions C38_session.
Example C38_case :
  let os := [Send CReset; Receive; Send CReset; Receive; Send (CLeReceiverTest 0x28)] in
  Forall (typed_operation F41) os
  /\ let (s, log) := session F41 test_vendor queue_controller os example_queue in
     q_written s = [0x01; 0x03; 0x0C; 0x00] /\ q_consumed s = 8%nat
     /\ map snd log = [Sent (Plain (Err WouldBlock)); Received (Ok (PEvent (EvHardwareError (Build_hardware_error 0x42))));
                       Sent (Plain (Ok tt)); Received (Ok (PEvent (EvDataBufferOverflow (Build_data_buffer_overflow Sco))));
                       Sent (Checked (Err (Other (HInvalidTestChannel 0x28))))].
Proof. cbv zeta. split; [repeat constructor|]. vm_compute. auto. Qed.
