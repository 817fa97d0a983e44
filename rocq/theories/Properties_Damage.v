(** * Damaged packets: C92. *)
From Verif Require Import Base Model_Types Model_EventBase Model_Event Model_Host Spec_Wire Spec_Errors Spec_Link
  Spec_Example Spec_Damage Proofs_Link Proofs_Damage.
Open Scope list_scope.

(** ** C92: a damaged byte harms its own packet only

    Refuted as stated: with a damaged length the next packet is swallowed, and
    its event is not reported by any number of reads. *)
Theorem C92_refuted F V : exists p q b s,
  event_packet p /\ event_packet q /\ byte b /\ possible queue_history s
  /\ pending queue_history s s = damaged_frames [] 2 b p [q]
  /\ exists ev, @uart_result F V N q = Ok (PEvent ev)
     /\ forall n, ~ In (Ok (PEvent ev)) (snd (repeated (uart_read F V queue_controller) n s)).
Proof. exact (neighbour_swallowed F V). Qed.
Print Assumptions C92_refuted.
Theorem C92_link_refuted F V : exists p q b s,
  event_packet p /\ event_packet q /\ byte b /\ possible queue_history s
  /\ pending queue_history s s = damaged_packets [] 1 b p [q]
  /\ exists ev, @link_result F V N q = Ok ev
     /\ forall n, ~ In (Ok ev) (snd (repeated (link_read F V queue_controller) n s)).
Proof. exact (neighbour_swallowed_link F V). Qed.
Print Assumptions C92_link_refuted.

(** Whatever is damaged, the packets before are reported as sent. *)
Theorem C92_before F V St E (C : controller St E) h before i b p after rest s : buffering C h ->
  possible h s -> Forall event_packet before ->
  pending h s s = damaged_frames before i b p after ++ rest ->
  let (s', rs) := repeated (uart_read F V C) (length before) s in
  rs = map (uart_result F V) before.
Proof. exact (fun HB => damaged_any F V C h HB before i b p after rest s). Qed.
Print Assumptions C92_before.

(** The event code or a parameter: all others are reported as sent, and the
    damaged one is decoded as it arrived. *)
Theorem C92_uart F V St E (C : controller St E) h before i b p after rest s : buffering C h ->
  possible h s -> Forall event_packet before -> event_packet p -> Forall event_packet after -> byte b ->
  (0 < i)%nat -> i <> 2%nat -> (i < length (uart_frame p))%nat ->
  pending h s s = damaged_frames before i b p after ++ rest ->
  let (s', rs) := repeated (uart_read F V C) (length before + (1 + length after)) s in
  rs = map (uart_result F V) before ++ [uart_result F V (damaged (i - 1) b p)] ++ map (uart_result F V) after.
Proof. exact (fun HB => damaged_uart F V C h HB before i b p after rest s). Qed.
Print Assumptions C92_uart.

(** The packet type: nothing after it is reported, however often it is tried. *)
Theorem C92_type F V St E (C : controller St E) h before b p after rest s n : buffering C h ->
  possible h s -> Forall event_packet before -> b <> 0x04 ->
  pending h s s = damaged_frames before 0 b p after ++ rest ->
  let (s', rs) := repeated (uart_read F V C) (length before + n) s in
  rs = map (uart_result F V) before ++ repeat (Err (Other (UBadPacketType b))) n.
Proof. exact (fun HB => damaged_type F V C h HB before b p after rest s n). Qed.
Print Assumptions C92_type.

(** Over an event link. *)
Theorem C92_link F V St E (C : controller St E) h before i b p after rest s : buffering C h ->
  possible h s -> Forall event_packet before -> event_packet p -> Forall event_packet after -> byte b ->
  i <> 1%nat -> (i < length p)%nat ->
  pending h s s = damaged_packets before i b p after ++ rest ->
  let (s', rs) := repeated (link_read F V C) (length before + (1 + length after)) s in
  rs = map (link_result F V) before ++ [link_result F V (damaged i b p)] ++ map (link_result F V) after.
Proof. exact (fun HB => damaged_link F V C h HB before i b p after rest s). Qed.
Print Assumptions C92_link.
Theorem C92_link_before F V St E (C : controller St E) h before i b p after rest s : buffering C h ->
  possible h s -> Forall event_packet before ->
  pending h s s = damaged_packets before i b p after ++ rest ->
  let (s', rs) := repeated (link_read F V C) (length before) s in
  rs = map (link_result F V) before.
Proof. exact (fun HB => damaged_link_any F V C h HB before i b p after rest s). Qed.
Print Assumptions C92_link_before.

(** The second of three events is damaged: its parameter, its event code, its
    packet type, its length. *)
Definition C92_packets (i : nat) (b : N) : list N :=
  damaged_frames [[0x10; 1; 0x42]] i b [0x1A; 1; 0] [[0x10; 1; 0x43]].
Definition C92_queue (l : list N) : queue :=
  {| q_received := l; q_consumed := 0; q_arrivals := []; q_written := []; q_ready := [] |}.
Definition C92_results (i : nat) (b : N) :=
  snd (repeated (uart_read F41 test_vendor queue_controller) 4 (C92_queue (C92_packets i b))).
Example C92_case :
  buffering queue_controller queue_history
  /\ Forall event_packet [[0x10; 1; 0x42]; [0x1A; 1; 0]; [0x10; 1; 0x43]]
  /\ possible queue_history (C92_queue (C92_packets 3 1))
  /\ pending queue_history (C92_queue (C92_packets 3 1)) (C92_queue (C92_packets 3 1))
     = [4; 0x10; 1; 0x42; 4; 0x1A; 1; 1; 4; 0x10; 1; 0x43]
  /\ C92_results 3 1
     = [Ok (PEvent (EvHardwareError (Build_hardware_error 0x42)));
        Ok (PEvent (EvDataBufferOverflow (Build_data_buffer_overflow Acl)));
        Ok (PEvent (EvHardwareError (Build_hardware_error 0x43))); Err WouldBlock]
  /\ C92_results 1 0x77
     = [Ok (PEvent (EvHardwareError (Build_hardware_error 0x42)));
        Err (Other (UBLE (EUnknownEvent 0x77)));
        Ok (PEvent (EvHardwareError (Build_hardware_error 0x43))); Err WouldBlock]
  /\ C92_results 0 5
     = [Ok (PEvent (EvHardwareError (Build_hardware_error 0x42)));
        Err (Other (UBadPacketType 5)); Err (Other (UBadPacketType 5)); Err (Other (UBadPacketType 5))]
  /\ C92_results 2 5
     = [Ok (PEvent (EvHardwareError (Build_hardware_error 0x42)));
        Err (Other (UBLE (EBadLength 5 1))); Err WouldBlock; Err WouldBlock].
Proof.
  split; [exact queue_buffering|].
  split. { repeat constructor; [exists 0x10, [0x42]|exists 0x1A, [0]|exists 0x10, [0x43]]; repeat split; repeat constructor. }
  split; [split; [repeat constructor|split; [cbn; lia|constructor]]|].
  repeat split; vm_compute; reflexivity.
Qed.
Definition C92_link_results (i : nat) (b : N) :=
  snd (repeated (link_read F41 test_vendor queue_controller) 4
    (C92_queue (damaged_packets [[0x10; 1; 0x42]] i b [0x1A; 1; 0] [[0x10; 1; 0x43]]))).
Example C92_link_case :
  let s := C92_queue (damaged_packets [[0x10; 1; 0x42]] 2 1 [0x1A; 1; 0] [[0x10; 1; 0x43]]) in
  possible queue_history s
  /\ pending queue_history s s = [0x10; 1; 0x42; 0x1A; 1; 1; 0x10; 1; 0x43]
  /\ C92_link_results 2 1
     = [Ok (EvHardwareError (Build_hardware_error 0x42)); Ok (EvDataBufferOverflow (Build_data_buffer_overflow Acl));
        Ok (EvHardwareError (Build_hardware_error 0x43)); Err WouldBlock]
  /\ C92_link_results 1 3
     = [Ok (EvHardwareError (Build_hardware_error 0x42)); Err (Other (LBLE (EBadLength 3 1)));
        Err WouldBlock; Err WouldBlock].
Proof.
  cbv zeta. split; [split; [repeat constructor|split; [cbn; lia|constructor]]|]. repeat split; vm_compute; reflexivity.
Qed.
