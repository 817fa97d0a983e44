(** * What is read from any bytes, however they arrive: C100. *)
From Verif Require Import Base Model_Types Model_EventBase Model_Event Model_Host
  Spec_Wire Spec_Errors Spec_Host Spec_Link Spec_Split Spec_Example Spec_Reading
  Proofs_Base Proofs_Link Proofs_Reading.
Open Scope list_scope.
Open Scope N_scope.

(** ** C100: what is read depends on the bytes alone

    Whatever the bytes, the controller, the arrivals and the commands in between:
    what the reads report of packets is what the packets in the bytes decode to,
    from the first on, none left out. *)
Theorem C100_uart F V St E (C : controller St E) h os s : contract C h ->
  Forall (typed_operation F) os -> possible h s ->
  let (s', log) := session F V C os s in
  begins (read_of log) (map (event_new F V) (uart_packets_in (pending h s s'))).
Proof. exact (uart_reads F V C h os s). Qed.
Print Assumptions C100_uart.

Theorem C100_split F V St E (C : controller St E) h os s : contract C h ->
  Forall (typed_operation F) os -> possible h s ->
  let (s', log) := split_session F V C os s in
  begins (split_read_of log) (map (event_new F V) (link_packets_in (pending h s s'))).
Proof. exact (split_reads F V C h os s). Qed.
Print Assumptions C100_split.

(** The packets in any bytes are all those that fit at their start. *)
Theorem C100_packets l : bytes l ->
  (Forall event_packet (uart_packets_in l)
   /\ exists rest, l = flat_map uart_frame (uart_packets_in l) ++ rest)
  /\ (Forall event_packet (link_packets_in l) /\ exists rest, l = concat (link_packets_in l) ++ rest)
  /\ (forall ps more, Forall event_packet ps -> l = flat_map uart_frame ps ++ more -> begins ps (uart_packets_in l))
  /\ (forall ps more, Forall event_packet ps -> l = concat ps ++ more -> begins ps (link_packets_in l)).
Proof. exact (packets_exactly l). Qed.
Print Assumptions C100_packets.

(** Read by read until one finds nothing: all of them, and the reason for the end. *)
Theorem C100_uart_all F V St E (C : controller St E) h os s s' log r : buffering C h ->
  Forall (typed_operation F) os -> possible h s ->
  session F V C (os ++ [Receive]) s = (s', log ++ [(Receive, Received r)]) -> uart_reports V r = false ->
  read_of log = map (event_new F V) (uart_packets_in (pending h s s'))
  /\ r = match uart_end (pending h s s') with
         | Foreign t => Err (Other (UBadPacketType t))
         | _ => Err WouldBlock
         end.
Proof. exact (uart_reads_all F V C h os s s' log r). Qed.
Print Assumptions C100_uart_all.

Theorem C100_split_all F V St E (C : controller St E) h os s s' log r : buffering C h ->
  Forall (typed_operation F) os -> possible h s ->
  split_session F V C (os ++ [Receive]) s = (s', log ++ [(Receive, SplitReceived r)]) -> link_reports V r = false ->
  split_read_of log = map (event_new F V) (link_packets_in (pending h s s')) /\ r = Err WouldBlock.
Proof. exact (split_reads_all F V C h os s s' log r). Qed.
Print Assumptions C100_split_all.

(** So two hosts that get the same bytes, from whatever controllers, at whatever
    times, doing whatever else, never read different things. *)
Theorem C100_same F V St1 E1 St2 E2 (C1 : controller St1 E1) h1 (C2 : controller St2 E2) h2 os1 os2 s1 s2 :
  contract C1 h1 -> contract C2 h2 -> Forall (typed_operation F) os1 -> Forall (typed_operation F) os2 ->
  possible h1 s1 -> possible h2 s2 ->
  let (s1', log1) := session F V C1 os1 s1 in
  let (s2', log2) := session F V C2 os2 s2 in
  begins (pending h1 s1 s1') (pending h2 s2 s2') ->
  begins (read_of log1) (read_of log2) \/ begins (read_of log2) (read_of log1).
Proof. exact (uart_reads_same F V C1 h1 C2 h2 os1 os2 s1 s2). Qed.
Print Assumptions C100_same.

Theorem C100_split_same F V St1 E1 St2 E2 (C1 : controller St1 E1) h1 (C2 : controller St2 E2) h2 os1 os2 s1 s2 :
  contract C1 h1 -> contract C2 h2 -> Forall (typed_operation F) os1 -> Forall (typed_operation F) os2 ->
  possible h1 s1 -> possible h2 s2 ->
  let (s1', log1) := split_session F V C1 os1 s1 in
  let (s2', log2) := split_session F V C2 os2 s2 in
  begins (pending h1 s1 s1') (pending h2 s2 s2') ->
  begins (split_read_of log1) (split_read_of log2) \/ begins (split_read_of log2) (split_read_of log1).
Proof. exact (split_reads_same F V C1 h1 C2 h2 os1 os2 s1 s2). Qed.
Print Assumptions C100_split_same.

(** A good packet, one with a wrong length, then something else; at once, and byte
    by byte with reads that block in between. *)
Definition C100_bytes : list N := [0x04; 0x10; 1; 7; 0x04; 0x10; 2; 1; 2; 0x02; 9].
Definition C100_at_once : queue :=
  {| q_received := C100_bytes; q_consumed := 0; q_arrivals := []; q_written := []; q_ready := [] |}.
Definition C100_bytewise : queue :=
  {| q_received := []; q_consumed := 0; q_arrivals := map (fun b => [b]) C100_bytes; q_written := []; q_ready := [] |}.
Example C100_case :
  possible queue_history C100_at_once /\ possible queue_history C100_bytewise
  /\ uart_packets_in C100_bytes = [[0x10; 1; 7]; [0x10; 2; 1; 2]] /\ uart_end C100_bytes = Foreign 0x02
  /\ let (s1, log1) := session F41 test_vendor queue_controller (repeat Receive 3) C100_at_once in
     let (s2, log2) := session F41 test_vendor queue_controller (repeat Receive 9) C100_bytewise in
     pending queue_history C100_at_once s1 = C100_bytes
     /\ pending queue_history C100_bytewise s2 = C100_bytes
     /\ read_of log1 = [Ok (EvHardwareError (Build_hardware_error 7)); Err (EBadLength 2 1)]
     /\ read_of log2 = read_of log1
     /\ map snd (skipn 2 log1) = [Received (Err (Other (UBadPacketType 0x02)))]
     /\ map snd (firstn 1 log2) = [Received (Err WouldBlock)].
Proof.
  split; [cbn; split; [repeat constructor|split; [lia|constructor]]|].
  split; [cbn; split; [constructor|split; [lia|repeat (constructor; [repeat constructor|]); constructor]]|].
  vm_compute. repeat split.
Qed.
Definition C100_link_bytes : list N := [0x10; 1; 7; 0x10; 2; 1; 2; 0x02; 9].
Example C100_split_case :
  let once := {| q_received := C100_link_bytes; q_consumed := 0; q_arrivals := []; q_written := []; q_ready := [] |} in
  let bytewise := {| q_received := []; q_consumed := 0; q_arrivals := map (fun b => [b]) C100_link_bytes;
                     q_written := []; q_ready := [] |} in
  possible queue_history once /\ possible queue_history bytewise
  /\ link_packets_in C100_link_bytes = [[0x10; 1; 7]; [0x10; 2; 1; 2]]
  /\ let (s1, log1) := split_session F41 test_vendor queue_controller (repeat Receive 3) once in
     let (s2, log2) := split_session F41 test_vendor queue_controller (repeat Receive 9) bytewise in
     pending queue_history once s1 = C100_link_bytes
     /\ pending queue_history bytewise s2 = C100_link_bytes
     /\ split_read_of log1 = [Ok (EvHardwareError (Build_hardware_error 7)); Err (EBadLength 2 1)]
     /\ split_read_of log2 = split_read_of log1
     /\ map snd (skipn 2 log1) = [SplitReceived (Err WouldBlock)].
Proof.
  cbv zeta. split; [cbn; split; [repeat constructor|split; [lia|constructor]]|].
  split; [cbn; split; [constructor|split; [lia|repeat (constructor; [repeat constructor|]); constructor]]|].
  vm_compute. repeat split.
Qed.
