(** * Data packets between commands and events (property C103). *)
From Verif Require Import Base Model_Types Model_EventBase Model_Command Model_Event Model_Host
  Spec_Wire Spec_Errors Spec_Host Spec_Link Spec_Example Spec_Split Spec_Data
  Proofs_Base Proofs_Link Proofs_Queue Proofs_Data.
Open Scope list_scope.
Open Scope N_scope.

(** ** C103: data packets can travel beside commands and events

    [read] stops at data packets and leaves them with the controller (C36).  A
    program that then takes the packet from the controller itself gets every
    event and every data packet, in order and unchanged; and if it also writes
    data packets itself, the bytes written are the commands and the data packets
    it was told were sent, which a receiver tells apart. *)
Theorem C103_session F V St E (C : controller St E) h os s :
  contract C h -> Forall (typed_data_operation F V) os -> possible h s ->
  let (s', log) := data_session F V C os s in
  map fst log = os
  /\ (exists out, written h s' = written h s ++ out /\ parse_packets out = Some (put_out V log))
  /\ exists ws, Forall incoming_packet ws /\ parse_packets (flat_map wire_bytes ws) = Some ws
      /\ (exists more, pending h s s' = flat_map wire_bytes ws ++ more)
      /\ consumed h s' = (consumed h s + length (flat_map wire_bytes ws))%nat
      /\ got V log = map (arrives_as F V) ws.
Proof. exact (fun HC => data_session_spec F V C h HC os s). Qed.
Print Assumptions C103_session.
(** One read takes one packet, or nothing. *)
Theorem C103_read F V St E (C : controller St E) h s : contract C h -> possible h s ->
  let (s', r) := read_any F V C s in
  match r with
  | Some a => exists w, incoming_packet w /\ took h s s' (wire_bytes w) /\ a = arrives_as F V w
  | None => nothing h s s'
  end.
Proof. exact (fun HC => read_any_cases F V C h HC s). Qed.
Print Assumptions C103_read.
(** With a controller that delivers what it has received, packets that have been
    received are all delivered: nothing is in the way. *)
Theorem C103_delivered F V St E (C : controller St E) h ws rest s : buffering C h -> Forall incoming_packet ws ->
  possible h s -> pending h s s = flat_map wire_bytes ws ++ rest ->
  let (s', rs) := repeated (read_any F V C) (length ws) s in
  rs = map (fun w => Some (arrives_as F V w)) ws /\ took h s s' (flat_map wire_bytes ws).
Proof. exact (fun HB Hws => data_deliver F V C h HB ws Hws rest s). Qed.
Print Assumptions C103_delivered.

Example C103_case :
  let out : N * list N := (0x02, [0x01; 0x20; 2; 0; 0x55; 0x04]) in
  let os := [Fetch; Order (CLeSetAdvertisingData [7; 8]); Fetch; Transmit out; Fetch; Order (CLeSetAdvertisingData (repeat 7 32));
             Transmit out; Fetch; Fetch; Fetch; Order CReset; Fetch; Fetch] in
  contract queue_controller queue_history
  /\ Forall (typed_data_operation F41 test_vendor) os /\ possible queue_history data_queue
  /\ Forall incoming_packet data_stream
  /\ let (s', log) := data_session F41 test_vendor queue_controller os data_queue in
     map snd log
     = [Fetched (Some (Reported (Ok (PEvent (EvHardwareError (Build_hardware_error 0x42))))));
        Ordered (Checked (Ok tt)); Fetched None; Transmitted (Err WouldBlock);
        Fetched (Some (Data 0x02 [0x01; 0x20; 3; 0; 7; 8; 9]));
        Ordered (Checked (Err (Other (HAdvertisingDataTooLong 32)))); Transmitted (Ok tt);
        Fetched (Some (Reported (Err (Other (UBLE (EUnknownEvent 0x77)))))); Fetched (Some (Data 0x03 [0x02; 0x00; 1; 5]));
        Fetched None; Ordered (Plain (Ok tt)); Fetched None; Fetched None]
     /\ put_out test_vendor log
        = [(0x01, link_bytes (V := test_vendor) (CLeSetAdvertisingData [7; 8])); out; (0x01, [0x03; 0x0C; 0])]
     /\ parse_packets (q_written s') = Some (put_out test_vendor log)
     /\ got test_vendor log = map (arrives_as F41 test_vendor) data_stream
     /\ q_consumed s' = length (flat_map wire_bytes data_stream).
Proof.
  cbv zeta. split; [exact (buffering_contract _ _ queue_buffering)|].
  assert (D : forall t a b l d, t < 256 -> byte a -> byte b -> bytes d ->
    (t = 0x02 /\ l = le 2 (N.of_nat (length d)) /\ N.of_nat (length d) < 65536)
    \/ (t = 0x03 /\ l = le 1 (N.of_nat (length d)) /\ N.of_nat (length d) < 256) -> data_packet (t, [a; b] ++ l ++ d)).
  { intros t a b l d _ Ha Hb Hd [(-> & -> & L)|(-> & -> & L)]; exists a, b, d; auto 8. }
  assert (Fits : byte 1 /\ byte 32 /\ byte 2 /\ byte 0 /\ bytes [0x55; 4] /\ bytes [7; 8; 9] /\ bytes [5]).
  { unfold bytes, byte. repeat split; try lia; repeat constructor. }
  destruct Fits as (B1 & B32 & B2 & B0 & L1 & L2 & L3).
  split.
  { repeat constructor; cbn [typed_data_operation arguments_typed]; try exact I;
      try (apply (D 2 1 32 [2; 0] [0x55; 4]); auto; left; vm_compute; auto).
    all: try (unfold bytes; repeat constructor). }
  split; [split; [repeat constructor|split; [cbn; lia|repeat constructor]]|].
  split.
  { constructor; [left; split; [reflexivity|]; exists 0x10, [0x42]; repeat split; try (unfold byte; lia); repeat constructor|].
    constructor; [right; apply (D 2 1 32 [3; 0] [7; 8; 9]); auto; left; vm_compute; auto|].
    constructor; [left; split; [reflexivity|]; exists 0x77, []; repeat split; try (unfold byte; lia); try constructor; cbn; lia|].
    constructor; [right; apply (D 3 2 0 [1] [5]); auto; right; vm_compute; auto|constructor]. }
  vm_compute. repeat split.
Qed.
