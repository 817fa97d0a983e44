(** * Lost and extra bytes: C98. *)
From Verif Require Import Base Model_Types Model_EventBase Model_Event Model_Host Spec_Wire Spec_Errors Spec_Link
  Spec_Example Spec_Lost Proofs_Link Proofs_Lost.
Open Scope list_scope.

(** ** C98: a lost or extra byte harms its own packet only

    Refuted as stated: after one lost byte the next packet is not reported by any
    number of reads. *)
Theorem C98_refuted F V : exists p q i s,
  event_packet p /\ event_packet q /\ (i < length (uart_frame p))%nat /\ possible queue_history s
  /\ pending queue_history s s = frames_around [] (lost i (uart_frame p)) [q]
  /\ exists ev, @uart_result F V N q = Ok (PEvent ev)
     /\ forall n, ~ In (Ok (PEvent ev)) (snd (repeated (uart_read F V queue_controller) n s)).
Proof. exact (lost_neighbour F V). Qed.
Print Assumptions C98_refuted.
Theorem C98_link_refuted F V : exists p q i s,
  event_packet p /\ event_packet q /\ (i < length p)%nat /\ possible queue_history s
  /\ pending queue_history s s = packets_around [] (lost i p) [q]
  /\ exists ev, @link_result F V N q = Ok ev
     /\ forall n, ~ In (Ok ev) (snd (repeated (link_read F V queue_controller) n s)).
Proof. exact (lost_neighbour_link F V). Qed.
Print Assumptions C98_link_refuted.

(** Whatever comes instead of a packet, the packets before are reported as sent. *)
Theorem C98_before F V St E (C : controller St E) h before broken after rest s : buffering C h ->
  possible h s -> Forall event_packet before ->
  pending h s s = frames_around before broken after ++ rest ->
  let (s', rs) := repeated (uart_read F V C) (length before) s in
  rs = map (uart_result F V) before.
Proof. exact (fun HB => uart_before F V C h HB before broken after rest s). Qed.
Print Assumptions C98_before.
Theorem C98_link_before F V St E (C : controller St E) h before broken after rest s : buffering C h ->
  possible h s -> Forall event_packet before ->
  pending h s s = packets_around before broken after ++ rest ->
  let (s', rs) := repeated (link_read F V C) (length before) s in
  rs = map (link_result F V) before.
Proof. exact (fun HB => link_before F V C h HB before broken after rest s). Qed.
Print Assumptions C98_link_before.

(** UART, a parameter is lost: the packet is decoded with the next packet's type
    for its last parameter, and then the next packet's event code is taken for a
    packet type, at every further read. *)
Theorem C98_parameter F V St E (C : controller St E) h before i p q after rest s n : buffering C h ->
  possible h s -> Forall event_packet before -> event_packet p -> event_packet q ->
  (3 <= i < length (uart_frame p))%nat -> at_ q 0 <> 0x04 ->
  pending h s s = frames_around before (lost i (uart_frame p)) (q :: after) ++ rest ->
  let (s', rs) := repeated (uart_read F V C) (length before + (1 + n)) s in
  rs = map (uart_result F V) before ++ [uart_result F V (lost (i - 1) p ++ [0x04])]
       ++ repeat (Err (Other (UBadPacketType (at_ q 0)))) n.
Proof. exact (fun HB => lost_parameter F V C h HB before i p q after rest s n). Qed.
Print Assumptions C98_parameter.
(** If no further packet comes, the read blocks. *)
Theorem C98_last F V St E (C : controller St E) h i p s : buffering C h ->
  possible h s -> event_packet p -> (3 <= i < length (uart_frame p))%nat ->
  let (s', r) := uart_read F V C s in
  pending h s s' = lost i (uart_frame p) -> r = Err WouldBlock /\ nothing h s s'.
Proof. exact (fun HB => lost_last F V C h HB i p s). Qed.
Print Assumptions C98_last.
(** The packet type is lost. *)
Theorem C98_type F V St E (C : controller St E) h before p after rest s n : buffering C h ->
  possible h s -> Forall event_packet before -> event_packet p -> at_ p 0 <> 0x04 ->
  pending h s s = frames_around before (lost 0 (uart_frame p)) after ++ rest ->
  let (s', rs) := repeated (uart_read F V C) (length before + n) s in
  rs = map (uart_result F V) before ++ repeat (Err (Other (UBadPacketType (at_ p 0)))) n.
Proof. exact (fun HB => lost_type F V C h HB before p after rest s n). Qed.
Print Assumptions C98_type.

(** UART, an extra byte among the parameters or between packets. *)
Theorem C98_extra F V St E (C : controller St E) h before i b p after rest s n : buffering C h ->
  possible h s -> Forall event_packet before -> event_packet p -> byte b ->
  (3 <= i < length (uart_frame p))%nat -> last_byte p <> 0x04 ->
  pending h s s = frames_around before (extra i b (uart_frame p)) after ++ rest ->
  let (s', rs) := repeated (uart_read F V C) (length before + (1 + n)) s in
  rs = map (uart_result F V) before ++ [uart_result F V (removelast (extra (i - 1) b p))]
       ++ repeat (Err (Other (UBadPacketType (last_byte p)))) n.
Proof. exact (fun HB => extra_parameter F V C h HB before i b p after rest s n). Qed.
Print Assumptions C98_extra.
Theorem C98_between F V St E (C : controller St E) h before b p after rest s n : buffering C h ->
  possible h s -> Forall event_packet before -> b <> 0x04 ->
  pending h s s = frames_around before (extra 0 b (uart_frame p)) after ++ rest ->
  let (s', rs) := repeated (uart_read F V C) (length before + n) s in
  rs = map (uart_result F V) before ++ repeat (Err (Other (UBadPacketType b))) n.
Proof. exact (fun HB => extra_between F V C h HB before b p after rest s n). Qed.
Print Assumptions C98_between.

(** Event link: the reader goes on, one byte out of step. *)
Theorem C98_link F V St E (C : controller St E) h before i p q after rest s : buffering C h ->
  possible h s -> Forall event_packet before -> event_packet p -> event_packet q -> (2 <= i < length p)%nat ->
  pending h s s = packets_around before (lost i p) (q :: after) ++ rest ->
  let (s', rs) := repeated (link_read F V C) (length before + 1) s in
  rs = map (link_result F V) before ++ [link_result F V (lost i p ++ [at_ q 0])]
  /\ exists more, pending h s' s' = skipn 1 q ++ concat after ++ rest ++ more.
Proof. exact (fun HB => lost_link F V C h HB before i p q after rest s). Qed.
Print Assumptions C98_link.
Theorem C98_link_extra F V St E (C : controller St E) h before i b p after rest s : buffering C h ->
  possible h s -> Forall event_packet before -> event_packet p -> byte b -> (2 <= i < length p)%nat ->
  pending h s s = packets_around before (extra i b p) after ++ rest ->
  let (s', rs) := repeated (link_read F V C) (length before + 1) s in
  rs = map (link_result F V) before ++ [link_result F V (removelast (extra i b p))]
  /\ exists more, pending h s' s' = last_byte p :: concat after ++ rest ++ more.
Proof. exact (fun HB => extra_link F V C h HB before i b p after rest s). Qed.
Print Assumptions C98_link_extra.

(** Of three packets the second one loses its parameter, or gets one more. *)
Definition C98_queue (l : list N) : queue :=
  {| q_received := l; q_consumed := 0; q_arrivals := []; q_written := []; q_ready := [] |}.
Definition C98_results (broken : list N) :=
  snd (repeated (uart_read F41 test_vendor queue_controller) 4
    (C98_queue (frames_around [[0x10; 1; 0x42]] broken [[0x10; 1; 0x43]]))).
Example C98_case :
  Forall event_packet [[0x10; 1; 0x42]; [0x10; 1; 0x07]; [0x10; 1; 0x43]]
  /\ (let s := C98_queue (frames_around [[0x10; 1; 0x42]] (lost 3 (uart_frame [0x10; 1; 0x07])) [[0x10; 1; 0x43]]) in
      possible queue_history s
      /\ pending queue_history s s = [4; 0x10; 1; 0x42; 4; 0x10; 1; 4; 0x10; 1; 0x43])
  /\ C98_results (lost 3 (uart_frame [0x10; 1; 0x07]))
     = [Ok (PEvent (EvHardwareError (Build_hardware_error 0x42)));
        Ok (PEvent (EvHardwareError (Build_hardware_error 0x04)));
        Err (Other (UBadPacketType 0x10)); Err (Other (UBadPacketType 0x10))]
  /\ C98_results (extra 3 0x09 (uart_frame [0x10; 1; 0x07]))
     = [Ok (PEvent (EvHardwareError (Build_hardware_error 0x42)));
        Ok (PEvent (EvHardwareError (Build_hardware_error 0x09)));
        Err (Other (UBadPacketType 0x07)); Err (Other (UBadPacketType 0x07))]
  /\ C98_results (lost 0 (uart_frame [0x10; 1; 0x07]))
     = Ok (PEvent (EvHardwareError (Build_hardware_error 0x42)))
       :: repeat (Err (Other (UBadPacketType 0x10))) 3.
Proof.
  split. { repeat constructor; [exists 0x10, [0x42]|exists 0x10, [0x07]|exists 0x10, [0x43]]; repeat split; repeat constructor. }
  split; [split; [split; [repeat constructor|split; [cbn; lia|constructor]]|reflexivity]|].
  repeat split; vm_compute; reflexivity.
Qed.
Example C98_last_case :
  (let s := C98_queue (lost 3 (uart_frame [0x10; 1; 0x07])) in
   possible queue_history s
   /\ pending queue_history s (fst (uart_read F41 test_vendor queue_controller s)) = lost 3 (uart_frame [0x10; 1; 0x07])
   /\ snd (uart_read F41 test_vendor queue_controller s) = Err WouldBlock)
  /\ C98_results (extra 0 0x09 (uart_frame [0x10; 1; 0x07]))
     = Ok (PEvent (EvHardwareError (Build_hardware_error 0x42)))
       :: repeat (Err (Other (UBadPacketType 0x09))) 3.
Proof.
  split; [split; [split; [repeat constructor|split; [cbn; lia|constructor]]|split; vm_compute; reflexivity]|].
  vm_compute. reflexivity.
Qed.
Definition C98_link_results (broken : list N) :=
  snd (repeated (link_read F41 test_vendor queue_controller) 3
    (C98_queue (packets_around [[0x10; 1; 0x42]] broken [[0x10; 1; 0x43]]))).
Example C98_link_case :
  (let s := C98_queue (packets_around [[0x10; 1; 0x42]] (lost 2 [0x10; 1; 0x07]) [[0x10; 1; 0x43]]) in
   possible queue_history s /\ pending queue_history s s = [0x10; 1; 0x42; 0x10; 1; 0x10; 1; 0x43])
  /\ C98_link_results (lost 2 [0x10; 1; 0x07])
     = [Ok (EvHardwareError (Build_hardware_error 0x42)); Ok (EvHardwareError (Build_hardware_error 0x10));
        Err WouldBlock]
  /\ C98_link_results (extra 2 0x09 [0x10; 1; 0x07])
     = [Ok (EvHardwareError (Build_hardware_error 0x42)); Ok (EvHardwareError (Build_hardware_error 0x09));
        Err WouldBlock].
Proof.
  split; [split; [split; [repeat constructor|split; [cbn; lia|constructor]]|reflexivity]|].
  repeat split; vm_compute; reflexivity.
Qed.

(** Also with a lost or extra byte in the header: what is read next, if all bytes for it are there, ... *)
Theorem C98_next F V St E (C : controller St E) h before broken after rest code k left s : buffering C h ->
  possible h s -> Forall event_packet before ->
  pending h s s = frames_around before broken after ++ rest ->
  broken ++ flat_map uart_frame after ++ rest = [0x04; code; k] ++ left -> (N.to_nat k <= length left)%nat ->
  let (s', rs) := repeated (uart_read F V C) (length before + 1) s in
  rs = map (uart_result F V) before ++ [uart_result F V ([code; k] ++ firstn (N.to_nat k) left)]
  /\ exists more, pending h s' s' = skipn (N.to_nat k) left ++ more.
Proof. exact (fun HB => uart_next F V C h HB before broken after rest code k left s). Qed.
Print Assumptions C98_next.
Theorem C98_link_next F V St E (C : controller St E) h before broken after rest code k left s : buffering C h ->
  possible h s -> Forall event_packet before ->
  pending h s s = packets_around before broken after ++ rest ->
  broken ++ concat after ++ rest = [code; k] ++ left -> (N.to_nat k <= length left)%nat ->
  let (s', rs) := repeated (link_read F V C) (length before + 1) s in
  rs = map (link_result F V) before ++ [link_result F V ([code; k] ++ firstn (N.to_nat k) left)]
  /\ exists more, pending h s' s' = skipn (N.to_nat k) left ++ more.
Proof. exact (fun HB => link_next F V C h HB before broken after rest code k left s). Qed.
Print Assumptions C98_link_next.
(** ... that nothing is taken if they are not, ... *)
Theorem C98_short F V St E (C : controller St E) h code k left s : buffering C h ->
  possible h s -> (length left < N.to_nat k)%nat ->
  (let (s', r) := uart_read F V C s in
   pending h s s' = [0x04; code; k] ++ left -> r = Err WouldBlock /\ nothing h s s')
  /\ (let (s', r) := link_read F V C s in
      pending h s s' = [code; k] ++ left -> r = Err WouldBlock /\ nothing h s s').
Proof.
  exact (fun HB Hs L => conj (uart_short F V C h HB code k left s Hs L) (link_short F V C h HB code k left s Hs L)).
Qed.
Print Assumptions C98_short.
(** ... and which bytes take the place of the event code and of the length. *)
Example C98_header code b p :
  (lost 1 (uart_frame (framed code p)) = [0x04; N.of_nat (length p)] ++ p
   /\ lost 2 (uart_frame (framed code p)) = [0x04; code] ++ p
   /\ extra 1 b (uart_frame (framed code p)) = [0x04; b; code] ++ N.of_nat (length p) :: p
   /\ extra 2 b (uart_frame (framed code p)) = [0x04; code; b] ++ N.of_nat (length p) :: p)
  /\ (lost 0 (framed code p) = [N.of_nat (length p)] ++ p
      /\ lost 1 (framed code p) = [code] ++ p
      /\ extra 0 b (framed code p) = [b; code] ++ N.of_nat (length p) :: p
      /\ extra 1 b (framed code p) = [code; b] ++ N.of_nat (length p) :: p).
Proof. exact (conj (header_lost code b p) (link_header_lost code b p)). Qed.
Example C98_header_case :
  (** The event code of [0x10; 2; 2; 7] is lost: a packet with event code 2 and as many parameters as the
      first parameter says, which takes a byte of the next packet along. *)
  (let s := C98_queue (frames_around [[0x10; 1; 0x42]] (lost 1 (uart_frame [0x10; 2; 2; 7])) [[0x10; 1; 0x43]]) in
   possible queue_history s
   /\ pending queue_history s s = [4; 0x10; 1; 0x42] ++ [4; 2; 2] ++ [7; 4; 0x10; 1; 0x43])
  /\ C98_results (lost 1 (uart_frame [0x10; 2; 2; 7]))
     = [Ok (PEvent (EvHardwareError (Build_hardware_error 0x42))); Err (Other (UBLE (EUnknownEvent 2)));
        Err (Other (UBadPacketType 0x10)); Err (Other (UBadPacketType 0x10))]
  /\ C98_results (lost 2 (uart_frame [0x10; 1; 1]))
     = [Ok (PEvent (EvHardwareError (Build_hardware_error 0x42))); Ok (PEvent (EvHardwareError (Build_hardware_error 4)));
        Err (Other (UBadPacketType 0x10)); Err (Other (UBadPacketType 0x10))]
  /\ C98_results (extra 1 0x09 (uart_frame [0x10; 1; 7]))
     = Ok (PEvent (EvHardwareError (Build_hardware_error 0x42))) :: repeat (Err WouldBlock) 3
  /\ C98_link_results (lost 0 [0x10; 2; 2; 7])
     = [Ok (EvHardwareError (Build_hardware_error 0x42)); Err (Other (LBLE (EUnknownEvent 2))); Err WouldBlock].
Proof.
  split; [split; [split; [repeat constructor|split; [cbn; lia|constructor]]|reflexivity]|].
  repeat split; vm_compute; reflexivity.
Qed.
