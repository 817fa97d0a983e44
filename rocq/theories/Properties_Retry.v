(** * Newer versions, the documented read, and waiting: C62-C64. *)
From Verif Require Import Base Model_Types Model_Bitflags Model_Intervals Model_EventBase Model_Command
  Model_Event Model_Host Model_Doc Spec_Wire Spec_Interval Spec_Flags Spec_Errors Spec_Report Spec_Adv
  Spec_Host Spec_Link Spec_Versions Spec_Example Spec_Retry Proofs_Retry.
Open Scope list_scope.
Open Scope N_scope.

(** ** C62: enabling a newer version keeps every command call working

    Whatever can be called can still be called, with the same arguments, and
    does the same with every controller; one method has a new name in 5.0. *)
Theorem C62_callable F F' V (c : command V) : newer F F' ->
  command_exists F c = true -> arguments_typed F c ->
  command_exists F' (renamed F' c) = true /\ arguments_typed F' (renamed F' c).
Proof. exact (fun HN HE HA => conj (newer_exists F F' V c HN HE) (newer_typed F F' V c HN HA)). Qed.
Print Assumptions C62_callable.
Theorem C62_same F F' V St E (C : controller St E) H enc c s : newer F F' ->
  In (H, enc) header_formats -> arguments_typed F c ->
  run_command F' V H C (renamed F' c) s = run_command F V H C c s.
Proof. exact (newer_call F F' V St E C H enc c s). Qed.
Print Assumptions C62_same.
Example C62_case :
  newer F41 F50
  /\ renamed F50 (CLeSetAdvertiseEnable (V := test_vendor) true) = CLeSetAdvertisingEnable true
  /\ renamed F42 (CLeSetAdvertiseEnable (V := test_vendor) true) = CLeSetAdvertiseEnable true
  /\ sent F41 test_vendor uart_header (CLeSetAdvertiseEnable true)
     = [([1; 0x0A; 0x20; 1], [1])]
  /\ sent F50 test_vendor uart_header (CLeSetAdvertisingEnable true)
     = [([1; 0x0A; 0x20; 1], [1])].
Proof. unfold newer. cbn. repeat split; auto. Qed.

(** ** C63: the documented way of reading an event takes exactly that event

    Refuted as stated: with a whole event there and nothing else to come, the
    code in the documentation of [Controller::peek] blocks for ever. *)
Theorem C63_refuted : exists s p, possible queue_history s /\ event_packet p
  /\ q_pending s = uart_frame p
  /\ forall n, repeated (documented_read queue_controller) n s = (s, repeat (Err WouldBlock) n).
Proof. exact documented_refuted. Qed.
Print Assumptions C63_refuted.

(** Exactly: two bytes more than the number in the fourth byte are taken, packet
    type included; that is the first parameter, not the length. *)
Theorem C63_exactly St E (C : controller St E) h s b : buffering C h -> possible h s ->
  nth_error (pending h s s) 0 = Some 4 -> nth_error (pending h s s) 3 = Some b ->
  let (s', r) := documented_read C s in
  match r with
  | Ok buf => exists data, took h s s' data /\ length data = (2 + N.to_nat b)%nat
                /\ buf = data ++ repeat 0 (255 - N.to_nat b)
  | Err WouldBlock => nothing h s s' /\ (length (pending h s s') < 2 + N.to_nat b)%nat
  | _ => False
  end.
Proof. exact (fun HB => documented C h HB s b). Qed.
Print Assumptions C63_exactly.
Theorem C63_when St E (C : controller St E) h s code b params rest s' buf : buffering C h ->
  possible h s -> pending h s s = uart_frame (framed code (b :: params)) ++ rest ->
  documented_read C s = (s', Ok buf) ->
  (took h s s' (uart_frame (framed code (b :: params))) <-> N.to_nat b = (length params + 2)%nat).
Proof. exact (fun HB => documented_took C h HB s code b params rest s' buf). Qed.
Print Assumptions C63_when.
Example C63_case :
  (* Data Buffer Overflow, and then Hardware Error: the first read leaves half of the first *)
  let s := {| q_received := [0x04; 0x1A; 0x01; 0x00; 0x04; 0x10; 0x01; 0x42]; q_consumed := 0;
              q_arrivals := []; q_written := []; q_ready := [] |} in
  let (s', r) := documented_read queue_controller s in
  q_pending s' = [0x01; 0x00; 0x04; 0x10; 0x01; 0x42]
  /\ r = Ok ([0x04; 0x1A] ++ repeat 0 255)
  (* Hardware Error 3, with two more bytes: all of it *)
  /\ let s := {| q_received := [0x04; 0x10; 0x02; 0x03; 0x00]; q_consumed := 0;
                 q_arrivals := []; q_written := []; q_ready := [] |} in
     let (s', r) := documented_read queue_controller s in
     q_pending s' = [] /\ r = Ok ([0x04; 0x10; 0x02; 0x03; 0x00] ++ repeat 0 252).
Proof. vm_compute. auto. Qed.

(** ** C64: waiting does the work exactly once

    A command that is repeated until it is not blocked (as [nb::block!] does) is
    written once if it succeeds, and not at all if it fails or if the host gives
    up. *)
Theorem C64_command F V St E (C : controller St E) h c n s : contract C h -> arguments_typed F c ->
  possible h s ->
  let (s', r) := waiting method_blocked (run_command F V uart_header C c) n s in
  put h s s' (match r with
              | Some r => if succeeded r then command_bytes c else []
              | None => []
              end).
Proof. exact (fun HC => wait_command F V C h HC c n s). Qed.
Print Assumptions C64_command.

(** A read that is repeated takes one packet and reports it, or takes nothing. *)
Theorem C64_read F V St E (C : controller St E) h n s : contract C h -> possible h s ->
  let (s', r) := waiting blocked (uart_read F V C) n s in
  match r with
  | Some r =>
      (uart_reports V r = false /\ nothing h s s')
      \/ exists p, event_packet p /\ took h s s' (uart_frame p) /\ r = uart_result F V p
  | None => nothing h s s'
  end.
Proof. exact (fun HC => wait_read F V C h HC n s). Qed.
Print Assumptions C64_read.
Theorem C64_link F V St E (C : controller St E) h n s : contract C h -> possible h s ->
  let (s', r) := waiting blocked (link_read F V C) n s in
  match r with
  | Some r =>
      (link_reports V r = false /\ nothing h s s')
      \/ exists p, event_packet p /\ took h s s' p /\ r = link_result F V p
  | None => nothing h s s'
  end.
Proof. exact (fun HC => wait_link F V C h HC n s). Qed.
Print Assumptions C64_link.

(** Waiting ends: with the next packet after at most one call per chunk to come
    and one more, ... *)
Theorem C64_read_ends F V n s p rest : possible queue_history s -> event_packet p ->
  q_pending s ++ concat (q_arrivals s) = uart_frame p ++ rest -> (length (q_arrivals s) < n)%nat ->
  exists s', waiting blocked (uart_read F V queue_controller) n s = (s', Some (uart_result F V p))
    /\ took queue_history s s' (uart_frame p)
    /\ q_pending s' ++ concat (q_arrivals s') = rest.
Proof. exact (queue_wait_read F V n s p rest). Qed.
Print Assumptions C64_read_ends.
Theorem C64_link_ends F V n s p rest : possible queue_history s -> event_packet p ->
  q_pending s ++ concat (q_arrivals s) = p ++ rest -> (length (q_arrivals s) < n)%nat ->
  exists s', waiting blocked (link_read F V queue_controller) n s = (s', Some (link_result F V p))
    /\ took queue_history s s' p
    /\ q_pending s' ++ concat (q_arrivals s') = rest.
Proof. exact (queue_wait_link F V n s p rest). Qed.
Print Assumptions C64_link_ends.
(** ... and for a command at the first write that is not blocked. *)
Theorem C64_command_ends F V c r later n k s : arguments_typed F c -> @rejection V N c = None ->
  q_ready s = repeat Busy k ++ r :: later -> r <> Busy -> (k < n)%nat ->
  exists s', waiting method_blocked (run_command F V uart_header queue_controller c) n s
             = (s', Some (reported c (match r with
                                      | Broken code => Err (Other code)
                                      | _ => Ok tt
                                      end))).
Proof. exact (queue_wait_command F V c r later n k s). Qed.
Print Assumptions C64_command_ends.
Example C64_case :
  let s := {| q_received := []; q_consumed := 0; q_arrivals := [[0x04]; []; []; [0x10]; [1]; [0x42; 0x04]];
              q_written := []; q_ready := [Busy; Busy; Ready; Ready] |} in
  possible queue_history s
  /\ (let (s', r) := waiting method_blocked (run_command F41 test_vendor uart_header queue_controller CReset) 9 s in
      q_written s' = [1; 3; 0x0C; 0] /\ q_ready s' = [Ready] /\ r = Some (Plain (Ok tt)))
  /\ (let (s', r) := waiting blocked (uart_read F41 test_vendor queue_controller) 9 s in
      q_consumed s' = 4%nat /\ r = Some (Ok (PEvent (EvHardwareError (Build_hardware_error 0x42)))))
  /\ snd (waiting blocked (uart_read F41 test_vendor queue_controller) 1 s) = None.
Proof.
  cbv zeta. split; [split; [constructor|split; [cbn; lia|repeat constructor]]|]. vm_compute. auto 10.
Qed.
Example C64_link_case :
  let s := {| q_received := []; q_consumed := 0; q_arrivals := [[0x10]; []; []; [1]; [0x42; 0x10]];
              q_written := []; q_ready := [] |} in
  possible queue_history s
  /\ (let (s', r) := waiting blocked (link_read F41 test_vendor queue_controller) 9 s in
      q_consumed s' = 3%nat /\ r = Some (Ok (EvHardwareError (Build_hardware_error 0x42))))
  /\ snd (waiting blocked (link_read F41 test_vendor queue_controller) 1 s) = None.
Proof.
  cbv zeta. split; [split; [constructor|split; [cbn; lia|repeat constructor]]|]. vm_compute. auto 10.
Qed.
