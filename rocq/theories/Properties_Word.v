(** * Machine words: C96. *)
From Verif Require Import Base Model_Types Model_Intervals Model_EventBase Model_Command Model_Event Model_Host
  Model_Word Spec_Wire Spec_Errors Spec_Host Spec_Example Spec_Link Spec_Word Proofs_Word.
Open Scope list_scope.
Open Scope N_scope.

(** ** C96: the word size of the machine does not matter

    In each equation the left side is the code as a machine with limited words
    runs it, with or without overflow checks; the right side does not depend on
    the machine. *)
Theorem C96_event m F V pkt : rust_machine m -> bytes pkt -> fits m pkt ->
  event_new_on m F V pkt = event_new F V pkt.
Proof. exact (fun H => event_same m H F V pkt). Qed.
Print Assumptions C96_event.

(** The contents of the events that are iterated over. *)
Theorem C96_completed_packets m E F V pkt ev i : rust_machine m -> bytes pkt ->
  event_new F V pkt = Ok (EvNumberOfCompletedPackets ev) -> @ncp_next_on m E ev i = ncp_next ev i.
Proof. exact (fun H => pairs_next_same m H F V pkt ev i). Qed.
Print Assumptions C96_completed_packets.

Theorem C96_report m E F V pkt r i : rust_machine m -> bytes pkt ->
  event_new F V pkt = Ok (EvLeAdvertisingReport r) -> @lar_next_on m E r i = lar_next r i.
Proof. exact (fun H => report_next_same m H F V pkt r i). Qed.
Print Assumptions C96_report.

(** Reading. *)
Theorem C96_uart m F V St E (I : St -> Prop) (C : controller St E) s : rust_machine m -> gives_bytes I C -> I s ->
  uart_read_on m F V C s = uart_read F V C s.
Proof. exact (fun H HC => uart_same m H F V I C HC s). Qed.
Print Assumptions C96_uart.

Theorem C96_split m F V St E (I : St -> Prop) (C : controller St E) s : rust_machine m -> gives_bytes I C -> I s ->
  link_read_on m F V C s = link_read F V C s.
Proof. exact (fun H HC => link_same m H F V I C HC s). Qed.
Print Assumptions C96_split.

(** Advertising data, and reports made from advertisements. *)
Theorem C96_advertisement_len m E a : rust_machine m -> fits m (ad_data a) ->
  @ad_len_on m E a = Ok (ad_len a).
Proof. exact (fun H => ad_len_same m H a). Qed.
Print Assumptions C96_advertisement_len.

Theorem C96_advertisement m E a buf : rust_machine m -> fits m (ad_data a) ->
  @ad_copy_into_slice_on m E a buf = ad_copy_into_slice a buf.
Proof. exact (fun H => ad_copy_same m H a buf). Qed.
Print Assumptions C96_advertisement.

Theorem C96_made m E advs : rust_machine m -> Forall (fun a => fits m (la_data a)) advs ->
  @report_with_advertisements_on m E advs = report_with_advertisements advs.
Proof. exact (fun H => made_same m H advs). Qed.
Print Assumptions C96_made.

(** A machine with words of 16 bits, without checks, reads the longest packet
    there is; with words of 8 bits it would take it for one of a byte. *)
Example C96_case :
  let m := {| usizes := 2 ^ 16; checked := false |} in
  let small := {| usizes := 2 ^ 8; checked := false |} in
  let pkt := framed 0x13 (63 :: repeat 1 252 ++ [7; 7]) in
  rust_machine m /\ bytes pkt /\ fits m pkt
  /\ event_new_on m F41 test_vendor pkt = Err (EBadLength 255 253)
  /\ event_new_on small F41 test_vendor pkt = Err (EBadLength 257 1)
  /\ gives_bytes (possible queue_history) queue_controller /\ possible queue_history example_queue.
Proof.
  split; [vm_compute; discriminate|]. split; [repeat constructor|]. split; [vm_compute; reflexivity|].
  split; [vm_compute; reflexivity|]. split; [vm_compute; reflexivity|]. split; [exact queue_gives|].
  split; [constructor|]. split; [vm_compute; constructor|]. repeat constructor.
Qed.
Example C96_others_case :
  let m := {| usizes := 2 ^ 16; checked := false |} in
  (exists ev, event_new F41 test_vendor [0x13; 9; 2; 1; 2; 3; 4; 5; 6; 7; 8] = Ok (EvNumberOfCompletedPackets ev)
     /\ exists p, @ncp_next_on m Empty_set ev 4 = Ok p)
  /\ (exists r, event_new F41 test_vendor [0x3E; 14; 2; 1; 2; 1; 1; 2; 3; 4; 5; 6; 2; 7; 8; 0xFD] = Ok (EvLeAdvertisingReport r)
       /\ exists p, @lar_next_on m Empty_set r 0 = Ok p)
  /\ fits m (ad_data (CompleteLocalName [65; 66]))
  /\ @ad_len_on m Empty_set (CompleteLocalName [65; 66]) = Ok 4%nat
  /\ @ad_copy_into_slice_on m Empty_set (CompleteLocalName [65; 66]) (repeat 0 5) = Ok ([3; 9; 65; 66; 0], 4%nat).
Proof.
  cbv zeta. split; [eexists; split; [vm_compute; reflexivity|eexists; vm_compute; reflexivity]|].
  split; [eexists; split; [vm_compute; reflexivity|eexists; vm_compute; reflexivity]|].
  repeat split; vm_compute; reflexivity.
Qed.
Example C96_link_case :
  let m := {| usizes := 2 ^ 16; checked := false |} in
  let s := {| q_received := [0x10; 1; 0x42]; q_consumed := 0; q_arrivals := []; q_written := []; q_ready := [] |} in
  rust_machine m /\ possible queue_history s
  /\ snd (link_read_on m F41 test_vendor queue_controller s) = Ok (EvHardwareError (Build_hardware_error 0x42)).
Proof.
  cbv zeta. split; [vm_compute; discriminate|].
  split; [split; [repeat constructor|split; [cbn; lia|constructor]]|]. vm_compute. reflexivity.
Qed.
