(** * The same application over a UART and over separate links: C81. *)
From Verif Require Import Base Model_Types Model_EventBase Model_Command Model_Event Model_Host
  Spec_Wire Spec_Errors Spec_Host Spec_Link Spec_Example Spec_Split Spec_Same
  Proofs_Base Proofs_Same.
Open Scope list_scope.
Open Scope N_scope.

(** ** C81: an application sees the same over both transports

    The same bytes of event packets arrive, in the same pieces, and the same
    writes succeed. *)
Theorem C81_same F V turns ready : of_packets turns -> Forall (fun t => typed_operation F (snd t)) turns ->
  let (s, rs) := uart_turns F V turns (idle ready) in
  let (s', rs') := link_turns F V turns (idle ready) in
  map uart_seen rs = map link_seen rs'
  /\ exists cs : list (command V), q_written s = flat_map command_bytes cs /\ q_written s' = flat_map link_bytes cs.
Proof. exact (same_turns F V turns ready). Qed.
Print Assumptions C81_same.

(** A packet in two pieces, a malformed one, one that is not complete; a blocked
    and a rejected call. *)
Example C81_case :
  let turns : list (turn test_vendor) :=
    [([(true, 0x10)], Receive); ([(false, 0x01); (false, 0x42); (true, 0x10); (false, 0)], Receive);
     ([], Send CReset); ([], Receive); ([(true, 0x1A)], Send CReset);
     ([(false, 0x01)], Receive); ([], Send (CLeReceiverTest 0x28))] in
  of_packets turns /\ Forall (fun t => typed_operation F41 (snd t)) turns
  /\ let (s, rs) := uart_turns F41 test_vendor turns (idle [Busy; Ready]) in
     let (s', rs') := link_turns F41 test_vendor turns (idle [Busy; Ready]) in
     map uart_seen rs
     = [SeenNothing; SeenEvent (EvHardwareError (Build_hardware_error 0x42)); SeenCall (Plain (Err WouldBlock));
        SeenMalformed (EBadLength 0 1); SeenCall (Plain (Ok tt)); SeenNothing;
        SeenCall (Checked (Err (Other (HInvalidTestChannel 0x28))))]
     /\ map link_seen rs' = map uart_seen rs
     /\ q_received s = [0x04; 0x10; 0x01; 0x42; 0x04; 0x10; 0; 0x04; 0x1A; 0x01]
     /\ q_received s' = [0x10; 0x01; 0x42; 0x10; 0; 0x1A; 0x01]
     /\ q_written s = [0x01; 0x03; 0x0C; 0] /\ q_written s' = [0x03; 0x0C; 0].
Proof.
  cbv zeta. split.
  { exists [framed 0x10 [0x42]; framed 0x10 []; framed 0x1A [0x00]], [(false, 0x00)]. split; [|reflexivity].
    repeat apply Forall_cons; [| | |constructor].
    - exists 0x10, [0x42]. split; [reflexivity|]. split; [reflexivity|]. split; [repeat constructor|cbn; lia].
    - exists 0x10, []. split; [reflexivity|]. split; [reflexivity|]. split; [repeat constructor|cbn; lia].
    - exists 0x1A, [0x00]. split; [reflexivity|]. split; [reflexivity|]. split; [repeat constructor|cbn; lia]. }
  split; [repeat constructor|]. vm_compute. auto 10.
Qed.
