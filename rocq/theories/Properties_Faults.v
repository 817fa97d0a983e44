(** * Failures of the controller in a read: C30. *)
From Verif Require Import Base Model_Types Model_EventBase Model_Event Model_Host Spec_Wire Spec_Errors Spec_Host Spec_Link
  Spec_Example Spec_Faults Proofs_Faults.
Open Scope list_scope.

(** ** C30: transport outcomes pass through unchanged

    A read stops at the first error of the controller and reports it; without one
    it reports a packet, or a foreign packet type. *)
Theorem C30_uart_read F V St E (C : controller St E) s :
  let '((s', errors), r) := uart_read F V (watched C) (s, []) in
  uart_read F V C s = (s', r) /\ uart_says errors r.
Proof. exact (uart_faults F V C s). Qed.
Print Assumptions C30_uart_read.

Theorem C30_link_read F V St E (C : controller St E) s :
  let '((s', errors), r) := link_read F V (watched C) (s, []) in
  link_read F V C s = (s', r) /\ link_says errors r.
Proof. exact (link_faults F V C s). Qed.
Print Assumptions C30_link_read.

Example C30_read_case :
  uart_read F41 test_vendor (watched (flaky (Other 7%N))) (O, []) = ((2%nat, [Other 7%N]), Err (Other (UComm 7%N)))
  /\ link_read F41 test_vendor (watched (flaky (Other 7%N))) (O, []) = ((2%nat, [Other 7%N]), Err (Other (LComm 7%N)))
  /\ link_read F41 test_vendor (watched (flaky WouldBlock)) (O, []) = ((2%nat, [WouldBlock]), Err WouldBlock).
Proof. split; [|split]; vm_compute; reflexivity. Qed.
