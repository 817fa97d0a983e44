(** * What the crate takes for an event (property C61). *)
From Verif Require Import Base Model_Types Model_EventBase Model_Command Model_Event Spec_Wire
  Spec_Errors Spec_Vendor Spec_Example Spec_Core Spec_Versions Spec_Conform Spec_Accepted Proofs_Accepted.
Open Scope list_scope.
Open Scope N_scope.

(** ** C61: only conforming packets are accepted

    Refuted as stated: a packet with a connection handle of 0x0F00. *)
Theorem C61_refuted F V : exists code p, bytes p /\ ~ vendor_packet (framed code p)
  /\ ~ conforming F code p /\ exists ev, event_new F V (framed code p) = Ok ev.
Proof. exact (nonconforming_taken F V). Qed.
Print Assumptions C61_refuted.

(** Exactly: accepted are the formats of [taken_event] and no others. *)
Theorem C61_exactly F V code p : byte code -> bytes p -> (length p <= 255)%nat ->
  ((exists ev, event_new F V (framed code p) = Ok ev) <-> taken_event F V code p).
Proof. exact (taken_exactly F V code p). Qed.
Print Assumptions C61_exactly.

(** Taken and not conforming: a handle out of range, something after a status,
    a report that contains fewer entries than it says, a PHY without a name. *)
Example C61_taken_case :
  (taken_event F41 test_vendor 0x08 [0; 0x00; 0x0F; 1] /\ ~ conforming F41 0x08 [0; 0x00; 0x0F; 1])
  /\ (taken_event F41 test_vendor 0x0E ([1] ++ le 2 (hci_opcode 0x03 0x003) ++ [0; 0])
      /\ ~ conforming F41 0x0E ([1] ++ le 2 (hci_opcode 0x03 0x003) ++ [0; 0]))
  /\ (taken_event F41 test_vendor 0x3E [0x02; 3] /\ ~ conforming F41 0x3E [0x02; 3])
  /\ (taken_event F50 test_vendor 0x3E [0x0C; 0; 1; 0; 0; 1] /\ ~ conforming F50 0x3E [0x0C; 0; 1; 0; 0; 1]).
Proof. exact taken_cases. Qed.
(** Not taken: a wrong length, an unassigned status, an unassigned role. *)
Example C61_not_taken_case :
  ~ taken_event F41 test_vendor 0x08 [0; 0x00; 0x0F]
  /\ ~ taken_event F41 test_vendor 0x08 [0x41; 0x00; 0x0F; 1]
  /\ ~ taken_event F41 test_vendor 0x3E ([0x01; 0x00] ++ connection_body 1 2 1 24 0 11 5 [1; 2; 3; 4; 5; 6]).
Proof. exact not_taken_cases. Qed.
