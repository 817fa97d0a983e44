(** * What a conforming controller sends (properties C58). *)
From Verif Require Import Base Model_Types Model_EventBase Model_Command Model_Event Spec_Wire
  Spec_Errors Spec_Example Spec_FlagNames Spec_Core Spec_Conform Proofs_Conform.
Open Scope list_scope.
Open Scope N_scope.

(** ** C58: conforming packets of supported events are accepted

    Refuted as stated: a connection update with a supervision timeout of 100 ms. *)
Theorem C58_refuted F V : exists code p,
  conforming F code p /\ forall ev, event_new F V (framed code p) <> Ok ev.
Proof. exact (conforming_refusals F V). Qed.
Print Assumptions C58_refuted.

(** Exactly: refused are those of [refused_event] and no others. *)
Theorem C58_exactly F V code p : conforming F code p ->
  ((exists ev, event_new F V (framed code p) = Ok ev) <-> ~ refused_event code p).
Proof. exact (conforming_exactly F V code p). Qed.
Print Assumptions C58_exactly.

(** Each kind of [refused_event] is met by a conforming packet ... *)
Example C58_refused_case :
  (conforming F41 0x3E ([0x01; 0x00] ++ connection_body 1 0 1 24 0 10 5 [1; 2; 3; 4; 5; 6])
   /\ refused_event 0x3E ([0x01; 0x00] ++ connection_body 1 0 1 24 0 10 5 [1; 2; 3; 4; 5; 6]))
  /\ (conforming F41 0x3E ([0x01; 0x3E] ++ repeat 0 17) /\ refused_event 0x3E ([0x01; 0x3E] ++ repeat 0 17))
  /\ (conforming F41 0x3E ([0x03; 0x3B] ++ repeat 0 8) /\ refused_event 0x3E ([0x03; 0x3B] ++ repeat 0 8))
  /\ (conforming F41 0x3E [0x0C; 0; 1; 0; 3; 1] /\ refused_event 0x3E [0x0C; 0; 1; 0; 3; 1])
  /\ (conforming F41 0x3E ([0x02; 2] ++ flat_map air_report_bytes [public_entry; identity_entry])
      /\ refused_event 0x3E ([0x02; 2] ++ flat_map air_report_bytes [public_entry; identity_entry]))
  /\ (conforming F41 0x0E ([1] ++ le 2 (hci_opcode 0x04 0x002) ++ [0] ++ repeat 0 31 ++ [0x10] ++ repeat 0 32)
      /\ refused_event 0x0E ([1] ++ le 2 (hci_opcode 0x04 0x002) ++ [0] ++ repeat 0 31 ++ [0x10] ++ repeat 0 32)).
Proof. exact conforming_refused_cases. Qed.

(** ... and there are conforming packets of every kind that are not refused. *)
Example C58_case :
  conforming F41 0x08 [0; 1; 0; 2] /\ ~ refused_event 0x08 [0; 1; 0; 2]
  /\ conforming F41 0x3E ([0x01; 0x00] ++ connection_body 1 0 1 24 0 11 5 [1; 2; 3; 4; 5; 6])
  /\ ~ refused_event 0x3E ([0x01; 0x00] ++ connection_body 1 0 1 24 0 11 5 [1; 2; 3; 4; 5; 6])
  /\ conforming F41 0x0E ([1] ++ le 2 (hci_opcode 0x08 0x018) ++ [0; 1; 2; 3; 4; 5; 6; 7; 8]).
Proof. exact conforming_cases. Qed.
