(** * Vendors and unknown codes (property C02). *)
From Verif Require Import Base Model_Types Model_EventBase Model_Command Model_Event
  Spec_Wire Spec_Errors Spec_Report Spec_Vendor Spec_Example Proofs_Further.
Open Scope list_scope.
Open Scope N_scope.

(** Whatever a vendor's decoders answer to its own packets: on all others
    UnknownEvent says just what it says. *)
Theorem C02_any_vendor F V pkt x : vendor_total V -> bytes pkt -> ~ vendor_packet pkt ->
  event_new F V pkt = Err (EUnknownEvent x) <->
  (~ In x known_events /\ exists p, pkt = framed x p)
  \/ (~ In x known_subevents /\ exists rest, pkt = framed 0x3E (x :: rest)).
Proof. exact (unknown_any_vendor F V pkt x). Qed.
Print Assumptions C02_any_vendor.
(** A vendor that knows no events and says so in the library's words. *)
Definition C02_vendor : vendor :=
  {| VStatus := N; VEvent := N; VReturn := N; VError := N;
     vstatus_try_from := fun b => Err b; vstatus_into := fun v => v;
     vevent_new := fun _ => Err (EUnknownEvent 0x05); vreturn_new := fun _ => Err (EUnknownEvent 0x05) |}.
Example C02_any_vendor_case :
  vendor_total C02_vendor /\ ~ vendor_packet [0x06; 1; 7] /\ ~ vendor_packet [0x05; 4; 0; 1; 0; 0x13]
  /\ event_new F41 C02_vendor [0x06; 1; 7] = Err (EUnknownEvent 0x06)
  /\ event_new F41 C02_vendor [0xFF; 1; 7] = Err (EUnknownEvent 0x05).
Proof. repeat split; try discriminate; intros []. Qed.
