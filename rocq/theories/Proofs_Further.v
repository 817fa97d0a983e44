(** * Vendors and unknown codes (proofs). *)
From Verif Require Import Base Model_Types Model_Bitflags Model_Intervals
  Model_EventBase Model_Command Model_Event Spec_Wire Spec_Errors Spec_Report Spec_Vendor
  Proofs_Base Proofs_Event Proofs_Command Proofs_Vendor Proofs_Panic.
Open Scope list_scope.
Open Scope N_scope.

Lemma unknown_any_vendor F V pkt x : vendor_total V -> bytes pkt -> ~ vendor_packet pkt ->
  event_new F V pkt = Err (EUnknownEvent x) <->
  (~ In x known_events /\ exists p, pkt = framed x p)
  \/ (~ In x known_subevents /\ exists rest, pkt = framed 0x3E (x :: rest)).
Proof.
  intros (HV & _) Hb Hv.
  set (fe := fun _ : list N => @Err (event_error (VError V)) (VEvent V) (EBadLength 0 0)).
  set (fr := fun _ : list N => @Err (event_error (VError V)) (VReturn V) (EBadLength 0 0)).
  rewrite <- (unknown_event_iff F (with_decoders V fe fr)) with (pkt := pkt).
  - rewrite (decoders_unused F V fe fr pkt Hb Hv). unfold same_result.
    destruct (event_new F V pkt); split; intros H; try discriminate H; injection H as ->; reflexivity.
  - repeat split; [exact HV|discriminate|discriminate].
  - split; discriminate.
  - exact Hb.
Qed.
