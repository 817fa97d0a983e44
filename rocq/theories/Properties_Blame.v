(** * What an error says about the packet (properties C75). *)
From Verif Require Import Base Model_Types Model_Intervals Model_EventBase Model_Event Spec_Wire
  Spec_Interval Spec_Errors Spec_Report Spec_Example Spec_Pass Spec_Blame Proofs_Blame.
Open Scope list_scope.
Open Scope N_scope.

(** ** C75: what an error says about the packet is true *)
Theorem C75_error F V pkt e : vendor_total V -> vendor_names_status V -> bytes pkt ->
  event_new F V pkt = Err e ->
  blames F V pkt e \/ (vendor_packet pkt /\ vendor_says V pkt e).
Proof. exact (fun HV HN => error_blames F V HV HN pkt e). Qed.
Print Assumptions C75_error.

Example C75_vendor_case : vendor_total test_vendor /\ vendor_names_status test_vendor.
Proof.
  split; [exact test_vendor_total|]. intros b e. cbn. destruct (_ || _)%bool; [discriminate|].
  intros H. now injection H.
Qed.
(** The second entry of this report has a bad kind of address. *)
Example C75_error_case :
  event_new F41 test_vendor
    [0x3E; 22; 0x02; 2; 0; 0; 1; 2; 3; 4; 5; 6; 0; 127; 4; 9; 6; 5; 4; 3; 2; 1; 0; 127]
    = Err (EBadLeAddressType 9)
  /\ event_new F41 test_vendor [0x3E; 10; 0x03; 0; 1; 2; 5; 0; 4; 0; 0x8A; 2]
     = Err (EBadConnectionInterval (IntervalTooShort (us 6250)))
  /\ event_new F41 test_vendor [0x0E; 5; 1; 0x05; 0x14; 0; 0x01] = Err (EBadLength 2 4)
  /\ event_new F41 test_vendor [0xFF; 0] = Err (EVendor 1).
Proof. repeat split; vm_compute; reflexivity. Qed.
(** [blames] is about the values in the packet. *)
Example C75_not_case :
  ~ blames F41 test_vendor [0x3E; 10; 0x03; 0; 1; 2; 5; 0; 4; 0; 0x8A; 2]
      (EBadConnectionInterval (IntervalTooShort (us 5000)))
  /\ ~ blames F41 test_vendor [0x05; 4; 0x99; 1; 2; 0x9A] (EBadStatus 0x9A)
  /\ ~ blames F41 test_vendor [0x05; 4; 0x99; 1; 2; 0x9A] (EBadReason 0x99)
  /\ ~ blames F41 test_vendor [0x05; 4; 0x13; 1; 2; 0x13] (EBadReason 0x13).
Proof.
  split; [intros [[[_ K] _]|[_ [K _]]]; vm_compute in K; discriminate|].
  split; [intros [K _]; vm_compute in K; discriminate|].
  split; [intros (_ & K & _); vm_compute in K; discriminate|].
  intros (_ & _ & K & _). vm_compute in K. discriminate.
Qed.
