(** * Properties: agreement with the codes of the Bluetooth specification. *)
From Verif Require Import Base Model_Types Model_EventBase Model_Event Spec_Wire Spec_Errors Spec_Report
  Spec_Core Spec_Example Proofs_Core.

(** ** C51 A PHY update is reported with the PHYs the controller named: refuted *)
Theorem C51_refuted F V sb s h tx rx : vendor_total V -> byte sb -> status_byte F V sb s -> u16 h ->
  event_new F V (phy_update_packet sb h tx rx)
  <> Ok (EvLePhyUpdateComplete (Build_le_phy_update_complete s h tx rx)).
Proof. exact (phy_never_right F V sb s h tx rx). Qed.
Print Assumptions C51_refuted.

(** What is reported instead. *)
Theorem C51_exactly F V sb s h tx rx : vendor_total V -> byte sb -> status_byte F V sb s -> u16 h ->
  event_new F V (phy_update_packet sb h tx rx) =
  match tx, rx with
  | LeCoded, _ | _, LeCoded => Err (EBadPhy 3)
  | Le1M, Le1M => Ok (EvLePhyUpdateComplete (Build_le_phy_update_complete s h Le2M Le2M))
  | Le1M, Le2M => Ok (EvLePhyUpdateComplete (Build_le_phy_update_complete s h Le2M LeCoded))
  | Le2M, Le1M => Ok (EvLePhyUpdateComplete (Build_le_phy_update_complete s h LeCoded Le2M))
  | Le2M, Le2M => Ok (EvLePhyUpdateComplete (Build_le_phy_update_complete s h LeCoded LeCoded))
  end.
Proof. exact (phy_misread F V sb s h tx rx). Qed.
Print Assumptions C51_exactly.
Example C51_case : vendor_total test_vendor /\ byte 0 /\ status_byte F50 test_vendor 0 Success /\ u16 0x0201
  /\ phy_update_packet 0 0x0201 Le2M Le1M = [0x3E; 6; 0x0C; 0; 1; 2; 2; 1]
  /\ event_new F50 test_vendor [0x3E; 6; 0x0C; 0; 1; 2; 2; 1]
     = Ok (EvLePhyUpdateComplete (Build_le_phy_update_complete Success 0x0201 LeCoded Le2M)).
Proof. split; [apply test_vendor_total|]. repeat split; vm_compute; reflexivity. Qed.

(** ** C52 Every advertisement of a conforming report reaches the user: refuted

    An entry with an identity address loses the entries beside it. *)
Theorem C52_refuted F V : exists count a b v,
  air_report_ok a /\ air_report_ok b /\ air_report_value a = Some v
  /\ event_new F V (framed 0x3E ([0x02; count] ++ flat_map air_report_bytes [a; b]))
     = Err (EBadLeAddressType 2).
Proof. exact (neighbour_lost F V). Qed.
Print Assumptions C52_refuted.

(** Without identity addresses every entry is delivered, in order. *)
Theorem C52_delivered F V count rs l : byte count -> Forall air_report_ok rs ->
  (length (flat_map air_report_bytes rs) <= 253)%nat ->
  map air_report_value rs = map Some l ->
  exists r, event_new F V (framed 0x3E ([0x02; count] ++ flat_map air_report_bytes rs))
              = Ok (EvLeAdvertisingReport r)
    /\ forall n, calls (@lar_next Empty_set r) n O = Ok (expected_calls n l).
Proof. exact (reports_delivered F V count rs l). Qed.
Print Assumptions C52_delivered.

(** With one, the event is refused, with the kind of the first. *)
Theorem C52_refused F V count before a after : Forall air_report_ok (before ++ a :: after) ->
  (length (flat_map air_report_bytes (before ++ a :: after)) <= 253)%nat ->
  Forall (fun b => ar_address_kind b < 2) before -> 2 <= ar_address_kind a ->
  event_new F V (framed 0x3E ([0x02; count] ++ flat_map air_report_bytes (before ++ a :: after)))
  = Err (EBadLeAddressType (ar_address_kind a)).
Proof. exact (reports_refused F V count before a after). Qed.
Print Assumptions C52_refused.
Example C52_case : Forall air_report_ok [public_entry; identity_entry]
  /\ (exists l, map air_report_value [public_entry] = map Some l)
  /\ ar_address_kind public_entry < 2 /\ 2 <= ar_address_kind identity_entry
  /\ flat_map air_report_bytes [public_entry; identity_entry]
     = [2; 0; 1; 2; 3; 4; 5; 6; 3; 2; 1; 6; 216; 0; 2; 6; 5; 4; 3; 2; 1; 0; 127]
  /\ event_new F42 test_vendor (framed 0x3E ([0x02; 2]
       ++ flat_map air_report_bytes [public_entry; identity_entry])) = Err (EBadLeAddressType 2).
Proof.
  split; [repeat constructor; discriminate|]. split; [eexists (_ :: nil); reflexivity|].
  split; [reflexivity|]. split; [discriminate|]. split; vm_compute; reflexivity.
Qed.
