(** * Reports made by a program, and advertising data types: C53, C54. *)
From Coq Require Import String.
From Verif Require Import Base Model_Types Model_Intervals Model_Event Spec_Wire Spec_Report Spec_Made Spec_Common
  Spec_Example Spec_Adv Proofs_Made Proofs_Common.

(** ** C53 A report made from advertisements contains them *)

Theorem C53_made {E} l : Forall advertisement_typed l -> (report_size l <= report_room)%nat ->
  exists r, @report_with_advertisements E l = Ok r
    /\ iterates (@lar_next Empty_set r) O (map as_reported l)
    /\ forall F V count, byte count ->
       event_new F V ([0x3E; N.of_nat (2 + report_size l); 0x02; count] ++ flat_map advertisement_bytes l)
       = Ok (EvLeAdvertisingReport r).
Proof. exact (report_made l). Qed.
Print Assumptions C53_made.
Theorem C53_too_big {E} l : Forall advertisement_typed l ->
  @report_with_advertisements E l = Panic <-> (report_room < report_size l)%nat.
Proof. exact (report_too_big l). Qed.
Print Assumptions C53_too_big.
Definition C53_list : list le_advertisement :=
  [Build_le_advertisement AdvScan (BdRandom [1; 2; 3; 4; 5; 6]) [7; 8] (Some (-3)%Z);
   Build_le_advertisement AdvScanResponse (BdPublic [6; 5; 4; 3; 2; 1]) [] (Some 127%Z)].
Example C53_case :
  Forall advertisement_typed C53_list /\ report_size C53_list = 22%nat
  /\ (exists r, @report_with_advertisements Empty_set C53_list = Ok r
      /\ calls (@lar_next Empty_set r) 3 O
         = Ok [Some (Build_le_advertisement AdvScan (BdRandom [1; 2; 3; 4; 5; 6]) [7; 8] (Some (-3)%Z));
               Some (Build_le_advertisement AdvScanResponse (BdPublic [6; 5; 4; 3; 2; 1]) [] None); None])
  /\ @report_with_advertisements Empty_set
       [Build_le_advertisement AdvScan (BdRandom [1; 2; 3; 4; 5; 6]) (repeat 9 244) None] = Panic.
Proof.
  split; [|split; [|split]].
  - repeat apply Forall_cons; try apply Forall_nil; unfold advertisement_typed, is_i8, bytes, byte;
      cbn [la_address la_data la_rssi length]; repeat split; try lia; repeat constructor.
  - reflexivity.
  - eexists. split; vm_compute; reflexivity.
  - vm_compute. reflexivity.
Qed.

(** ** C54 Advertising data types have their assigned codes: refuted

    One of the 47 constants has the code of another type. *)
Theorem C54_refuted : exists t, ~ In (common_data_type_as_u8 t, type_name t) assigned_types.
Proof. exact (ex_intro _ CdtSecurityManagerTkValue (fun H => proj1 (assigned_code _) H eq_refl)). Qed.
Print Assumptions C54_refuted.
Theorem C54_exactly t :
  In (common_data_type_as_u8 t, type_name t) assigned_types <-> t <> CdtSecurityManagerTkValue.
Proof. exact (assigned_code t). Qed.
Print Assumptions C54_exactly.
(** What a receiver takes it for. *)
Theorem C54_mistaken :
  In (common_data_type_as_u8 CdtSecurityManagerTkValue, "Security Manager Out of Band Flags"%string) assigned_types.
Proof. exact tk_value_code. Qed.
Print Assumptions C54_mistaken.
Theorem C54_distinct t u : common_data_type_as_u8 t = common_data_type_as_u8 u -> t = u.
Proof. exact (codes_distinct t u). Qed.
Print Assumptions C54_distinct.
(** The advertisements the crate writes have the one code assigned to them. *)
Theorem C54_advertisements a : type_name (ad_get_type a) = advertisement_name a
  /\ forall code, In (code, advertisement_name a) assigned_types <-> code = common_data_type_as_u8 (ad_get_type a).
Proof. exact (advertisement_assigned a). Qed.
Print Assumptions C54_advertisements.
Example C54_case :
  common_data_type_as_u8 CdtDeviceId = 0x10 /\ common_data_type_as_u8 CdtSecurityManagerTkValue = 0x11
  /\ @ad_copy_into_slice Empty_set (CompleteLocalName [65; 66]) [0; 0; 0; 0; 0]
     = Ok ([3; common_data_type_as_u8 CdtCompleteLocalName; 65; 66; 0], 4%nat).
Proof. repeat split; vm_compute; reflexivity. Qed.
