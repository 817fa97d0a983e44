(** * Properties of event decoding: C01 to C09. *)
From Verif Require Import Base Model_Types Model_Bitflags Model_Intervals
  Model_EventBase Model_Command Model_Event
  Spec_Wire Spec_Interval Spec_Errors Spec_Report Spec_Example
  Proofs_Event Proofs_Errors Proofs_Report Proofs_Panic.

(** ** C01 Event framing is checked before anything is decoded *)

Theorem C01_short_packet F V pkt : (length pkt < 2)%nat ->
  event_new F V pkt = Err (EBadLength (length pkt) 2).
Proof. exact (event_new_short F V pkt). Qed.
Print Assumptions C01_short_packet.
Example C01_short_packet_case : event_new F41 test_vendor [0x03] = Err (EBadLength 1 2).
Proof. reflexivity. Qed.

Theorem C01_wrong_length F V code n rest : length rest <> N.to_nat n ->
  event_new F V (code :: n :: rest) = Err (EBadLength (2 + length rest) (2 + N.to_nat n)).
Proof. exact (event_new_bad_length F V code n rest). Qed.
Print Assumptions C01_wrong_length.
Example C01_wrong_length_case :
  event_new F41 test_vendor [0x10; 1; 0x11; 0x12] = Err (EBadLength 4 3).
Proof. reflexivity. Qed.

Theorem C01_accepted_is_framed F V pkt ev : event_new F V pkt = Ok ev ->
  exists code n rest, pkt = code :: n :: rest /\ length rest = N.to_nat n.
Proof. exact (accepted_framed F V pkt ev). Qed.
Print Assumptions C01_accepted_is_framed.
Example C01_accepted_is_framed_case :
  event_new F41 test_vendor [0x10; 1; 0x12] = Ok (EvHardwareError (Build_hardware_error 0x12)).
Proof. reflexivity. Qed.

(** ** C02 Codes outside the supported set are reported, never misread *)

Theorem C02_unknown_event F V code p : ~ In code known_events ->
  event_new F V (framed code p) = Err (EUnknownEvent code).
Proof. exact (unknown_event F V code p). Qed.
Print Assumptions C02_unknown_event.
Example C02_unknown_event_case : ~ In 0x01 known_events
  /\ event_new F41 test_vendor [0x01; 3; 1; 2; 3] = Err (EUnknownEvent 0x01).
Proof. split; [cbn; intuition discriminate|reflexivity]. Qed.

Theorem C02_unknown_subevent F V sub rest : ~ In sub known_subevents ->
  event_new F V (framed 0x3E (sub :: rest)) = Err (EUnknownEvent sub).
Proof. exact (unknown_subevent F V sub rest). Qed.
Print Assumptions C02_unknown_subevent.
Example C02_unknown_subevent_case : ~ In 0x06 known_subevents
  /\ event_new F41 test_vendor [0x3E; 2; 0x06; 1] = Err (EUnknownEvent 0x06).
Proof. split; [cbn; intuition discriminate|reflexivity]. Qed.

Theorem C02_empty_meta_event F V : event_new F V (framed 0x3E []) = Err (EBadLength 0 1).
Proof. exact (empty_meta_event F V). Qed.
Print Assumptions C02_empty_meta_event.

(** Only those: the error is never reported for a supported code. *)
Theorem C02_unknown_event_iff F V pkt x :
  vendor_total V -> vendor_no_unknown_event V -> bytes pkt ->
  event_new F V pkt = Err (EUnknownEvent x) <->
  (~ In x known_events /\ exists p, pkt = framed x p)
  \/ (~ In x known_subevents /\ exists rest, pkt = framed 0x3E (x :: rest)).
Proof. exact (fun HV HU => unknown_event_iff F V HV HU pkt x). Qed.
Print Assumptions C02_unknown_event_iff.
Example C02_unknown_event_iff_case :
  vendor_total test_vendor /\ vendor_no_unknown_event test_vendor /\ bytes [0x01; 1; 0xAB].
Proof.
  split; [exact test_vendor_total|]. split; [exact test_vendor_no_unknown_event|].
  repeat constructor.
Qed.

(** An event is returned only for its own code. *)
Theorem C02_event_of_code F V pkt ev : event_new F V pkt = Ok ev ->
  exists p, pkt = framed (event_code ev) p /\
    match event_subcode ev with Some sub => exists rest, p = sub :: rest | None => True end.
Proof. exact (event_of_code F V pkt ev). Qed.
Print Assumptions C02_event_of_code.
Example C02_event_of_code_case :
  event_new F42 test_vendor [0x3E; 11; 0x07; 1; 2; 3; 4; 5; 6; 7; 8; 9; 10]
  = Ok (EvLeDataLengthChangeEvent (Build_le_data_length_change_event 0x201 0x403 0x605 0x807 0xA09)).
Proof. reflexivity. Qed.

(** ** C03 Decoding never panics: false; exactly which packets panic *)

Theorem C03_never_panics_refuted :
  exists F V pkt, vendor_total V /\ bytes pkt /\ event_new F V pkt = Panic.
Proof. exact never_panics_refuted. Qed.
Print Assumptions C03_never_panics_refuted.

Theorem C03_panics_exactly F V pkt : vendor_total V -> bytes pkt ->
  event_new F V pkt = Panic <-> panics F V pkt.
Proof. exact (fun HV => event_new_panic F V HV pkt). Qed.
Print Assumptions C03_panics_exactly.
(** One packet of each kind. *)
Example C03_panics_exactly_case :
  event_new F41 test_vendor [0x0E; 3; 1; 0x03; 0x0C] = Panic
  /\ event_new F41 test_vendor [0x0E; 4; 1; 0x0F; 0x20; 0] = Panic
  /\ event_new F41 test_vendor [0x3E; 1; 0x02] = Panic
  /\ event_new F41 test_vendor [0x3E; 5; 0x02; 1; 0; 0; 0] = Panic
  /\ event_new F41 test_vendor [0x0E; 4; 1; 0x03; 0x0C; 0]
     = Ok (EvCommandComplete (@Build_command_complete test_vendor 1 (@RetReset test_vendor Success))).
Proof. repeat split; reflexivity. Qed.

(** ** C04 BR/EDR events decode exactly the specified layout *)

Theorem C04_connection_complete F V pkt s h a lt en : bytes pkt ->
  event_new F V pkt = Ok (EvConnectionComplete (Build_connection_complete s h a lt en)) <->
  exists sb, status_byte F V sb s /\ u16 h /\ length a = 6%nat
    /\ pkt = [0x03; 11; sb] ++ le 2 h ++ a ++ [link_type_code lt; flag en].
Proof. exact (connection_complete_packet F V pkt s h a lt en). Qed.
Print Assumptions C04_connection_complete.
Example C04_connection_complete_case :
  event_new F41 test_vendor [0x03; 11; 0; 1; 2; 0x33; 0x44; 0x55; 0x66; 0x77; 0x88; 1; 0]
  = Ok (EvConnectionComplete (Build_connection_complete Success 0x0201
          [0x33; 0x44; 0x55; 0x66; 0x77; 0x88] Acl false)).
Proof. reflexivity. Qed.

Theorem C04_disconnection_complete F V pkt s h r : bytes pkt ->
  event_new F V pkt = Ok (EvDisconnectionComplete (Build_disconnection_complete s h r)) <->
  exists sb rb, status_byte F V sb s /\ u16 h /\ status_byte F V rb r
    /\ pkt = [0x05; 4; sb] ++ le 2 h ++ [rb].
Proof. exact (disconnection_complete_packet F V pkt s h r). Qed.
Print Assumptions C04_disconnection_complete.
Example C04_disconnection_complete_case :
  event_new F41 test_vendor [0x05; 4; 0; 1; 2; 0x45]
  = Ok (EvDisconnectionComplete
         (Build_disconnection_complete Success 0x0201 (@Vendor (VStatus test_vendor) 0x45))).
Proof. reflexivity. Qed.

Theorem C04_encryption_change F V pkt s h e : bytes pkt ->
  event_new F V pkt = Ok (EvEncryptionChange (Build_encryption_change s h e)) <->
  exists sb, status_byte F V sb s /\ u16 h
    /\ pkt = [0x08; 4; sb] ++ le 2 h ++ [encryption_code e].
Proof. exact (encryption_change_packet F V pkt s h e). Qed.
Print Assumptions C04_encryption_change.
Example C04_encryption_change_case :
  event_new F41 test_vendor [0x08; 4; 0; 1; 2; 2]
  = Ok (EvEncryptionChange (Build_encryption_change Success 0x0201 EncOnAesCcmForBrEdr)).
Proof. reflexivity. Qed.

Theorem C04_read_remote_version F V pkt s h v m sv : bytes pkt ->
  event_new F V pkt = Ok (EvReadRemoteVersionInformationComplete
                            (Build_remote_version_information s h v m sv)) <->
  exists sb, status_byte F V sb s /\ u16 h /\ u16 m /\ u16 sv
    /\ pkt = [0x0C; 8; sb] ++ le 2 h ++ [v] ++ le 2 m ++ le 2 sv.
Proof. exact (remote_version_packet F V pkt s h v m sv). Qed.
Print Assumptions C04_read_remote_version.
Example C04_read_remote_version_case :
  event_new F41 test_vendor [0x0C; 8; 0; 1; 2; 3; 4; 5; 6; 7]
  = Ok (EvReadRemoteVersionInformationComplete
          (Build_remote_version_information Success 0x0201 3 0x0504 0x0706)).
Proof. reflexivity. Qed.

Theorem C04_command_status F V pkt s n o : bytes pkt ->
  event_new F V pkt = Ok (EvCommandStatus (Build_command_status s n o)) <->
  exists sb, status_byte F V sb s /\ u16 o /\ pkt = [0x0F; 4; sb; n] ++ le 2 o.
Proof. exact (command_status_packet F V pkt s n o). Qed.
Print Assumptions C04_command_status.
Example C04_command_status_case :
  event_new F41 test_vendor [0x0F; 4; 0; 8; 1; 2]
  = Ok (EvCommandStatus (Build_command_status Success 8 0x0201)).
Proof. reflexivity. Qed.

Theorem C04_hardware_error F V pkt c : bytes pkt ->
  event_new F V pkt = Ok (EvHardwareError (Build_hardware_error c)) <-> pkt = [0x10; 1; c].
Proof. exact (hardware_error_packet F V pkt c). Qed.
Print Assumptions C04_hardware_error.
Example C04_hardware_error_case :
  bytes [0x10; 1; 0xFF]
  /\ event_new F41 test_vendor [0x10; 1; 0xFF] = Ok (EvHardwareError (Build_hardware_error 0xFF)).
Proof. split; [repeat constructor|reflexivity]. Qed.

Theorem C04_data_buffer_overflow F V pkt lt : bytes pkt ->
  event_new F V pkt = Ok (EvDataBufferOverflow (Build_data_buffer_overflow lt)) <->
  pkt = [0x1A; 1; link_type_code lt].
Proof. exact (data_buffer_overflow_packet F V pkt lt). Qed.
Print Assumptions C04_data_buffer_overflow.
Example C04_data_buffer_overflow_case :
  event_new F41 test_vendor [0x1A; 1; 0] = Ok (EvDataBufferOverflow (Build_data_buffer_overflow Sco)).
Proof. reflexivity. Qed.

Theorem C04_encryption_key_refresh F V pkt s h : bytes pkt ->
  event_new F V pkt
  = Ok (EvEncryptionKeyRefreshComplete (Build_encryption_key_refresh_complete s h)) <->
  exists sb, status_byte F V sb s /\ u16 h /\ pkt = [0x30; 3; sb] ++ le 2 h.
Proof. exact (encryption_key_refresh_packet F V pkt s h). Qed.
Print Assumptions C04_encryption_key_refresh.
Example C04_encryption_key_refresh_case :
  event_new F41 test_vendor [0x30; 3; 0x40; 0xFF; 0x0E]
  = Ok (EvEncryptionKeyRefreshComplete (Build_encryption_key_refresh_complete
          CoarseClockAdjustmentRejectedDraggingAttempted 0x0EFF)).
Proof. reflexivity. Qed.

(** ** C05 LE meta events decode exactly the specified layout *)

Theorem C05_le_connection_complete F V pkt s h role peer ci acc : bytes pkt ->
  event_new F V pkt
  = Ok (EvLeConnectionComplete (Build_le_connection_complete s h role peer ci acc)) <->
  exists sb iv, status_byte F V sb s /\ u16 h /\ address_ok peer /\ fixed_interval_bytes ci iv
    /\ pkt = [0x3E; 19; 0x01; sb] ++ le 2 h ++ [role_code role] ++ address_bytes peer ++ iv
             ++ [clock_accuracy_code acc].
Proof. exact (le_connection_complete_packet F V pkt s h role peer ci acc). Qed.
Print Assumptions C05_le_connection_complete.
Example C05_le_connection_complete_case :
  event_new F41 test_vendor
    [0x3E; 19; 0x01; 0; 1; 2; 0; 0; 1; 2; 3; 4; 5; 6; 9; 0; 4; 0; 0x8A; 2; 0]
  = Ok (EvLeConnectionComplete (Build_le_connection_complete Success 0x0201 Central
          (BdPublic [1; 2; 3; 4; 5; 6]) (Build_fixed_conn_interval (us 11250) 4 (ms 6500)) Ppm500)).
Proof. vm_compute. reflexivity. Qed.

Theorem C05_le_connection_update F V pkt s h ci : bytes pkt ->
  event_new F V pkt
  = Ok (EvLeConnectionUpdateComplete (Build_le_connection_update_complete s h ci)) <->
  exists sb iv, status_byte F V sb s /\ u16 h /\ fixed_interval_bytes ci iv
    /\ pkt = [0x3E; 10; 0x03; sb] ++ le 2 h ++ iv.
Proof. exact (le_connection_update_packet F V pkt s h ci). Qed.
Print Assumptions C05_le_connection_update.
Example C05_le_connection_update_case :
  event_new F41 test_vendor [0x3E; 10; 0x03; 0; 1; 2; 6; 0; 4; 0; 0x8A; 2]
  = Ok (EvLeConnectionUpdateComplete (Build_le_connection_update_complete Success 0x0201
          (Build_fixed_conn_interval (us 7500) 4 (ms 6500)))).
Proof. vm_compute. reflexivity. Qed.

Theorem C05_le_remote_used_features F V pkt s h fe : bytes pkt ->
  event_new F V pkt
  = Ok (EvLeReadRemoteUsedFeaturesComplete (Build_le_read_remote_used_features_complete s h fe)) <->
  exists sb, status_byte F V sb s /\ u16 h /\ u64 fe
    /\ only_defined (le_feature_defined F) (N.testbit fe)
    /\ pkt = [0x3E; 12; 0x04; sb] ++ le 2 h ++ le 8 fe.
Proof. exact (le_used_features_packet F V pkt s h fe). Qed.
Print Assumptions C05_le_remote_used_features.
Example C05_le_remote_used_features_case :
  event_new F41 test_vendor [0x3E; 12; 0x04; 0; 1; 2; 0x0C; 0; 0; 0; 0; 0; 0; 0]
  = Ok (EvLeReadRemoteUsedFeaturesComplete
          (Build_le_read_remote_used_features_complete Success 0x0201 0x0C)).
Proof. vm_compute. reflexivity. Qed.

Theorem C05_le_long_term_key_request F V pkt h r d : bytes pkt ->
  event_new F V pkt = Ok (EvLeLongTermKeyRequest (Build_le_long_term_key_request h r d)) <->
  u16 h /\ u64 r /\ u16 d /\ pkt = [0x3E; 13; 0x05] ++ le 2 h ++ le 8 r ++ le 2 d.
Proof. exact (le_ltk_request_packet F V pkt h r d). Qed.
Print Assumptions C05_le_long_term_key_request.
Example C05_le_long_term_key_request_case :
  event_new F41 test_vendor [0x3E; 13; 0x05; 1; 2; 3; 4; 5; 6; 7; 8; 9; 10; 11; 12]
  = Ok (EvLeLongTermKeyRequest (Build_le_long_term_key_request 0x0201 0x0A09080706050403 0x0C0B)).
Proof. vm_compute. reflexivity. Qed.

Theorem C05_le_data_length_change F V pkt h a b c d : bytes pkt ->
  event_new F V pkt
  = Ok (EvLeDataLengthChangeEvent (Build_le_data_length_change_event h a b c d)) <->
  u16 h /\ u16 a /\ u16 b /\ u16 c /\ u16 d
  /\ pkt = [0x3E; 11; 0x07] ++ le 2 h ++ le 2 a ++ le 2 b ++ le 2 c ++ le 2 d.
Proof. exact (le_data_length_change_packet F V pkt h a b c d). Qed.
Print Assumptions C05_le_data_length_change.
Example C05_le_data_length_change_case :
  event_new F42 test_vendor [0x3E; 11; 0x07; 1; 2; 3; 4; 5; 6; 7; 8; 9; 10]
  = Ok (EvLeDataLengthChangeEvent (Build_le_data_length_change_event 0x201 0x403 0x605 0x807 0xA09)).
Proof. reflexivity. Qed.

Theorem C05_le_phy_update F V pkt s h tx rx : bytes pkt ->
  event_new F V pkt = Ok (EvLePhyUpdateComplete (Build_le_phy_update_complete s h tx rx)) <->
  exists sb, status_byte F V sb s /\ u16 h
    /\ pkt = [0x3E; 6; 0x0C; sb] ++ le 2 h ++ [phy_code tx; phy_code rx].
Proof. exact (le_phy_update_packet F V pkt s h tx rx). Qed.
Print Assumptions C05_le_phy_update.
Example C05_le_phy_update_case :
  event_new F50 test_vendor [0x3E; 6; 0x0C; 0x44; 1; 2; 1; 2]
  = Ok (EvLePhyUpdateComplete
         (Build_le_phy_update_complete OperationCancelledByHost 0x0201 Le2M LeCoded)).
Proof. reflexivity. Qed.

(** ** C06 The error is that of the first failing check *)

Theorem C06_first_error F V code p cs : vendor_total V -> bytes p ->
  event_checks F V code p = Some cs ->
  match first_error cs with
  | Some e => event_new F V (framed code p) = Err e
  | None => exists ev, event_new F V (framed code p) = Ok ev
  end.
Proof. exact (fun HV => event_agrees F V HV code p cs). Qed.
Print Assumptions C06_first_error.
(** A wrong length; a bad status before a bad link type; an interval error. *)
Example C06_first_error_case :
  event_new F41 test_vendor [0x05; 3; 0x99; 1; 2] = Err (EBadLength 3 4)
  /\ event_new F41 test_vendor [0x03; 11; 0x99; 1; 2; 3; 4; 5; 6; 7; 8; 2; 2] = Err (EBadStatus 0x99)
  /\ event_new F41 test_vendor [0x03; 11; 0; 1; 2; 3; 4; 5; 6; 7; 8; 2; 3] = Err (EBadLinkType 2)
  /\ event_new F41 test_vendor [0x3E; 10; 0x03; 0; 1; 2; 5; 0; 4; 0; 0x8A; 2]
     = Err (EBadConnectionInterval (IntervalTooShort (us 6250))).
Proof. repeat split; vm_compute; reflexivity. Qed.

(** ** C07 Number Of Completed Packets reports exactly the pairs sent *)

Theorem C07_completed_packets F V pkt l : bytes pkt ->
  (exists ev, event_new F V pkt = Ok (EvNumberOfCompletedPackets ev)
           /\ iterates (@ncp_next Empty_set ev) O l)
  <-> Forall pair_ok l
      /\ pkt = [0x13; N.of_nat (1 + 4 * length l); N.of_nat (length l)] ++ flat_map pair_bytes l.
Proof. exact (completed_packets_packet F V pkt l). Qed.
Print Assumptions C07_completed_packets.
Example C07_completed_packets_case :
  exists ev, event_new F41 test_vendor [0x13; 9; 2; 1; 2; 3; 4; 5; 6; 7; 8]
               = Ok (EvNumberOfCompletedPackets ev)
    /\ calls (@ncp_next Empty_set ev) 4 O
       = Ok [Some (Build_completed_packets_pair 0x0201 0x0403);
             Some (Build_completed_packets_pair 0x0605 0x0807); None; None].
Proof. eexists. split; vm_compute; reflexivity. Qed.

Theorem C07_accepted F V p : bytes p -> (length p <= 255)%nat ->
  (exists ev, event_new F V (framed 0x13 p) = Ok ev) <->
  exists n bs, p = N.of_nat n :: bs /\ length bs = (4 * n)%nat.
Proof. exact (completed_packets_accepted F V p). Qed.
Print Assumptions C07_accepted.

(** Every accepted event can be iterated with any number of calls; there are at
    most 63 pairs. *)
Theorem C07_iteration F V pkt ev : bytes pkt ->
  event_new F V pkt = Ok (EvNumberOfCompletedPackets ev) ->
  exists l, (length l <= 63)%nat
         /\ pkt = [0x13; N.of_nat (1 + 4 * length l); N.of_nat (length l)] ++ flat_map pair_bytes l
         /\ forall n, calls (@ncp_next Empty_set ev) n O = Ok (expected_calls n l).
Proof. exact (accepted_pairs_calls F V pkt ev). Qed.
Print Assumptions C07_iteration.

Theorem C07_rejected F V p : (length p <= 255)%nat ->
  (p = [] -> event_new F V (framed 0x13 p) = Err (EBadLength 0 1))
  /\ (forall c bs, p = c :: bs -> length bs <> (4 * N.to_nat c)%nat ->
        event_new F V (framed 0x13 p) = Err (EBadLength (length p) (1 + 4 * N.to_nat c))).
Proof. exact (completed_packets_errors F V p). Qed.
Print Assumptions C07_rejected.
Example C07_rejected_case :
  event_new F41 test_vendor [0x13; 5; 2; 1; 2; 3; 4] = Err (EBadLength 5 9).
Proof. reflexivity. Qed.

(** ** C08 LE Advertising Report returns exactly the advertisements sent *)

Theorem C08_advertising_report F V pkt l : bytes pkt ->
  (exists r, event_new F V pkt = Ok (EvLeAdvertisingReport r)
          /\ iterates (@lar_next Empty_set r) O l)
  <-> Forall advertisement_ok l
      /\ exists count, pkt = [0x3E; N.of_nat (2 + length (flat_map advertisement_bytes l)); 0x02; count]
                             ++ flat_map advertisement_bytes l.
Proof. exact (advertising_report_packet F V pkt l). Qed.
Print Assumptions C08_advertising_report.
Definition C08_entries : list le_advertisement :=
  [ Build_le_advertisement AdvAdvertisement (BdPublic [1; 2; 3; 4; 5; 6]) [7; 8; 9] (Some (-100)%Z);
    Build_le_advertisement AdvScanResponse (BdRandom [6; 5; 4; 3; 2; 1]) [] None ].
Definition C08_packet : list N :=
  [0x3E; 25; 0x02; 2; 0; 0; 1; 2; 3; 4; 5; 6; 3; 7; 8; 9; 156; 4; 1; 6; 5; 4; 3; 2; 1; 0; 127].
Example C08_advertising_report_case :
  bytes C08_packet /\ Forall advertisement_ok C08_entries
  /\ C08_packet = [0x3E; N.of_nat (2 + length (flat_map advertisement_bytes C08_entries)); 0x02; 2]
                  ++ flat_map advertisement_bytes C08_entries
  /\ exists r, event_new F41 test_vendor C08_packet = Ok (EvLeAdvertisingReport r)
       /\ calls (@lar_next Empty_set r) 3 O = Ok (map Some C08_entries ++ [None]).
Proof.
  split; [repeat constructor|]. split.
  - repeat constructor; cbn; unfold is_i8; lia.
  - split; [reflexivity|]. eexists. split; vm_compute; reflexivity.
Qed.

(** The packets that are not accepted: the first entry that is bad decides. *)
Theorem C08_rejected F V data count : bytes data -> (length data <= 253)%nat ->
  (event_new F V (framed 0x3E (0x02 :: count :: data)) = Panic <->
     exists l tail, entries_then l tail data /\ (1 <= length tail <= 8)%nat)
  /\ forall e, event_new F V (framed 0x3E (0x02 :: count :: data)) = Err e <->
     exists l tail, entries_then l tail data /\ (9 <= length tail)%nat
       /\ first_error (entry_checks V tail) = Some e.
Proof. exact (fun H H' => advertising_report_failures F V data H H' count). Qed.
Print Assumptions C08_rejected.
Example C08_rejected_case :
  event_new F41 test_vendor [0x3E; 12; 0x02; 1; 5; 0; 1; 2; 3; 4; 5; 6; 0; 0]
    = Err (EBadLeAdvertisementType 5)
  /\ event_new F41 test_vendor [0x3E; 12; 0x02; 1; 0; 2; 1; 2; 3; 4; 5; 6; 0; 0]
    = Err (EBadLeAddressType 2)
  /\ event_new F41 test_vendor [0x3E; 12; 0x02; 1; 0; 2; 1; 2; 3; 4; 5; 6; 1; 0]
    = Err ELeAdvertisementReportIncomplete.
Proof. repeat split; vm_compute; reflexivity. Qed.

(** ** C09 Iterating an accepted report cannot panic and always ends *)

Theorem C09_report_iterates F V pkt r : bytes pkt ->
  event_new F V pkt = Ok (EvLeAdvertisingReport r) ->
  exists l, (length l <= 25)%nat
         /\ forall n, calls (@lar_next Empty_set r) n O = Ok (expected_calls n l).
Proof. exact (accepted_report_calls F V pkt r). Qed.
Print Assumptions C09_report_iterates.
(** 25 entries fit. *)
Example C09_report_iterates_case :
  let data := flat_map (fun _ => [0; 0; 1; 2; 3; 4; 5; 6; 0; 10]) (seq 0 25) in
  exists r, event_new F41 test_vendor (framed 0x3E (0x02 :: 25 :: data)) = Ok (EvLeAdvertisingReport r)
    /\ option_map (@length _)
         (match calls (@lar_next Empty_set r) 30 O with Ok l => Some (filter (fun x => match x with Some _ => true | None => false end) l) | _ => None end)
       = Some 25%nat.
Proof. eexists. split; vm_compute; reflexivity. Qed.
