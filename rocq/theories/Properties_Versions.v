(** * Enabled versions, failed connections and loss of information: C40, C41, C44. *)
From Verif Require Import Base Model_Types Model_Intervals Model_EventBase Model_Command Model_Event
  Spec_Wire Spec_Interval Spec_Errors Spec_Report Spec_Vendor Spec_Versions Spec_Example
  Proofs_Base Proofs_Versions Proofs_Loss.

(** ** C40: newer feature versions accept everything older ones do *)
Theorem C40_accepted F F' V pkt ev : newer F F' -> bytes pkt -> event_new F V pkt = Ok ev ->
  exists ev', event_new F' V pkt = Ok ev' /\ event_reread F F' V ev ev'.
Proof. exact (fun HN => event_rereads F F' V HN pkt ev). Qed.
Print Assumptions C40_accepted.
Theorem C40_status F F' V s s' : newer F F' -> status_reread F F' V s s' ->
  s' = s
  \/ version_5_0 F = false /\ version_5_0 F' = true
     /\ exists b v, vstatus_try_from V b = Ok v /\ s = Vendor v
          /\ In (b, s') [(0x41, Type0SubmapNotDefined); (0x42, UnknownAdvertisingId);
                         (0x43, LimitReached); (0x44, OperationCancelledByHost)].
Proof. exact (fun HN => reread_same F F' V HN s s'). Qed.
Print Assumptions C40_status.
Theorem C40_panic F F' V pkt : newer F F' -> vendor_total V -> bytes pkt ->
  event_new F V pkt = Panic -> event_new F' V pkt = Panic.
Proof. exact (fun HN => panic_rereads F F' V HN pkt). Qed.
Print Assumptions C40_panic.
Theorem C40_same_version F F' V pkt : same_version F F' -> event_new F V pkt = event_new F' V pkt.
Proof. exact (version_same F F' V pkt). Qed.
Print Assumptions C40_same_version.
Example C40_case :
  (* LE Read Local Supported Features with the features 0 and 8 (2M PHY), and Disconnection
     Complete with the reason 0x44 *)
  newer F41 F42 /\ newer F42 F50 /\ newer F41 F50 /\ ~ newer F50 F42
  /\ same_version F50 {| version_4_2 := true; version_5_0 := true |}
  /\ event_new F41 test_vendor [0x0E; 12; 1; 3; 0x20; 0; 1; 1; 0; 0; 0; 0; 0; 0]
     = Ok (EvCommandComplete (Build_command_complete 1
             (RetLeReadLocalSupportedFeatures (Build_le_supported_features Success 0x001))))
  /\ event_new F50 test_vendor [0x0E; 12; 1; 3; 0x20; 0; 1; 1; 0; 0; 0; 0; 0; 0]
     = Ok (EvCommandComplete (Build_command_complete 1
             (RetLeReadLocalSupportedFeatures (Build_le_supported_features Success 0x101))))
  /\ event_new F41 test_vendor [0x05; 4; 0; 1; 0; 0x44] = Err (EBadReason 0x44)
  /\ event_new F50 test_vendor [0x05; 4; 0; 1; 0; 0x44]
     = Ok (EvDisconnectionComplete (Build_disconnection_complete Success 1 OperationCancelledByHost)).
Proof.
  unfold same_version, newer. cbn. repeat split; try (intros [_ H]; specialize (H eq_refl); discriminate);
    auto; try discriminate; vm_compute; reflexivity.
Qed.
(** A status that only version 5.0 names (the vendor of version 4.1 may know its
    code), and packets that panic in both. *)
Definition C40_vendor : vendor :=
  {| VStatus := N; VEvent := list N; VReturn := list N; VError := N;
     vstatus_try_from := fun b => if b =? 0x43 then Ok b else Err b; vstatus_into := fun b => b;
     vevent_new := fun p => Ok p; vreturn_new := fun p => Ok p |}.
Example C40_status_case :
  status_reread F41 F50 C40_vendor (Vendor (0x43 : VStatus C40_vendor)) LimitReached
  /\ event_new F41 C40_vendor [0x05; 4; 0x43; 1; 0; 0x13]
     = Ok (EvDisconnectionComplete (Build_disconnection_complete (Vendor (0x43 : VStatus C40_vendor)) 1 RemoteTerminationByUser))
  /\ event_new F50 C40_vendor [0x05; 4; 0x43; 1; 0; 0x13]
     = Ok (EvDisconnectionComplete (Build_disconnection_complete LimitReached 1 RemoteTerminationByUser))
  /\ vendor_total test_vendor
  /\ event_new F41 test_vendor [0x0E; 3; 1; 0x03; 0x0C] = Panic
  /\ event_new F50 test_vendor [0x0E; 3; 1; 0x03; 0x0C] = Panic.
Proof.
  split; [exists 0x43; split; [reflexivity|split; [exists (0x43 : VStatus C40_vendor); split; reflexivity|reflexivity]]|].
  split; [vm_compute; reflexivity|]. split; [vm_compute; reflexivity|]. split; [exact test_vendor_total|].
  split; vm_compute; reflexivity.
Qed.

(** ** C41: a failed connection reported by the controller reaches the user

    False: with zeros after the status, as for a connection that does not
    exist, what arrives is the error of the interval. *)
Theorem C41_connection_refuted F V :
  exists sb s, sb <> 0 /\ status_byte F V sb s /\ s <> Success
  /\ exists body, bytes body /\ length body = 17%nat
     /\ event_new F V (framed 0x3E (0x01 :: sb :: body))
        = Err (EBadConnectionInterval (IntervalTooShort 0)).
Proof. exact (failure_lost_connection F V). Qed.
Print Assumptions C41_connection_refuted.
Theorem C41_update_refuted F V :
  exists sb s, sb <> 0 /\ status_byte F V sb s /\ s <> Success
  /\ exists body, bytes body /\ length body = 8%nat
     /\ event_new F V (framed 0x3E (0x03 :: sb :: body))
        = Err (EBadConnectionInterval (IntervalTooShort 0)).
Proof. exact (failure_lost_update F V). Qed.
Print Assumptions C41_update_refuted.
(** No status at all survives zeroed parameters. *)
Theorem C41_zeroed F V sb s : status_byte F V sb s ->
  event_new F V (framed 0x3E (0x01 :: sb :: repeat 0 17)) = Err (EBadConnectionInterval (IntervalTooShort 0))
  /\ event_new F V (framed 0x3E (0x03 :: sb :: repeat 0 8)) = Err (EBadConnectionInterval (IntervalTooShort 0)).
Proof. exact (zeroed_failure_lost F V sb s). Qed.
Print Assumptions C41_zeroed.

(** The status is delivered exactly if the other fields are acceptable; if they
    are not, the error is the same whatever the status. *)
Theorem C41_connection_delivered F V body sb s : bytes body -> length body = 17%nat ->
  connection_fields_ok body -> status_byte F V sb s ->
  exists ev, event_new F V (framed 0x3E (0x01 :: sb :: body)) = Ok (EvLeConnectionComplete ev)
          /\ lcc_status ev = s.
Proof. exact (fun Hb Hl Hf => connection_delivered F V body Hb Hl Hf sb s). Qed.
Print Assumptions C41_connection_delivered.
Theorem C41_connection_lost F V body : bytes body -> length body = 17%nat ->
  ~ connection_fields_ok body ->
  exists e, forall sb s, status_byte F V sb s ->
    event_new F V (framed 0x3E (0x01 :: sb :: body)) = Err e.
Proof. exact (connection_lost F V body). Qed.
Print Assumptions C41_connection_lost.
Theorem C41_update_delivered F V body sb s : bytes body -> length body = 8%nat ->
  update_fields_ok body -> status_byte F V sb s ->
  exists ev, event_new F V (framed 0x3E (0x03 :: sb :: body)) = Ok (EvLeConnectionUpdateComplete ev)
          /\ lcu_status ev = s.
Proof. exact (fun Hb Hl Hf => update_delivered F V body Hb Hl Hf sb s). Qed.
Print Assumptions C41_update_delivered.
Theorem C41_update_lost F V body : bytes body -> length body = 8%nat -> ~ update_fields_ok body ->
  exists e, forall sb s, status_byte F V sb s ->
    event_new F V (framed 0x3E (0x03 :: sb :: body)) = Err e.
Proof. exact (update_lost F V body). Qed.
Print Assumptions C41_update_lost.
Example C41_case :
  (* 0x3E: connection failed to be established; an interval of 50 ms, no latency, 1 s *)
  let good := [1; 0; 0; 1; 1; 2; 3; 4; 5; 6; 40; 0; 0; 0; 100; 0; 3] in
  bytes good /\ length good = 17%nat /\ connection_fields_ok good
  /\ ~ connection_fields_ok (repeat 0 17)
  /\ update_fields_ok [1; 0; 40; 0; 0; 0; 100; 0] /\ ~ update_fields_ok (repeat 0 8)
  /\ status_byte F41 test_vendor 0x3E ConnectionFailedToEstablish
  /\ status_byte F41 test_vendor 0x45 (@Vendor (VStatus test_vendor) 0x45).
Proof.
  cbv zeta. split; [repeat constructor|]. split; [reflexivity|].
  split; [vm_compute; repeat split; congruence|]. split; [intros (_ & _ & H & _); vm_compute in H; intuition congruence|].
  split; [vm_compute; repeat split; congruence|]. split; [intros H; vm_compute in H; intuition congruence|].
  split; [reflexivity|]. exists 0x45. split; reflexivity.
Qed.

(** ** C44: decoding loses no information except where documented *)
Theorem C44_lossless F V pkt pkt' ev : vendor_statuses_distinct V -> bytes pkt -> bytes pkt' ->
  ~ vendor_packet pkt -> event_new F V pkt = Ok ev ->
  (event_new F V pkt' = Ok ev <-> pkt' = pkt \/ alike F pkt pkt').
Proof. exact (fun HV => event_loss_iff F V HV pkt pkt' ev). Qed.
Print Assumptions C44_lossless.
(** Packets that are alike have the same outcome, good or bad. *)
Theorem C44_alike F V pkt pkt' : alike F pkt pkt' -> event_new F V pkt = event_new F V pkt'.
Proof. exact (alike_same F V pkt pkt'). Qed.
Print Assumptions C44_alike.
Example C44_case :
  vendor_statuses_distinct test_vendor
  /\ bytes [0x0E; 4; 1; 3; 0x0C; 0] /\ bytes [0x0E; 5; 1; 3; 0x0C; 0; 9]
  /\ ~ vendor_packet [0x0E; 4; 1; 3; 0x0C; 0]
  /\ event_new F41 test_vendor [0x0E; 4; 1; 3; 0x0C; 0]
     = Ok (EvCommandComplete (Build_command_complete 1 (RetReset Success)))
  /\ alike F41 [0x0E; 4; 1; 3; 0x0C; 0] [0x0E; 5; 1; 3; 0x0C; 0; 9]
  /\ event_new F41 test_vendor [0x0E; 5; 1; 3; 0x0C; 0; 9]
     = Ok (EvCommandComplete (Build_command_complete 1 (RetReset Success))).
Proof.
  split.
  { intros b b' v. cbn. destruct (_ || _)%bool eqn:E; [|discriminate].
    destruct ((b' =? _) || _)%bool eqn:E'; [|discriminate]. congruence. }
  split; [repeat constructor|]. split; [repeat constructor|].
  split; [vm_compute; intuition congruence|]. split; [vm_compute; reflexivity|].
  split; [|vm_compute; reflexivity].
  apply (alike_status F41 1 (hci_opcode 0x03 0x003) 0 [] [9]). cbn. tauto.
Qed.
