(** * Which events a controller sends: C82. *)
From Coq Require Import String.
From Verif Require Import Base Model_Types Model_Bitflags Model_FlagNames Model_Intervals Model_EventBase Model_Command Model_Event
  Model_Host Spec_Wire Spec_Errors Spec_Host Spec_Link Spec_Example Spec_Split Spec_FlagNames Spec_Device Spec_Air
  Spec_Enabled Proofs_Base Proofs_Device Proofs_Enabled.
Open Scope list_scope.
Open Scope N_scope.

(** ** C82: the controller sends the events its host asked for

    [told … d cs]: a session in which the calls [cs] succeeded, and after which a
    controller that had been reset has the settings [d] (Spec_Air.v).  The flags
    for two subevents exist in later versions only ([le_event_known]). *)
Theorem C82_enabled F V St E (C : controller St E) h os s d cs pkt ev :
  contract C h -> Forall (typed_operation F) os -> possible h s -> told F V C h os s d cs ->
  event_new F V pkt = Ok ev -> le_event_known F ev = true ->
  lets_through d pkt = wants_event F cs ev.
Proof. exact (fun HC Ho Hs HT => enabled_told F V C h os s d cs HC Ho Hs HT pkt ev). Qed.
Print Assumptions C82_enabled.

(** No LE event comes unless the host gave a mask with the flag for them. *)
Theorem C82_le F V St E (C : controller St E) h os s d cs pkt ev :
  contract C h -> Forall (typed_operation F) os -> possible h s -> told F V C h os s d cs ->
  event_new F V pkt = Ok ev -> is_le_event ev = true -> lets_through d pkt = true ->
  exists mask c, event_constant F "LE_META_EVENT" = Some c /\ In (CSetEventMask mask) cs /\ bf_contains mask c = true.
Proof. exact (fun HC Ho Hs HT => le_events_wanted F V C h os s d cs HC Ho Hs HT pkt ev). Qed.
Print Assumptions C82_le.

Definition mask_operations : list (operation test_vendor) :=
  [Send (CSetEventMask 0xFFFF); Send CReset; Send (CSetEventMask 0x2000000000000010); Send (CLeSetEventMask 0x02)].
Definition mask_state : queue :=
  {| q_received := []; q_consumed := 0; q_arrivals := []; q_written := []; q_ready := [Ready; Ready; Ready; Ready] |}.
Definition mask_result := session F41 test_vendor queue_controller mask_operations mask_state.
Definition mask_calls : list (command test_vendor) := sent_commands (snd mask_result).
Definition mask_packets : list (N * list N) :=
  match parse_commands (q_written (fst mask_result)) with Some packets => packets | None => [] end.
Definition mask_settings : settings := fold_left carry_out mask_packets after_reset.

(** Disconnections and advertising reports are sent, hardware errors and LE
    connections are not. *)
Example C82_case :
  Forall (typed_operation F41) mask_operations /\ possible queue_history mask_state
  /\ told F41 test_vendor queue_controller queue_history mask_operations mask_state mask_settings mask_calls
  /\ length mask_calls = 4%nat
  /\ lets_through mask_settings [0x05; 4; 0; 1; 0; 0x13] = true
  /\ lets_through mask_settings [0x10; 1; 0x42] = false
  /\ lets_through mask_settings [0x3E; 2; 0x02; 0] = true
  /\ lets_through mask_settings [0x3E; 19; 0x01; 0; 1; 0; 0; 0; 1; 2; 3; 4; 5; 6; 6; 0; 0; 0; 10; 0; 0] = false
  /\ lets_through after_reset [0x3E; 2; 0x02; 0] = false
  /\ wants_event F41 mask_calls (EvHardwareError (V := test_vendor) (Build_hardware_error 0x42)) = false
  /\ wants_event F41 mask_calls (EvDisconnectionComplete (V := test_vendor)
       {| dsc_status := Success; dsc_conn_handle := 1; dsc_reason := RemoteTerminationByUser |}) = true.
Proof.
  split; [repeat constructor|].
  split; [split; [constructor|split; [cbn; lia|repeat constructor]]|].
  split.
  - left. change (session _ _ _ mask_operations mask_state) with mask_result.
    rewrite (surjective_pairing mask_result). split; [reflexivity|].
    exists (q_written (fst mask_result)), mask_packets.
    split; [reflexivity|]. split; [vm_compute; reflexivity|reflexivity].
  - repeat split; vm_compute; reflexivity.
Qed.
