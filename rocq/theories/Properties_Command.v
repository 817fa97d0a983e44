(** * Properties of Command Complete decoding, statuses, opcodes and bit fields:
    C10 to C15, C17, C18. *)
From Verif Require Import Base Model_Types Model_Bitflags Model_Intervals
  Model_EventBase Model_Command Model_Event
  Spec_Wire Spec_Interval Spec_Errors Spec_Report Spec_Vendor Spec_Example
  Proofs_Types Proofs_Command Proofs_Vendor Proofs_Complete.

(** ** C10 Command Complete is dispatched on the opcode alone *)

Theorem C10_short F V p : (length p < 3)%nat ->
  event_new F V (framed 0x0E p) = Err (EBadLength (length p) 3).
Proof. exact (complete_short F V p). Qed.
Print Assumptions C10_short.
Example C10_short_case : event_new F41 test_vendor [0x0E; 2; 1; 2] = Err (EBadLength 2 3).
Proof. reflexivity. Qed.

(** A Command Complete is accepted with the number of packets [n] and the return
    parameters [r] exactly if the payload is [n], an opcode and return bytes
    that are those of [r] for this opcode, or the vendor's. *)
Theorem C10_dispatch F V pkt n r : bytes pkt ->
  event_new F V pkt = Ok (EvCommandComplete (Build_command_complete n r)) <->
  exists op ret, u16 op /\ pkt = [0x0E; N.of_nat (3 + length ret); n] ++ le 2 op ++ ret
    /\ (wire_return F V r op ret
        \/ exists v, op / 1024 = 0x3F /\ vreturn_new V ([n] ++ le 2 op ++ ret) = Ok v
                  /\ r = RetVendor v).
Proof. exact (command_complete_dispatch_iff F V pkt n r). Qed.
Print Assumptions C10_dispatch.
Example C10_dispatch_case :
  bytes [0x0E; 6; 8; 0; 0; 1; 2; 3]
  /\ event_new F41 test_vendor [0x0E; 6; 8; 0; 0; 1; 2; 3]
     = Ok (EvCommandComplete (Build_command_complete 8 (@RetSpontaneous test_vendor)))
  /\ event_new F41 test_vendor [0x0E; 5; 8; 0x01; 0xFC; 1; 2]
     = Ok (EvCommandComplete (Build_command_complete 8
             (@RetVendor test_vendor [8; 0x01; 0xFC; 1; 2])))
  /\ event_new F41 test_vendor [0x0E; 7; 8; 0x2D; 0x0C; 0; 1; 2; 0xFF]
     = Ok (EvCommandComplete (Build_command_complete 8
             (RetReadTxPowerLevel (Build_tx_power_level Success 0x0201 (-1)%Z)))).
Proof. split; [repeat constructor|]. repeat split; vm_compute; reflexivity. Qed.

Theorem C10_unknown_opcode F V n op ret : u16 op -> ~ In op known_opcodes -> op / 1024 <> 0x3F ->
  event_new F V (framed 0x0E ([n] ++ le 2 op ++ ret)) = Err (EUnknownOpcode op).
Proof. exact (complete_unknown F V n op ret). Qed.
Print Assumptions C10_unknown_opcode.
Example C10_unknown_opcode_case :
  ~ In (hci_opcode 0x01 0x006) known_opcodes
  /\ event_new F41 test_vendor [0x0E; 3; 1; 0x06; 0x04] = Err (EUnknownOpcode (hci_opcode 0x01 0x006)).
Proof. split; [cbn; intuition discriminate|reflexivity]. Qed.

(** ** C11 Return parameters decode exactly the specified layout *)

(** [wire_return] is the layout of each kind of return parameters. *)
Theorem C11_layout F V pkt n r : bytes pkt -> (forall v, r <> RetVendor v) ->
  event_new F V pkt = Ok (EvCommandComplete (Build_command_complete n r)) <->
  exists op ret, u16 op /\ pkt = [0x0E; N.of_nat (3 + length ret); n] ++ le 2 op ++ ret
    /\ wire_return F V r op ret.
Proof. exact (command_complete_layout F V pkt n r). Qed.
Print Assumptions C11_layout.
Example C11_layout_case :
  wire_return F41 test_vendor
    (RetReadRssi (Build_read_rssi_params Success 0x0201 (-3)%Z)) 0x1405 [0; 1; 2; 0xFD]
  /\ event_new F41 test_vendor [0x0E; 7; 1; 0x05; 0x14; 0; 1; 2; 0xFD]
     = Ok (EvCommandComplete (Build_command_complete 1
         (@RetReadRssi test_vendor (Build_read_rssi_params Success 0x0201 (-3)%Z)))).
Proof.
  split; [|vm_compute; reflexivity].
  split; [reflexivity|]. split; [reflexivity|]. split; [split; cbn; lia|].
  exists 0. split; reflexivity.
Qed.

Theorem C11_first_error F V n op ret cs : vendor_total V -> u16 op -> bytes ret ->
  return_checks F V op ret = Some cs ->
  match first_error cs with
  | Some e => event_new F V (framed 0x0E ([n] ++ le 2 op ++ ret)) = Err e
  | None => exists ev, event_new F V (framed 0x0E ([n] ++ le 2 op ++ ret)) = Ok ev
  end.
Proof. exact (fun HV => complete_errors F V HV n op ret cs). Qed.
Print Assumptions C11_first_error.
Example C11_first_error_case :
  event_new F41 test_vendor [0x0E; 6; 8; 0x2D; 0x0C; 0; 1; 2] = Err (EBadLength 3 4)
  /\ event_new F41 test_vendor [0x0E; 7; 8; 0x2D; 0x0C; 0x41; 1; 2; 3] = Err (EBadStatus 0x41).
Proof. split; reflexivity. Qed.

(** ** C12 Status-only Command Complete events *)

Theorem C12_status_reported F V n op variant sb s rest :
  In (op, variant) (status_only_variants F V) ->
  byte n -> byte sb -> bytes rest -> (4 + length rest < 256)%nat -> status_byte F V sb s ->
  event_new F V (framed 0x0E ([n] ++ le 2 op ++ sb :: rest))
  = Ok (EvCommandComplete (Build_command_complete n (variant s))).
Proof. exact (status_only_reported F V n op variant sb s rest). Qed.
Print Assumptions C12_status_reported.
Example C12_status_reported_case :
  In (hci_opcode 0x08 0x011, @RetLeAddDeviceToWhiteList test_vendor)
     (status_only_variants F41 test_vendor)
  /\ event_new F41 test_vendor [0x0E; 6; 1; 0x11; 0x20; 0x07; 1; 2]
     = Ok (EvCommandComplete (Build_command_complete 1
             (@RetLeAddDeviceToWhiteList test_vendor OutOfMemory))).
Proof. split; [cbn; tauto|reflexivity]. Qed.

Theorem C12_status_refused F V n op variant sb e rest : vendor_total V ->
  In (op, variant) (status_only_variants F V) -> status_byte_refused F V sb e ->
  event_new F V (framed 0x0E ([n] ++ le 2 op ++ sb :: rest)) = Err (EBadStatus e).
Proof. exact (fun HV => status_only_refused F V HV n op variant sb e rest). Qed.
Print Assumptions C12_status_refused.
Example C12_status_refused_case :
  status_byte_refused F41 test_vendor 0x41 0x41
  /\ event_new F41 test_vendor [0x0E; 4; 1; 0x03; 0x0C; 0x41] = Err (EBadStatus 0x41).
Proof. repeat split; reflexivity. Qed.

Theorem C12_rest_ignored F V n op sb rest rest' : In op status_only_opcodes -> u16 op ->
  event_new F V (framed 0x0E ([n] ++ le 2 op ++ sb :: rest))
  = event_new F V (framed 0x0E ([n] ++ le 2 op ++ sb :: rest')).
Proof. exact (complete_status_only_rest F V n op sb rest rest'). Qed.
Print Assumptions C12_rest_ignored.

(** ** C13 Status codes and statuses correspond one to one *)

Theorem C13_byte_round_trip VS F (vt : N -> outcome bad_status_error VS) vi b s :
  (forall v, vt b = Ok v -> vi v = b) ->
  status_try_from F vt b = Ok s -> status_into F vi s = b.
Proof. exact (status_round_trip F vt vi b s). Qed.
Print Assumptions C13_byte_round_trip.
Example C13_byte_round_trip_case :
  (forall v, vstatus_try_from test_vendor 0x45 = Ok v -> vstatus_into test_vendor v = 0x45)
  /\ status_try_from F50 (vstatus_try_from test_vendor) 0x45 = Ok (Vendor 0x45)
  /\ status_try_from F50 (vstatus_try_from test_vendor) 0x3C = Ok AdvertisingTimeout.
Proof. split; [intros v H; now injection H as <-|]. split; reflexivity. Qed.

(** A status other than a vendor's has its assigned code, and comes back. *)
Theorem C13_assigned_code VS F (vi : VS -> N) s :
  (forall v, s <> Vendor v) -> status_exists F s ->
  nth_error (assigned_statuses F) (N.to_nat (status_into F vi s)) = Some s.
Proof. exact (status_into_assigned F vi s). Qed.
Print Assumptions C13_assigned_code.

Theorem C13_status_round_trip VS F (vt : N -> outcome bad_status_error VS) vi s :
  (forall v, s <> Vendor v) -> status_exists F s ->
  status_try_from F vt (status_into F vi s) = Ok s.
Proof. exact (status_back F vt vi s). Qed.
Print Assumptions C13_status_round_trip.
Example C13_status_round_trip_case :
  (forall v : N, LimitReached <> Vendor v) /\ @status_exists N F50 LimitReached
  /\ status_into F50 (vstatus_into test_vendor) LimitReached = 0x43.
Proof. split; [discriminate|]. split; reflexivity. Qed.

Theorem C13_codes_differ VS F (vi : VS -> N) s s' :
  (forall v, s <> Vendor v) -> status_exists F s ->
  (forall v, s' <> Vendor v) -> status_exists F s' ->
  status_into F vi s = status_into F vi s' -> s = s'.
Proof. exact (status_code_injective F vi s s'). Qed.
Print Assumptions C13_codes_differ.

Theorem C13_failure VS F (vt : N -> outcome bad_status_error VS) b e :
  status_try_from F vt b = Err e <->
  nth_error (@assigned_statuses VS F) (N.to_nat b) = None /\ vt b = Err e.
Proof. exact (status_fails F vt b e). Qed.
Print Assumptions C13_failure.
Example C13_failure_case :
  status_try_from F41 (vstatus_try_from test_vendor) 0x41 = Err 0x41
  /\ status_try_from F50 (vstatus_try_from test_vendor) 0x41 = Ok Type0SubmapNotDefined.
Proof. split; reflexivity. Qed.

(** ** C14 Vendor data reaches the vendor decoder untouched *)

Theorem C14_vendor_event F V p :
  event_new F V (framed 0xFF p) =
  match vevent_new V p with
  | Ok v => Ok (EvVendor v) | Err e => Err e | Panic => Panic
  end.
Proof. exact (vendor_event F V p). Qed.
Print Assumptions C14_vendor_event.
Example C14_vendor_event_case :
  event_new F41 test_vendor [0xFF; 3; 9; 8; 7] = Ok (@EvVendor test_vendor [9; 8; 7])
  /\ event_new F41 test_vendor [0xFF; 0] = Err (EVendor 1).
Proof. split; reflexivity. Qed.

Theorem C14_vendor_return F V n op ret : u16 op -> op / 1024 = 0x3F ->
  event_new F V (framed 0x0E ([n] ++ le 2 op ++ ret)) =
  match vreturn_new V ([n] ++ le 2 op ++ ret) with
  | Ok v => Ok (EvCommandComplete (Build_command_complete n (RetVendor v)))
  | Err e => Err e | Panic => Panic
  end.
Proof. exact (vendor_return F V n op ret). Qed.
Print Assumptions C14_vendor_return.
Example C14_vendor_return_case :
  hci_opcode 0x3F 0x3FF / 1024 = 0x3F
  /\ event_new F41 test_vendor [0x0E; 3; 1; 0xFF; 0xFF] = Err (EVendor 2).
Proof. split; reflexivity. Qed.

(** On any other packet the result does not depend on the vendor's decoders. *)
Theorem C14_decoders_unused F V fe fr pkt : bytes pkt -> ~ vendor_packet pkt ->
  event_new F (with_decoders V fe fr) pkt = same_result V fe fr (event_new F V pkt).
Proof. exact (decoders_unused F V fe fr pkt). Qed.
Print Assumptions C14_decoders_unused.
Example C14_decoders_unused_case :
  ~ vendor_packet [0x0E; 3; 1; 0xFF; 0xFB] /\ vendor_packet [0x0E; 3; 1; 0xFF; 0xFF].
Proof. split; [intros H; vm_compute in H; discriminate|reflexivity]. Qed.

(** Status bytes outside the assigned range, and only those, go to the vendor's
    status conversion. *)
Theorem C14_vendor_status VS F (vt : N -> outcome bad_status_error VS) b :
  ((if version_5_0 F then 0x44 else 0x40) < b ->
     status_try_from F vt b =
     match vt b with Ok v => Ok (Vendor v) | Err e => Err e | Panic => Panic end)
  /\ (b <= (if version_5_0 F then 0x44 else 0x40) ->
     exists s, (forall v, s <> Vendor v) /\ status_try_from F vt b = Ok s).
Proof. exact (status_vendor F vt b). Qed.
Print Assumptions C14_vendor_status.

(** ** C15 Opcode packing and splitting are inverse *)

Theorem C15_split_of_new ogf ocf :
  opcode_ogf (opcode_new ogf ocf) = ogf mod 64 /\ opcode_ocf (opcode_new ogf ocf) = ocf mod 1024.
Proof. exact (opcode_parts ogf ocf). Qed.
Print Assumptions C15_split_of_new.

Theorem C15_new_of_split o : u16 o ->
  opcode_new (opcode_ogf o) (opcode_ocf o) = o /\ opcode_ogf o < 64 /\ opcode_ocf o < 1024.
Proof. exact (opcode_join o). Qed.
Print Assumptions C15_new_of_split.
Example C15_new_of_split_case :
  u16 0x200D /\ opcode_ogf 0x200D = 8 /\ opcode_ocf 0x200D = 0xD
  /\ opcode_new 0x3F 0x3FF = 0xFFFF /\ opcode_new 0x48 0x401 = 0x2001.
Proof. repeat split; reflexivity. Qed.

(** It is OGF and OCF side by side: the value the Bluetooth specification gives. *)
Theorem C15_value ogf ocf : ogf < 64 -> ocf < 1024 -> opcode_new ogf ocf = hci_opcode ogf ocf.
Proof. exact (opcode_new_hci ogf ocf). Qed.
Print Assumptions C15_value.

(** ** C17 Strict bit fields are accepted exactly when no undefined bit is set *)

Theorem C17_supported_states F V n sb s v : vendor_total V ->
  byte n -> byte sb -> status_byte F V sb s -> u64 v ->
  let pkt := framed 0x0E ([n] ++ le 2 (hci_opcode 0x08 0x01C) ++ [sb] ++ le 8 v) in
  (only_defined le_state_defined (N.testbit v) ->
     event_new F V pkt = Ok (EvCommandComplete (Build_command_complete n
       (RetLeReadSupportedStates (Build_le_read_supported_states_params s v)))))
  /\ (~ only_defined le_state_defined (N.testbit v) ->
     event_new F V pkt = Err (EInvalidLeStates v)).
Proof. exact (fun HV => states_strict F V HV n sb s v). Qed.
Print Assumptions C17_supported_states.
Example C17_supported_states_case :
  event_new F41 test_vendor [0x0E; 12; 1; 0x1C; 0x20; 0; 0xFF; 0xFF; 0xFF; 0xFF; 0xFF; 3; 0; 0]
  = Ok (EvCommandComplete (Build_command_complete 1
      (@RetLeReadSupportedStates test_vendor
         (Build_le_read_supported_states_params Success (2 ^ 42 - 1)))))
  /\ event_new F41 test_vendor [0x0E; 12; 1; 0x1C; 0x20; 0; 0; 0; 0; 0; 0; 4; 0; 0]
     = Err (EInvalidLeStates (2 ^ 42)).
Proof. split; vm_compute; reflexivity. Qed.

Theorem C17_remote_features F V sb s h v : vendor_total V ->
  byte sb -> status_byte F V sb s -> u16 h -> u64 v ->
  let pkt := framed 0x3E ([0x04; sb] ++ le 2 h ++ le 8 v) in
  (only_defined (le_feature_defined F) (N.testbit v) ->
     event_new F V pkt
     = Ok (EvLeReadRemoteUsedFeaturesComplete (Build_le_read_remote_used_features_complete s h v)))
  /\ (~ only_defined (le_feature_defined F) (N.testbit v) ->
     event_new F V pkt = Err (EBadRemoteUsedFeatureFlag v)).
Proof. exact (fun HV => used_features_strict F V HV sb s h v). Qed.
Print Assumptions C17_remote_features.
(** Bit 5 exists since version 4.2. *)
Example C17_remote_features_case :
  event_new F41 test_vendor [0x3E; 12; 0x04; 0; 1; 2; 0x20; 0; 0; 0; 0; 0; 0; 0]
    = Err (EBadRemoteUsedFeatureFlag 0x20)
  /\ event_new F42 test_vendor [0x3E; 12; 0x04; 0; 1; 2; 0x20; 0; 0; 0; 0; 0; 0; 0]
    = Ok (EvLeReadRemoteUsedFeaturesComplete
            (Build_le_read_remote_used_features_complete Success 0x0201 0x20)).
Proof. split; vm_compute; reflexivity. Qed.

Theorem C17_channel_map F V n sb s h m : vendor_total V ->
  byte n -> byte sb -> status_byte F V sb s -> u16 h -> bytes m -> length m = 5%nat ->
  let pkt := framed 0x0E ([n] ++ le 2 (hci_opcode 0x08 0x015) ++ [sb] ++ le 2 h ++ m) in
  (only_defined channel_defined (array_bit m) ->
     event_new F V pkt = Ok (EvCommandComplete (Build_command_complete n
       (RetLeReadChannelMap (Build_channel_map_parameters s h m)))))
  /\ (~ only_defined channel_defined (array_bit m) ->
     event_new F V pkt = Err (EInvalidChannelMap m)).
Proof. exact (fun HV => channel_map_strict F V HV n sb s h m). Qed.
Print Assumptions C17_channel_map.
Example C17_channel_map_case :
  event_new F41 test_vendor [0x0E; 11; 1; 0x15; 0x20; 0; 1; 2; 0x55; 0x55; 0x55; 0x55; 0x15]
  = Ok (EvCommandComplete (Build_command_complete 1
      (@RetLeReadChannelMap test_vendor
         (Build_channel_map_parameters Success 0x0201 [0x55; 0x55; 0x55; 0x55; 0x15]))))
  /\ event_new F41 test_vendor [0x0E; 11; 1; 0x15; 0x20; 0; 1; 2; 0; 0; 0; 0; 0x20]
     = Err (EInvalidChannelMap [0; 0; 0; 0; 0x20]).
Proof. split; vm_compute; reflexivity. Qed.

Theorem C17_supported_commands F V n sb s m : vendor_total V ->
  byte n -> byte sb -> status_byte F V sb s -> bytes m -> length m = 64%nat ->
  let pkt := framed 0x0E ([n] ++ le 2 (hci_opcode 0x04 0x002) ++ [sb] ++ m) in
  (only_defined (command_bit_defined F) (array_bit m) ->
     event_new F V pkt = Ok (EvCommandComplete (Build_command_complete n
       (RetReadLocalSupportedCommands (Build_local_supported_commands s m)))))
  /\ (~ only_defined (command_bit_defined F) (array_bit m) ->
     event_new F V pkt = Err EBadCommandFlag).
Proof. exact (fun HV => commands_strict F V HV n sb s m). Qed.
Print Assumptions C17_supported_commands.
Example C17_supported_commands_case :
  let m := 1 :: repeat 0 62 in
  event_new F41 test_vendor (framed 0x0E ([1; 0x02; 0x10; 0] ++ m ++ [0]))
  = Ok (EvCommandComplete (Build_command_complete 1
      (@RetReadLocalSupportedCommands test_vendor
         (Build_local_supported_commands Success (m ++ [0])))))
  /\ event_new F41 test_vendor (framed 0x0E ([1; 0x02; 0x10; 0] ++ m ++ [1])) = Err EBadCommandFlag.
Proof. split; vm_compute; reflexivity. Qed.

(** ** C18 Lenient bit fields keep defined bits and drop only undefined ones *)

Theorem C18_local_features F V n sb s v : byte n -> byte sb -> status_byte F V sb s -> u64 v ->
  exists w, (forall i, N.testbit w i = (N.testbit v i && lmp_feature_defined i)%bool)
  /\ event_new F V (framed 0x0E ([n] ++ le 2 (hci_opcode 0x04 0x003) ++ [sb] ++ le 8 v))
     = Ok (EvCommandComplete (Build_command_complete n
         (RetReadLocalSupportedFeatures (Build_local_supported_features s w)))).
Proof. exact (lmp_features_lenient F V n sb s v). Qed.
Print Assumptions C18_local_features.
Example C18_local_features_case :
  event_new F41 test_vendor (framed 0x0E ([1; 0x03; 0x10; 0] ++ [0xFF; 1; 0; 0; 0; 0; 0; 0x80]))
  = Ok (EvCommandComplete (Build_command_complete 1
         (@RetReadLocalSupportedFeatures test_vendor
            (Build_local_supported_features Success (2 ^ 63 + 0xFF))))).
Proof. vm_compute. reflexivity. Qed.

Theorem C18_le_features F V n sb s v : byte n -> byte sb -> status_byte F V sb s -> u64 v ->
  exists w, (forall i, N.testbit w i = (N.testbit v i && le_feature_defined F i)%bool)
  /\ event_new F V (framed 0x0E ([n] ++ le 2 (hci_opcode 0x08 0x003) ++ [sb] ++ le 8 v))
     = Ok (EvCommandComplete (Build_command_complete n
         (RetLeReadLocalSupportedFeatures (Build_le_supported_features s w)))).
Proof. exact (le_features_lenient F V n sb s v). Qed.
Print Assumptions C18_le_features.
Example C18_le_features_case :
  event_new F42 test_vendor (framed 0x0E ([1; 0x03; 0x20; 0] ++ repeat 0xFF 8))
  = Ok (EvCommandComplete (Build_command_complete 1
         (@RetLeReadLocalSupportedFeatures test_vendor (Build_le_supported_features Success 0xFF)))).
Proof. vm_compute. reflexivity. Qed.
