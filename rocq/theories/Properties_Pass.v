(** * Values passed on from events to commands (properties C70-C74). *)
From Verif Require Import Base Model_Types Model_Bitflags Model_Intervals Model_EventBase Model_Command
  Model_Event Model_Host Spec_Wire Spec_Interval Spec_Flags Spec_Errors Spec_Report Spec_Host Spec_Made
  Spec_Example Spec_Pass Proofs_Pass.
Open Scope list_scope.
Open Scope N_scope.

(** ** C70: a connection handle from an event names the same connection in a command *)
Theorem C70_handle F V pkt ev h H enc (c : command V) h' header payload : bytes pkt ->
  event_new F V pkt = Ok ev -> event_handle ev = Some h -> In (H, enc) header_formats ->
  arguments_typed F c -> command_handle c = Some h' -> In (header, payload) (sent F V H c) ->
  (slice 0 2 payload = slice (handle_place pkt) 2 pkt <-> h' = h).
Proof. exact (handle_passed F V pkt ev h H enc c h' header payload). Qed.
Print Assumptions C70_handle.

Theorem C70_pairs F V pkt ev l i p H enc (c : command V) h' header payload : bytes pkt ->
  event_new F V pkt = Ok (EvNumberOfCompletedPackets ev) -> iterates (@ncp_next Empty_set ev) O l ->
  nth_error l i = Some p -> In (H, enc) header_formats ->
  arguments_typed F c -> command_handle c = Some h' -> In (header, payload) (sent F V H c) ->
  (slice 0 2 payload = slice (3 + 4 * i) 2 pkt <-> h' = cpp_conn_handle p).
Proof. exact (pair_handle_passed F V pkt ev l i p H enc c h' header payload). Qed.
Print Assumptions C70_pairs.

Definition C70_packet : list N := [0x3E; 13; 0x05; 0x34; 0x02; 1; 2; 3; 4; 5; 6; 7; 8; 9; 10].
Example C70_handle_case : exists ev,
  event_new F41 test_vendor C70_packet = Ok ev /\ event_handle ev = Some 0x0234
  /\ arguments_typed F41 (@CLeLongTermKeyRequestNegativeReply test_vendor 0x0234)
  /\ sent F41 test_vendor uart_header (CLeLongTermKeyRequestNegativeReply 0x0234)
     = [([0x01; 0x1B; 0x20; 2], [0x34; 0x02])]
  /\ slice (handle_place C70_packet) 2 C70_packet = [0x34; 0x02].
Proof.
  eexists. split; [vm_compute; reflexivity|]. split; [reflexivity|].
  split; [unfold arguments_typed, u16; lia|]. split; vm_compute; reflexivity.
Qed.
Example C70_return_case : exists ev,
  event_new F41 test_vendor [0x0E; 7; 1; 0x05; 0x14; 0; 0x01; 0x04; 0xC0] = Ok ev
  /\ event_handle ev = Some 0x0401
  /\ slice (handle_place [0x0E; 7; 1; 0x05; 0x14; 0; 0x01; 0x04; 0xC0]) 2
       [0x0E; 7; 1; 0x05; 0x14; 0; 0x01; 0x04; 0xC0] = [0x01; 0x04].
Proof. eexists. split; [vm_compute; reflexivity|]. split; reflexivity. Qed.

(** ** C71: a device named by an event is the same device in a command *)
Theorem C71_report F V pkt r before a after H enc (c : command V) a' k header payload :
  bytes pkt -> event_new F V pkt = Ok (EvLeAdvertisingReport r) ->
  iterates (@lar_next Empty_set r) O (before ++ a :: after) -> In (H, enc) header_formats ->
  arguments_typed F c -> command_device c = Some (a', k) -> In (header, payload) (sent F V H c) ->
  (slice k 7 payload = slice (4 + report_size before + 1) 7 pkt <-> a' = la_address a).
Proof. exact (reported_address_passed F V pkt r before a after H enc c a' k header payload). Qed.
Print Assumptions C71_report.

Theorem C71_peer F V pkt e H enc (c : command V) a' k header payload :
  bytes pkt -> event_new F V pkt = Ok (EvLeConnectionComplete e) -> In (H, enc) header_formats ->
  arguments_typed F c -> command_device c = Some (a', k) -> In (header, payload) (sent F V H c) ->
  (slice k 7 payload = slice 7 7 pkt <-> a' = lcc_peer_bd_addr e).
Proof. exact (peer_address_passed F V pkt e H enc c a' k header payload). Qed.
Print Assumptions C71_peer.

Theorem C71_usable F V pkt r l a : bytes pkt -> event_new F V pkt = Ok (EvLeAdvertisingReport r) ->
  iterates (@lar_next Empty_set r) O l -> In a l -> address_typed (la_address a).
Proof. exact (address_usable F V pkt r l a). Qed.
Print Assumptions C71_usable.

Definition C71_packet : list N :=
  [0x3E; 25; 0x02; 2; 0; 0; 1; 2; 3; 4; 5; 6; 3; 7; 8; 9; 156; 4; 1; 6; 5; 4; 3; 2; 1; 0; 127].
Definition C71_first : le_advertisement :=
  Build_le_advertisement AdvAdvertisement (BdPublic [1; 2; 3; 4; 5; 6]) [7; 8; 9] (Some (-100)%Z).
Definition C71_second : le_advertisement :=
  Build_le_advertisement AdvScanResponse (BdRandom [6; 5; 4; 3; 2; 1]) [] None.
Example C71_report_case : exists r,
  event_new F41 test_vendor C71_packet = Ok (EvLeAdvertisingReport r)
  /\ iterates (@lar_next Empty_set r) O ([C71_first] ++ C71_second :: [])
  /\ command_device (@CLeAddDeviceToWhiteList test_vendor (la_address C71_second))
     = Some (la_address C71_second, O)
  /\ sent F41 test_vendor uart_header (CLeAddDeviceToWhiteList (la_address C71_second))
     = [([0x01; 0x11; 0x20; 7], slice (4 + report_size [C71_first] + 1) 7 C71_packet)].
Proof.
  eexists. split; [vm_compute; reflexivity|].
  split; [|split; vm_compute; reflexivity].
  eapply iterates_next; [vm_compute; reflexivity|].
  eapply iterates_next; [vm_compute; reflexivity|]. apply iterates_end. reflexivity.
Qed.

(** ** C72: what a command returned can be given to another command *)
Theorem C72_channels F V pkt n p H enc E : bytes pkt ->
  event_new F V pkt = Ok (EvCommandComplete (Build_command_complete n (RetLeReadChannelMap p))) ->
  In (H, enc) header_formats ->
  let c := @CLeSetHostChannelClassification V (cmp_channel_map p) in
  arguments_typed F c
  /\ (@rejection V E c = Some HNoValidChannel <-> slice 8 5 pkt = repeat 0 5)
  /\ (slice 8 5 pkt <> repeat 0 5 -> exists header, sent F V H c = [(header, slice 8 5 pkt)]).
Proof. exact (channel_map_passed F V pkt n p H enc E). Qed.
Print Assumptions C72_channels.

Theorem C72_random F V pkt n p H enc q header payload : bytes pkt ->
  event_new F V pkt = Ok (EvCommandComplete (Build_command_complete n (RetLeRand p))) ->
  In (H, enc) header_formats -> arguments_typed F (@CLeStartEncryption V q) ->
  In (header, payload) (sent F V H (@CLeStartEncryption V q)) ->
  u64 (rnd_number p)
  /\ (slice 2 8 payload = slice 6 8 pkt <-> enc_random_number q = rnd_number p).
Proof. exact (random_passed F V pkt n p H enc q header payload). Qed.
Print Assumptions C72_random.

Theorem C72_block F V pkt n p H enc (c : command V) b i header payload : bytes pkt ->
  event_new F V pkt = Ok (EvCommandComplete (Build_command_complete n (RetLeEncrypt p))) ->
  In (H, enc) header_formats -> arguments_typed F c -> In (b, i) (command_blocks c) ->
  In (header, payload) (sent F V H c) ->
  key_typed (enc_data p) /\ (slice i 16 payload = slice 6 16 pkt <-> b = enc_data p).
Proof. exact (encrypted_passed F V pkt n p H enc c b i header payload). Qed.
Print Assumptions C72_block.

Example C72_channels_case :
  let pkt := [0x0E; 11; 1; 0x15; 0x20; 0; 1; 0; 0xFF; 0; 3; 0; 0x1F] in
  event_new F41 test_vendor pkt
    = Ok (EvCommandComplete (Build_command_complete 1
        (RetLeReadChannelMap (Build_channel_map_parameters Success 1 [0xFF; 0; 3; 0; 0x1F]))))
  /\ sent F41 test_vendor uart_header (CLeSetHostChannelClassification [0xFF; 0; 3; 0; 0x1F])
     = [([0x01; 0x14; 0x20; 5], slice 8 5 pkt)]
  /\ slice 8 5 pkt <> repeat 0 5.
Proof. cbn zeta. split; [vm_compute; reflexivity|]. split; [vm_compute; reflexivity|discriminate]. Qed.
Example C72_block_case :
  let block := [1; 2; 3; 4; 5; 6; 7; 8; 9; 10; 11; 12; 13; 14; 15; 16] in
  let pkt := [0x0E; 20; 1; 0x17; 0x20; 0] ++ block in
  event_new F41 test_vendor pkt
    = Ok (EvCommandComplete (Build_command_complete 1 (RetLeEncrypt (Build_encrypted_return_parameters Success block))))
  /\ sent F41 test_vendor uart_header (CLeLongTermKeyRequestReply 0x0234 block)
     = [([0x01; 0x1A; 0x20; 18], [0x34; 0x02] ++ slice 6 16 pkt)].
Proof. cbn zeta. split; vm_compute; reflexivity. Qed.

(** ** C73: what one device starts encryption with is what the other is asked for

    [F], [V]: the central; [F'], [V']: the peripheral. *)
Theorem C73_encryption F F' V V' H enc q h header payload :
  In (H, enc) header_formats -> arguments_typed F (@CLeStartEncryption V q) -> u16 h ->
  In (header, payload) (sent F V H (@CLeStartEncryption V q)) ->
  bytes (key_request h payload)
  /\ event_new F' V' (key_request h payload)
     = Ok (EvLeLongTermKeyRequest (Build_le_long_term_key_request h (enc_random_number q)
                                     (enc_encrypted_diversifier q)))
  /\ forall H' enc' h' header' payload', In (H', enc') header_formats -> u16 h' ->
     In (header', payload') (sent F' V' H' (@CLeLongTermKeyRequestReply V' h' (enc_long_term_key q))) ->
     slice 2 16 payload' = slice 12 16 payload.
Proof. exact (key_request_passed F F' V V' H enc q h header payload). Qed.
Print Assumptions C73_encryption.
Definition C73_parameters : encryption_parameters :=
  {| enc_conn_handle := 0x0801; enc_random_number := 0x0807060504030201; enc_encrypted_diversifier := 0x0A09;
     enc_long_term_key := repeat 7 16 |}.
Example C73_encryption_case :
  arguments_typed F41 (@CLeStartEncryption test_vendor C73_parameters)
  /\ sent F41 test_vendor uart_header (CLeStartEncryption C73_parameters)
     = [([0x01; 0x19; 0x20; 28], [0x01; 0x08; 1; 2; 3; 4; 5; 6; 7; 8; 9; 10] ++ repeat 7 16)]
  /\ key_request 0x0234 ([0x01; 0x08; 1; 2; 3; 4; 5; 6; 7; 8; 9; 10] ++ repeat 7 16) = C70_packet.
Proof.
  split; [|split; vm_compute; reflexivity].
  repeat split; try (unfold u16, u64; cbn; lia). repeat constructor; unfold byte; lia.
Qed.

(** ** C74: the reason for a disconnection reaches the other side *)
Theorem C74_reason F F' V H enc h0 reason h header payload :
  In (H, enc) header_formats -> u16 h0 -> u16 h ->
  In (header, payload) (sent F V H (@CDisconnect V h0 reason)) ->
  bytes (disconnected h payload)
  /\ event_new F' V (disconnected h payload)
     = Ok (EvDisconnectionComplete (Build_disconnection_complete Success h reason)).
Proof. exact (disconnection_passed F F' V H enc h0 reason h header payload). Qed.
Print Assumptions C74_reason.
Example C74_reason_case :
  sent F41 test_vendor uart_header (CDisconnect 0x0234 RemoteTerminationByUser)
    = [([0x01; 0x06; 0x04; 3], [0x34; 0x02; 0x13])]
  /\ disconnected 0x0041 [0x34; 0x02; 0x13] = [0x05; 4; 0; 0x41; 0x00; 0x13].
Proof. split; vm_compute; reflexivity. Qed.
