(** * Debug output: C55 - C57. *)
From Verif Require Import Base Model_Types Model_Bitflags Model_EventBase Model_Command Model_Event Model_Host
  Model_Debug Spec_Wire Spec_Flags Spec_Debug Spec_Numerals Spec_Example Proofs_Debug Proofs_Numerals.
From Coq Require Import String.
Open Scope N_scope.

(** ** C55 Printing an event shows its content *)

(** Printing ends and does not panic. *)
Theorem C55_completed_packets F V pkt ev : bytes pkt ->
  event_new F V pkt = Ok (EvNumberOfCompletedPackets ev) ->
  exists t, prints (fun fuel => @debug_number_of_completed_packets Empty_set fuel ev) t.
Proof. exact (accepted_pairs_printed F V pkt ev). Qed.
Print Assumptions C55_completed_packets.
Theorem C55_report F V pkt r : bytes pkt ->
  event_new F V pkt = Ok (EvLeAdvertisingReport r) ->
  exists t, prints (fun fuel => @debug_le_advertising_report Empty_set fuel r) t.
Proof. exact (accepted_report_printed F V pkt r). Qed.
Print Assumptions C55_report.
(** Events with the same text have the same content. *)
Theorem C55_completed_packets_faithful ev1 ev2 l1 l2 t :
  iterates (@ncp_next Empty_set ev1) O l1 -> iterates (@ncp_next Empty_set ev2) O l2 ->
  prints (fun fuel => @debug_number_of_completed_packets Empty_set fuel ev1) t ->
  prints (fun fuel => @debug_number_of_completed_packets Empty_set fuel ev2) t -> l1 = l2.
Proof. exact (pairs_text_faithful ev1 ev2 l1 l2 t). Qed.
Print Assumptions C55_completed_packets_faithful.
Theorem C55_report_faithful F1 V1 F2 V2 pkt1 pkt2 r1 r2 l1 l2 t : bytes pkt1 -> bytes pkt2 ->
  event_new F1 V1 pkt1 = Ok (EvLeAdvertisingReport r1) ->
  event_new F2 V2 pkt2 = Ok (EvLeAdvertisingReport r2) ->
  iterates (@lar_next Empty_set r1) O l1 -> iterates (@lar_next Empty_set r2) O l2 ->
  prints (fun fuel => @debug_le_advertising_report Empty_set fuel r1) t ->
  prints (fun fuel => @debug_le_advertising_report Empty_set fuel r2) t -> l1 = l2.
Proof. exact (report_text_faithful F1 V1 F2 V2 pkt1 pkt2 r1 r2 l1 l2 t). Qed.
Print Assumptions C55_report_faithful.
Theorem C55_encrypted_block a b : bytes a -> bytes b ->
  debug_encrypted_block a = debug_encrypted_block b -> a = b.
Proof. exact (encrypted_block_shown a b). Qed.
Print Assumptions C55_encrypted_block.
(** The numbers in the text are those of the entries, in order. *)
Theorem C55_completed_packets_numbers ev l t :
  iterates (@ncp_next Empty_set ev) O l ->
  prints (fun fuel => @debug_number_of_completed_packets Empty_set fuel ev) t ->
  numbers 10 t = flat_map pair_numbers l.
Proof. exact (pairs_numbers ev l t). Qed.
Print Assumptions C55_completed_packets_numbers.
Theorem C55_report_numbers r l t :
  iterates (@lar_next Empty_set r) O l ->
  prints (fun fuel => @debug_le_advertising_report Empty_set fuel r) t ->
  numbers 10 t = flat_map advertisement_numbers l.
Proof. exact (report_numbers r l t). Qed.
Print Assumptions C55_report_numbers.
Theorem C55_encrypted_block_numbers b : bytes b ->
  exists t, debug_encrypted_block b = ("AES-128 Encrypted Data (" ++ t)%string /\ numbers 16 t = b.
Proof. exact (encrypted_block_numbers b). Qed.
Print Assumptions C55_encrypted_block_numbers.
Example C55_numbers_case :
  numbers 10 "rssi: Some(-3), data: [7, 128]"%string = [3; 7; 128]
  /\ numbers 16 "[F, A0, 7])"%string = [15; 160; 7].
Proof. split; reflexivity. Qed.
Example C55_case :
  (exists ev, event_new F41 test_vendor [0x13; 9; 2; 1; 2; 3; 4; 5; 6; 7; 8]
                = Ok (EvNumberOfCompletedPackets ev)
     /\ @debug_number_of_completed_packets Empty_set 3 ev
        = Some (Ok "{NumberOfCompletedPacketsPair { conn_handle: ConnectionHandle(513), num_completed_packets: 1027 }NumberOfCompletedPacketsPair { conn_handle: ConnectionHandle(1541), num_completed_packets: 2055 }}"%string))
  /\ (exists r, event_new F41 test_vendor [0x3E; 14; 2; 1; 2; 1; 1; 2; 3; 4; 5; 6; 2; 7; 8; 0xFD]
                = Ok (EvLeAdvertisingReport r)
     /\ @debug_le_advertising_report Empty_set 2 r
        = Some (Ok "{LeAdvertisement { event_type: Scan, address: Random(BdAddr([1, 2, 3, 4, 5, 6])), data: [7, 8], rssi: Some(-3) }}"%string)).
Proof. split; eexists; split; vm_compute; reflexivity. Qed.

(** ** C56 Printing the supported commands shows which they are: refuted

    Only the first 39 of 64 octets are printed. *)
Theorem C56_refuted : exists F v w, obtainable F command_table v /\ obtainable F command_table w
  /\ @debug_command_flags Empty_set v = debug_command_flags w /\ ba_eq v w = false.
Proof. exact flags_hidden. Qed.
Print Assumptions C56_refuted.
Theorem C56_printed {E} F v : obtainable F command_table v ->
  exists t, @debug_command_flags E v = Ok t.
Proof. exact (command_flags_text F v). Qed.
Print Assumptions C56_printed.
Theorem C56_exactly {E} F v w : obtainable F command_table v -> obtainable F command_table w ->
  @debug_command_flags E v = debug_command_flags w <->
  forall i, i < 8 * 39 -> array_bit v i = array_bit w i.
Proof. exact (command_flags_shown F v w). Qed.
Print Assumptions C56_exactly.
(** Before version 5.0 there are no later flags. *)
Theorem C56_before_5_0 {E} F v w : version_5_0 F = false ->
  obtainable F command_table v -> obtainable F command_table w ->
  @debug_command_flags E v = debug_command_flags w -> v = w.
Proof. exact (command_flags_shown_before F v w). Qed.
Print Assumptions C56_before_5_0.
(** The numbers in the text are the first 39 octets. *)
Theorem C56_numbers {E} F v t : obtainable F command_table v ->
  @debug_command_flags E v = Ok t -> numbers 10 t = firstn 39 v.
Proof. exact (command_flags_numbers F v t). Qed.
Print Assumptions C56_numbers.
Example C56_case : obtainable F41 command_table (1 :: repeat 0 63)
  /\ exists t u, @debug_command_flags Empty_set (1 :: repeat 0 63) = Ok t
     /\ @debug_command_flags Empty_set (repeat 0 64) = Ok u /\ t <> u.
Proof. exact command_flags_case. Qed.

(** ** C57 Printing parameters does not reveal secrets: refuted for keys

    The plaintext is hidden; the key is printed. *)
Theorem C57_refuted : exists p q, aes_plaintext_data p = aes_plaintext_data q
  /\ debug_aes_parameters p <> debug_aes_parameters q.
Proof. exact key_revealed. Qed.
Print Assumptions C57_refuted.
(** The text determines the key, and nothing else is in it. *)
Theorem C57_exactly p q : bytes (aes_key p) -> bytes (aes_key q) ->
  debug_aes_parameters p = debug_aes_parameters q <-> aes_key p = aes_key q.
Proof. exact (aes_parameters_shown p q). Qed.
Print Assumptions C57_exactly.
(** The key is there in hexadecimal digits. *)
Theorem C57_key_numbers k : bytes k ->
  exists t, debug_encryption_key k = ("AES-128 Key (" ++ t)%string /\ numbers 16 t = k.
Proof. exact (key_numbers k). Qed.
Print Assumptions C57_key_numbers.
Theorem C57_plaintext a b : debug_plaintext_block a = debug_plaintext_block b.
Proof. exact (plaintext_hidden a b). Qed.
Print Assumptions C57_plaintext.
Example C57_case :
  debug_aes_parameters {| aes_key := [0x0F; 0xA0] ++ repeat 1 14; aes_plaintext_data := repeat 7 16 |}
  = "AesParameters { key: AES-128 Key ([F, A0, 1, 1, 1, 1, 1, 1, 1, 1, 1, 1, 1, 1, 1, 1]), plaintext_data: AES-128 Plaintext (REDACTED) }"%string.
Proof. vm_compute. reflexivity. Qed.
