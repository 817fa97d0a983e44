(** * Host commands: C16, C28-C33, C39, C43, C45. *)
From Verif Require Import Base Model_Types Model_Bitflags Model_Intervals Model_EventBase
  Model_Command Model_Event Model_Host Spec_Wire Spec_Interval Spec_Flags Spec_Errors Spec_Report
  Spec_Adv Spec_Host Spec_Link Spec_Example
  Proofs_Host Proofs_Calls Proofs_Streams Proofs_Address Proofs_Send.

(** ** C16 The opcode table is the Bluetooth one and has no collisions *)

(** The two octets after the packet type of whatever a call writes are the
    opcode assigned to the command. *)
Theorem C16_opcode F V c header payload : arguments_typed F c ->
  In (header, payload) (sent F V uart_header c) ->
  exists more, header
    = 0x01 :: le 2 (fst (command_code c) * 1024 + snd (command_code c)) ++ more.
Proof. exact (sent_opcode F V c header payload). Qed.
Print Assumptions C16_opcode.
Example C16_opcode_case :
  arguments_typed F41 (CLeReadChannelMap (V := test_vendor) 0x0123)
  /\ sent F41 test_vendor uart_header (CLeReadChannelMap 0x0123)
     = [([0x01; 0x15; 0x20; 2], [0x23; 0x01])].
Proof. split; vm_compute; reflexivity. Qed.

(** Two methods use the same opcode exactly if they are the same command of the
    Bluetooth specification (same section of Vol 2, Part E). *)
Theorem C16_no_collisions V (c c' : command V) :
  command_opcode c = command_opcode c' <-> command_section c = command_section c'.
Proof. exact (opcode_section c c'). Qed.
Print Assumptions C16_no_collisions.
Example C16_no_collisions_case :
  command_opcode (CLeAddAnonAdvertisingDevicesToWhiteList (V := test_vendor))
    = command_opcode (CLeAddDeviceToWhiteList (V := test_vendor) (BdPublic (repeat 0 6)))
  /\ command_opcode (CLeClearWhiteList (V := test_vendor)) <> command_opcode (CLeRand (V := test_vendor)).
Proof. split; [reflexivity|vm_compute; discriminate]. Qed.

(** ** C28 Every host command puts exactly the specified bytes on the wire *)
Theorem C28_wire F V St E (C : controller St E) c s :
  arguments_typed F c -> @rejection V E c = None ->
  run_command F V uart_header C c s =
  let params := command_params c in
  let (s', r) := ctl_write C s ([0x01] ++ le 2 (command_opcode c) ++ [N.of_nat (length params)]) params in
  (s', reported c r).
Proof. exact (fun HA HR => call_written F V uart_header uart_header_bytes C (or_introl eq_refl) c s HA HR). Qed.
Print Assumptions C28_wire.

Theorem C28_params F V E c : arguments_typed F c -> @rejection V E c = None ->
  (length (command_params c) <= 32)%nat /\ bytes (command_params c).
Proof. exact (params_ok F V c). Qed.
Print Assumptions C28_params.

Theorem C28_sent F V c : arguments_typed F c ->
  sent F V uart_header c =
  match @rejection V unit c with
  | Some _ => []
  | None => [([0x01] ++ le 2 (command_opcode c) ++ [N.of_nat (length (command_params c))],
              command_params c)]
  end.
Proof. exact (sent_spec F V uart_header uart_header_bytes c (or_introl eq_refl)). Qed.
Print Assumptions C28_sent.

Example C28_case :
  let c := CLeCreateConnection (V := test_vendor)
    {| cp_scan_window := {| sw_interval := ms 50; sw_window := ms 25 |};
       cp_initiator_filter_policy := UseAddress;
       cp_peer_address := PublicDeviceAddress [1; 2; 3; 4; 5; 6];
       cp_own_address_type := OwnPublic;
       cp_conn_interval := {| ci_interval := (ms 50, ms 500); ci_latency := 10; ci_timeout := ms 15000 |};
       cp_expected_connection_length := {| ecl_range := (ms 200, ms 500) |} |} in
  arguments_typed F41 c /\ @rejection _ unit c = None
  /\ sent F41 test_vendor uart_header c
     = [([1; 0x0D; 0x20; 25],
         [0x50; 0; 0x28; 0; 0; 0; 1; 2; 3; 4; 5; 6; 0; 0x28; 0; 0x90; 1; 0x0A; 0; 0xDC; 5; 0x40; 1; 0x20; 3])].
Proof.
  cbv zeta. split; [|split; [reflexivity|vm_compute; reflexivity]].
  cbn [arguments_typed cp_scan_window cp_peer_address cp_own_address_type cp_conn_interval
       cp_expected_connection_length].
  split; [exists (ms 50), (ms 25); split; vm_compute; reflexivity|].
  split; [split; [reflexivity|repeat constructor]|].
  split; [reflexivity|]. split; [reflexivity|].
  split; [left; exists [WithRange (ms 50) (ms 500); WithLatency 10; WithTimeout (ms 15000)];
          vm_compute; reflexivity|].
  exists (ms 200), (ms 500). repeat split; vm_compute; reflexivity.
Qed.

(** ** C29 Invalid command arguments are rejected before anything is written *)
Theorem C29_rejected F V St E (C : controller St E) H enc c s e :
  In (H, enc) header_formats -> arguments_typed F c -> @rejection V E c = Some e ->
  run_command F V H C c s = (s, Checked (Err (Other e))).
Proof. exact (fun HH => call_rejected F V H enc C HH c s e). Qed.
Print Assumptions C29_rejected.

(** No other error than a communication error is reported otherwise. *)
Theorem C29_exactly F V St E (C : controller St E) H enc c s e :
  In (H, enc) header_formats -> arguments_typed F c -> (forall e', e <> HComm e') ->
  (snd (run_command F V H C c s) = Checked (Err (Other e)) <-> @rejection V E c = Some e).
Proof. exact (fun HH => rejected_iff F V H enc C HH c s e). Qed.
Print Assumptions C29_exactly.

Theorem C29_others_reject_nothing V E c : has_own_errors c = false -> @rejection V E c = None.
Proof. exact (rejects_nothing V E c). Qed.
Print Assumptions C29_others_reject_nothing.
Example C29_case :
  @rejection test_vendor unit (CDisconnect 1 OperationCancelledByHost)
    = Some (HBadDisconnectionReason OperationCancelledByHost)
  /\ @rejection test_vendor unit (CLeSetAdvertisingData (repeat 0 32)) = Some (HAdvertisingDataTooLong 32)
  /\ @rejection test_vendor unit (CLeSetAdvertisingData (repeat 0 31)) = None
  /\ @rejection test_vendor unit (CLeTransmitterTest 0x27 0x26 PrbS9) = Some (HInvalidTestPayloadLength 0x26)
  /\ @rejection test_vendor unit (CLeTransmitterTest 0x28 0x26 PrbS9) = Some (HInvalidTestChannel 0x28)
  /\ @rejection test_vendor unit (CLeSetHostChannelClassification (repeat 0 5)) = Some HNoValidChannel
  /\ has_own_errors (V := test_vendor) CReset = false
  /\ snd (run_command F41 test_vendor uart_header recorder (CLeReceiverTest 0x28) [])
     = Checked (Err (Other (HInvalidTestChannel 0x28))).
Proof. repeat split; vm_compute; reflexivity. Qed.

(** ** C30 Transport outcomes pass through unchanged *)

(** A call either rejects its arguments on every controller, or is one write,
    the same on every controller and in every state, whose outcome it reports:
    so it can be retried after [WouldBlock] with the identical write. *)
Theorem C30_one_write F V E H enc c : In (H, enc) header_formats -> arguments_typed F c ->
  (exists e, @rejection V E c = Some e
     /\ forall St (C : controller St E) s,
          run_command F V H C c s = (s, Checked (Err (Other e))))
  \/ (@rejection V E c = None
      /\ exists header payload, forall St (C : controller St E) s,
          run_command F V H C c s =
          let (s', r) := ctl_write C s header payload in (s', reported c r)).
Proof. exact (one_write F V E H enc c). Qed.
Print Assumptions C30_one_write.

(** An accepted call reports exactly what the write came to. *)
Theorem C30_outcome F V St E (C : controller St E) H enc c s :
  In (H, enc) header_formats -> arguments_typed F c -> @rejection V E c = None ->
  exists header payload, run_command F V H C c s =
    let (s', r) := ctl_write C s header payload in
    (s', if has_own_errors c then
           Checked (match r with
                    | Ok tt => Ok tt
                    | Err WouldBlock => Err WouldBlock
                    | Err (Other e) => Err (Other (HComm e))
                    | Panic => Panic
                    end)
         else Plain r).
Proof. exact (outcome_passed F V E H enc c St C s). Qed.
Print Assumptions C30_outcome.
Example C30_case :
  run_command F41 test_vendor uart_header unreliable (CLeReceiverTest 5) ([], [Busy; Ready])
    = (([], [Ready]), Checked (Err WouldBlock))
  /\ run_command F41 test_vendor uart_header unreliable (CLeReceiverTest 5) ([], [Ready])
    = (([0x01; 0x1D; 0x20; 1; 5], []), Checked (Ok tt))
  /\ run_command F41 test_vendor uart_header unreliable (CLeReceiverTest 5) ([], [Broken 9])
    = (([], []), Checked (Err (Other (HComm 9))))
  /\ run_command F41 test_vendor uart_header unreliable CReset ([], [Broken 9])
    = (([], []), Plain (Err (Other 9))).
Proof. repeat split; vm_compute; reflexivity. Qed.

(** ** C31 Link-header variants differ only in the packet-type byte *)
Theorem C31_cmd_link F V St E (C : controller St E) c s : arguments_typed F c ->
  run_command F V uart_header C c s
  = run_command F V cmd_link_header (rewriting (fun header => 0x01 :: header) C) c s.
Proof. exact (uart_as_cmd_link F V St E C c s). Qed.
Print Assumptions C31_cmd_link.

Theorem C31_event_link F V St E (C : controller St E) c s : arguments_typed F c ->
  run_command F V no_commands_header C c s
  = run_command F V cmd_link_header (rewriting (fun _ => [0; 0; 0]) C) c s.
Proof. exact (no_commands_as_cmd_link F V St E C c s). Qed.
Print Assumptions C31_event_link.
Example C31_case :
  sent F41 test_vendor cmd_link_header (CReadRssi 0x0201) = [([0x05; 0x14; 2], [0x01; 0x02])]
  /\ sent F41 test_vendor uart_header (CReadRssi 0x0201) = [([0x01; 0x05; 0x14; 2], [0x01; 0x02])]
  /\ sent F41 test_vendor no_commands_header (CReadRssi 0x0201) = [([0; 0; 0], [0x01; 0x02])].
Proof. repeat split; vm_compute; reflexivity. Qed.

(** ** C32 A stream of commands can be split back into the commands sent *)

(** Whatever the controller makes of each write, a parser recovers from the
    bytes it took exactly the commands that were reported as sent. *)
Theorem C32_stream F V cs ready : Forall (arguments_typed F) cs ->
  let (s, rs) := run_calls F V uart_header unreliable cs ([], ready) in
  length rs = length cs
  /\ parse_commands (fst s)
     = Some (map (fun c => (command_opcode c, command_params c)) (successes cs rs)).
Proof. exact (stream_parsed F V cs ready). Qed.
Print Assumptions C32_stream.
Example C32_stream_case :
  run_calls F41 test_vendor uart_header unreliable
    [CReset; CReadRssi 0x0201; CLeReceiverTest 0x28; CLeRand] ([], [Ready; Busy; Ready])
  = (([1; 0x03; 0x0C; 0; 1; 0x18; 0x20; 0], []),
     [Plain (Ok tt); Plain (Err WouldBlock);
      Checked (Err (Other (HInvalidTestChannel 0x28))); Plain (Ok tt)])
  /\ parse_commands [1; 0x03; 0x0C; 0; 1; 0x18; 0x20; 0] = Some [(0x0C03, []); (0x2018, [])].
Proof. split; vm_compute; reflexivity. Qed.

(** Different accepted calls give different bytes, unless they differ only in
    what is not sent. *)
Theorem C32_injective F V E c c' :
  arguments_typed F c -> arguments_typed F c' ->
  command_exists F c = true -> command_exists F c' = true ->
  @rejection V E c = None -> @rejection V E c' = None ->
  command_opcode c = command_opcode c' -> command_params c = command_params c' ->
  same_on_wire c c'.
Proof. exact (different_bytes F V c c'). Qed.
Print Assumptions C32_injective.
Example C32_injective_case :
  let c := CLeSetScanResponseData (V := test_vendor) [1; 2] in
  let c' := CLeSetScanResponseData (V := test_vendor) [1; 2; 0] in
  arguments_typed F41 c /\ arguments_typed F41 c' /\ command_exists F41 c = true
  /\ @rejection _ unit c = None /\ @rejection _ unit c' = None
  /\ command_opcode c = command_opcode c' /\ command_params c <> command_params c'.
Proof.
  cbv zeta. split; [repeat constructor|]. split; [repeat constructor|].
  repeat split; try reflexivity. vm_compute. discriminate.
Qed.

(** ** C33 A command and its Command Complete agree on the opcode *)
Theorem C33_variant F V c ans n ret ev : command_exists F c = true -> answers c = Some ans ->
  bytes (framed 0x0E ([n] ++ le 2 (command_opcode c) ++ ret)) ->
  event_new F V (framed 0x0E ([n] ++ le 2 (command_opcode c) ++ ret)) = Ok ev ->
  exists r, ev = EvCommandComplete (Build_command_complete n r) /\ ans r
            /\ wire_return F V r (command_opcode c) ret.
Proof. exact (answer_variant F V c ans n ret ev). Qed.
Print Assumptions C33_variant.

Theorem C33_accepted F V c ans n ret r : command_exists F c = true -> answers c = Some ans ->
  byte n -> bytes ret -> (3 + length ret < 256)%nat ->
  wire_return F V r (command_opcode c) ret ->
  ans r /\ event_new F V (framed 0x0E ([n] ++ le 2 (command_opcode c) ++ ret))
           = Ok (EvCommandComplete (Build_command_complete n r)).
Proof. exact (answer_accepted F V c ans n ret r). Qed.
Print Assumptions C33_accepted.

(** For the other commands the documentation announces no Command Complete, and
    one is refused. *)
Theorem C33_no_answer F V (c : command V) n ret : answers c = None ->
  event_new F V (framed 0x0E ([n] ++ le 2 (command_opcode c) ++ ret))
  = Err (EUnknownOpcode (command_opcode c)).
Proof. exact (no_answer F V c n ret). Qed.
Print Assumptions C33_no_answer.
Example C33_case :
  answers (CReadRssi (V := test_vendor) 0x0201) = Some (fun r => exists p, r = RetReadRssi p)
  /\ event_new F41 test_vendor (framed 0x0E ([1] ++ le 2 (command_opcode (V := test_vendor) (CReadRssi 0x0201))
                                             ++ [0; 0x01; 0x02; 0xF0]))
     = Ok (EvCommandComplete (Build_command_complete 1
            (RetReadRssi {| rssi_status := Success; rssi_conn_handle := 0x0201; rssi_rssi := (-16)%Z |})))
  /\ event_new F41 test_vendor (framed 0x0E ([1] ++ le 2 (command_opcode (V := test_vendor)
       (CReadRemoteVersionInformation 1)) ++ [0])) = Err (EUnknownOpcode 0x041D).
Proof. repeat split; vm_compute; reflexivity. Qed.

(** ** C39 Random addresses are accepted exactly per the documented rule *)

(** With the address as a 48-bit number: its two top bits are 00 or 11 and the
    46 others not all equal, or they are 10 and the 22 next ones not all equal. *)
Theorem C39_rule F V St E (C : controller St E) a s : bd_addr_typed a ->
  let v := number a in
  (snd (run_command F V uart_header C (CLeSetRandomAddress a) s)
   <> Checked (Err (Other (HBadRandomAddress a))))
  <-> ((v / 2 ^ 46 = 0 \/ v / 2 ^ 46 = 3) /\ 0 < v mod 2 ^ 46 < 2 ^ 46 - 1)
      \/ (v / 2 ^ 46 = 2 /\ 0 < (v / 2 ^ 24) mod 2 ^ 22 < 2 ^ 22 - 1).
Proof. exact (random_address_rule F V St E C a s). Qed.
Print Assumptions C39_rule.
Example C39_case :
  bd_addr_typed [1; 2; 4; 8; 0x10; 0xE0]
  /\ snd (run_command F41 test_vendor uart_header recorder (CLeSetRandomAddress [1; 2; 4; 8; 0x10; 0xE0]) [])
     = Checked (Ok tt)
  /\ snd (run_command F41 test_vendor uart_header recorder (CLeSetRandomAddress [1; 2; 4; 8; 0x10; 0x60]) [])
     = Checked (Err (Other (HBadRandomAddress [1; 2; 4; 8; 0x10; 0x60])))
  /\ snd (run_command F41 test_vendor uart_header recorder (CLeSetRandomAddress [1; 2; 4; 0; 0; 0x80]) [])
     = Checked (Err (Other (HBadRandomAddress [1; 2; 4; 0; 0; 0x80]))).
Proof. split; [split; [reflexivity|repeat constructor]|]. repeat split; vm_compute; reflexivity. Qed.

(** ** C43 No host command panics *)
Theorem C43_no_panic F V St E (C : controller St E) H enc c s :
  In (H, enc) header_formats -> arguments_typed F c ->
  (forall s h p, snd (ctl_write C s h p) <> Panic) ->
  snd (run_command F V H C c s) <> Plain Panic /\ snd (run_command F V H C c s) <> Checked Panic.
Proof. exact (fun HH => call_no_panic F V H enc C HH c s). Qed.
Print Assumptions C43_no_panic.
Example C43_case :
  (forall s h p, snd (ctl_write recorder s h p) <> Panic)
  /\ arguments_typed F41 (CLeSetHostChannelClassification (V := test_vendor) [0; 0; 0; 0; 0x10]).
Proof.
  split; [discriminate|]. cbn [arguments_typed].
  exists (MFrom (4%nat, 0x10)). split; [cbn; tauto|]. vm_compute. reflexivity.
Qed.

(** ** C45 Advertising data survives from the advertiser's API to the scanner's *)
Theorem C45_over_the_air F V F' V' ads buf n ty addr rssi :
  Forall ad_typed ads -> Forall ad_fits ads -> write_ads ads (repeat 0 31) = Ok (buf, n) ->
  address_typed addr -> match rssi with Some v => is_i8 v /\ v <> 127%Z | None => True end ->
  exists header len rest,
    sent F V uart_header (CLeSetAdvertisingData (firstn n buf)) = [(header, len :: rest)]
    /\ let adv := Build_le_advertisement ty addr (firstn (N.to_nat len) rest) rssi in
       let report := [0x02; 1] ++ advertisement_bytes adv in
       exists r found,
         event_new F' V' (framed 0x3E report) = Ok (EvLeAdvertisingReport r)
         /\ calls (@lar_next Empty_set r) 2 O = Ok [Some adv; None]
         /\ parse_ad (la_data adv) = Some found /\ map interpret found = map Some ads.
Proof. exact (air F V ads buf n ty addr rssi F' V'). Qed.
Print Assumptions C45_over_the_air.
Example C45_case :
  let ads := [CompleteLocalName [0x41; 0x42]; ServiceData16BitUuid 0x180F [99]] in
  Forall ad_typed ads /\ Forall ad_fits ads
  /\ exists buf, write_ads ads (repeat 0 31) = Ok (buf, 9%nat).
Proof.
  cbv zeta. split; [repeat constructor|]. split; [repeat constructor|].
  eexists. vm_compute. reflexivity.
Qed.
