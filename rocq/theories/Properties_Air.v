(** * Between two devices: C78 to C80.

    [told … d cs]: a session, over a UART or over a command link, in which the
    calls [cs] succeeded, and after which a controller that had been reset and
    has carried out the commands it was sent has the settings [d].
    [public]: its public address; [rssi]: the signal strength at the scanner. *)
From Verif Require Import Base Model_Types Model_Intervals Model_EventBase Model_Command Model_Event Model_Host
  Spec_Wire Spec_Interval Spec_Errors Spec_Host Spec_Link Spec_Example Spec_Split Spec_Device Spec_Air
  Proofs_Base Proofs_Device Proofs_Air.
Open Scope list_scope.
Open Scope N_scope.

(** ** C78: a scanner is told what the advertiser's host asked for *)
Theorem C78_advertisement F V St E (C : controller St E) h os s d cs F' V' public rssi :
  contract C h -> Forall (typed_operation F) os -> possible h s -> told F V C h os s d cs ->
  bd_addr_typed public -> byte rssi ->
  match report_of_advertisement public rssi d with
  | Some pkt => wants_advertising cs = true
      /\ exists r, event_new F' V' pkt = Ok (EvLeAdvertisingReport r)
           /\ iterates (@lar_next Empty_set r) O [seen_advertisement public rssi cs]
  | None => wants_advertising cs = false
  end.
Proof. exact (fun HC Ho Hs HT => advertisement_seen F V C h os s d cs HC Ho Hs HT F' V' public rssi). Qed.
Print Assumptions C78_advertisement.

Theorem C78_response F V St E (C : controller St E) h os s d cs F' V' public rssi :
  contract C h -> Forall (typed_operation F) os -> possible h s -> told F V C h os s d cs ->
  bd_addr_typed public -> byte rssi ->
  match report_of_response public rssi d with
  | Some pkt => wants_advertising cs = true /\ answers_scans (wanted_type cs) = true
      /\ exists r, event_new F' V' pkt = Ok (EvLeAdvertisingReport r)
           /\ iterates (@lar_next Empty_set r) O [seen_response public rssi cs]
  | None => wants_advertising cs = false \/ answers_scans (wanted_type cs) = false
  end.
Proof. exact (fun HC Ho Hs HT => response_seen F V C h os s d cs HC Ho Hs HT F' V' public rssi). Qed.
Print Assumptions C78_response.

(** An advertiser that is blocked once, with a random address. *)
Definition air_parameters : advertising_parameters :=
  {| ap_interval := {| ai_interval := (ms 100, ms 200); ai_type := ScannableUndirected |};
     ap_own_address_type := OwnRandom; ap_peer_address := BdPublic [0; 0; 0; 0; 0; 0];
     ap_channel_map := 7; ap_filter_policy := AllowConnectionAndScan |}.
Definition air_operations : list (operation test_vendor) :=
  [Send CReset; Send (CLeSetRandomAddress [1; 2; 3; 4; 5; 0xC6]); Send (CLeSetAdvertisingData [2; 1; 6]);
   Send (CLeSetAdvertisingData [2; 1; 5]); Send (CLeSetAdvertisingParameters air_parameters);
   Send (CLeSetScanResponseData [3; 9; 65; 66]); Receive; Send (CLeSetAdvertiseEnable true)].
Definition air_state : queue :=
  {| q_received := []; q_consumed := 0; q_arrivals := []; q_written := [];
     q_ready := [Ready; Ready; Ready; Busy; Ready; Ready; Ready] |}.

Definition air_result := session F41 test_vendor queue_controller air_operations air_state.
Definition air_calls : list (command test_vendor) := sent_commands (snd air_result).
Definition air_packets : list (N * list N) :=
  match parse_commands (q_written (fst air_result)) with Some packets => packets | None => [] end.
Definition air_settings : settings := fold_left carry_out air_packets after_reset.

Example C78_case :
  Forall (typed_operation F41) air_operations /\ possible queue_history air_state
  /\ told F41 test_vendor queue_controller queue_history air_operations air_state air_settings air_calls
  /\ report_of_advertisement [9; 9; 9; 9; 9; 9] 0xC4 air_settings
     = Some [0x3E; 15; 2; 1; 2; 1; 1; 2; 3; 4; 5; 0xC6; 3; 2; 1; 6; 0xC4]
  /\ seen_advertisement [9; 9; 9; 9; 9; 9] 0xC4 air_calls
     = {| la_event_type := AdvScan; la_address := BdRandom [1; 2; 3; 4; 5; 0xC6];
          la_data := [2; 1; 6]; la_rssi := Some (-60)%Z |}
  /\ report_of_response [9; 9; 9; 9; 9; 9] 127 air_settings
     = Some [0x3E; 16; 2; 1; 4; 1; 1; 2; 3; 4; 5; 0xC6; 4; 3; 9; 65; 66; 127].
Proof.
  split.
  { repeat (apply Forall_cons; [cbn [typed_operation arguments_typed]|]); try exact I;
      try (split; [reflexivity|repeat constructor]); try (solve [repeat constructor]).
    split; [|split; [reflexivity|split; [split; [reflexivity|repeat constructor]|discriminate]]].
    left. exists ScannableUndirected, (ms 100), (ms 200). split; [vm_compute; reflexivity|].
    split; [vm_compute; reflexivity|reflexivity]. }
  split; [split; [constructor|split; [cbn; lia|repeat constructor]]|].
  split.
  - left. change (session _ _ _ air_operations air_state) with air_result.
    rewrite (surjective_pairing air_result). split; [reflexivity|].
    exists (q_written (fst air_result)), air_packets.
    split; [reflexivity|]. split; [vm_compute; reflexivity|reflexivity].
  - split; [vm_compute; reflexivity|]. split; vm_compute; reflexivity.
Qed.

(** ** C79: the controller tries to connect to whom its host asked for *)
Theorem C79_attempts F V St E (C : controller St E) h os s d cs x :
  contract C h -> Forall (typed_operation F) os -> possible h s -> told F V C h os s d cs ->
  attempts d x <-> wants_connection cs x.
Proof. exact (fun HC Ho Hs HT => attempts_told F V C h os s d cs HC Ho Hs HT x). Qed.
Print Assumptions C79_attempts.

(** The host of a second device connects to the address in an advertisement or
    a scan response, or puts that address on its white list and connects to the
    devices on it: the second controller tries to connect to the first one. *)
Theorem C79_seen F V St E (C : controller St E) h os s d cs F' V' St' E' (C' : controller St' E') h' os' s' d' cs'
    public rssi pkt r l adv p :
  contract C h -> Forall (typed_operation F) os -> possible h s -> told F V C h os s d cs ->
  contract C' h' -> Forall (typed_operation F') os' -> possible h' s' -> told F' V' C' h' os' s' d' cs' ->
  bd_addr_typed public -> byte rssi ->
  report_of_advertisement public rssi d = Some pkt \/ report_of_response public rssi d = Some pkt ->
  event_new F' V' pkt = Ok (EvLeAdvertisingReport r) -> iterates (@lar_next Empty_set r) O l -> In adv l ->
  wanted_connection cs' = Some p ->
  match cp_initiator_filter_policy p with
  | UseAddress => cp_peer_address p = as_peer (la_address adv)
  | UseWhiteList => stays (address_bytes (la_address adv)) [] cs'
  end -> attempts d' (advertised_as public d).
Proof. exact (seen_reached F V C h os s d cs F' V' C' h' os' s' d' cs' public rssi pkt r l adv p). Qed.
Print Assumptions C79_seen.

(** A host that connects to the advertiser above. *)
Definition seeker_parameters : connection_parameters :=
  {| cp_scan_window := {| sw_interval := ms 20; sw_window := ms 10 |};
     cp_initiator_filter_policy := UseAddress;
     cp_peer_address := RandomDeviceAddress [1; 2; 3; 4; 5; 0xC6]; cp_own_address_type := OwnPublic;
     cp_conn_interval := {| ci_interval := (ms 50, ms 100); ci_latency := 3; ci_timeout := ms 2000 |};
     cp_expected_connection_length := {| ecl_range := (0, ms 5) |} |}.
Definition seeker_operations : list (operation test_vendor) :=
  [Send CReset; Send (CLeAddDeviceToWhiteList (BdPublic [1; 2; 3; 4; 5; 6]));
   Send (CLeCreateConnection seeker_parameters)].
Definition seeker_state : queue :=
  {| q_received := []; q_consumed := 0; q_arrivals := []; q_written := []; q_ready := [Ready; Ready; Ready] |}.
Definition seeker_result := session F41 test_vendor queue_controller seeker_operations seeker_state.
Definition seeker_calls : list (command test_vendor) := sent_commands (snd seeker_result).
Definition seeker_packets : list (N * list N) :=
  match parse_commands (q_written (fst seeker_result)) with Some packets => packets | None => [] end.
Definition seeker_settings : settings := fold_left carry_out seeker_packets after_reset.

Example C79_case :
  Forall (typed_operation F41) seeker_operations /\ possible queue_history seeker_state
  /\ told F41 test_vendor queue_controller queue_history seeker_operations seeker_state seeker_settings seeker_calls
  /\ wanted_connection seeker_calls = Some seeker_parameters
  /\ cp_peer_address seeker_parameters
     = as_peer (la_address (seen_advertisement [9; 9; 9; 9; 9; 9] 0xC4 air_calls))
  /\ attempts seeker_settings (advertised_as [9; 9; 9; 9; 9; 9] air_settings)
  /\ ~ attempts seeker_settings (address_bytes (BdPublic [1; 2; 3; 4; 5; 6])).
Proof.
  split.
  { repeat (apply Forall_cons; [cbn [typed_operation arguments_typed]|]); try exact I.
    - split; [reflexivity|repeat constructor].
    - split; [|split; [split; [reflexivity|repeat constructor]|split; [reflexivity|split; [reflexivity|split]]]].
      + exists (ms 20), (ms 10). split; vm_compute; reflexivity.
      + left. exists [WithRange (ms 50) (ms 100); WithLatency 3; WithTimeout (ms 2000)]. vm_compute. reflexivity.
      + exists 0, (ms 5). split; [vm_compute; reflexivity|]. split; vm_compute; reflexivity.
    - constructor. }
  split; [split; [constructor|split; [cbn; lia|repeat constructor]]|].
  split.
  - left. change (session _ _ _ seeker_operations seeker_state) with seeker_result.
    rewrite (surjective_pairing seeker_result). split; [reflexivity|].
    exists (q_written (fst seeker_result)), seeker_packets.
    split; [reflexivity|]. split; [vm_compute; reflexivity|reflexivity].
  - split; [vm_compute; reflexivity|]. split; [vm_compute; reflexivity|]. split; [vm_compute; reflexivity|].
    vm_compute. discriminate.
Qed.

(** ** C80: the controller lets those connect whom its host allows to *)
Theorem C80_admits F V St E (C : controller St E) h os s d cs x :
  contract C h -> Forall (typed_operation F) os -> possible h s -> told F V C h os s d cs ->
  admits d x <-> allows_connection cs x.
Proof. exact (fun HC Ho Hs HT => admits_told F V C h os s d cs HC Ho Hs HT x). Qed.
Print Assumptions C80_admits.

(** Scannable only: nobody may connect.  With the white list for connections,
    those on it. *)
Example C80_case :
  wants_advertising air_calls = true
  /\ (forall x, ~ allows_connection air_calls x)
  /\ let p := {| ap_interval := {| ai_interval := (ms 100, ms 200); ai_type := ConnectableUndirected |};
                 ap_own_address_type := OwnPublic; ap_peer_address := BdPublic [0; 0; 0; 0; 0; 0];
                 ap_channel_map := 7; ap_filter_policy := WhiteListConnectionAllowScan |} in
     let a := BdPublic [1; 2; 3; 4; 5; 6] in let b := BdRandom [1; 2; 3; 4; 5; 6] in
     let cs := [CLeSetAdvertisingParameters (V := test_vendor) p; CLeAddDeviceToWhiteList a;
                CLeAddDeviceToWhiteList b; CLeRemoveDeviceFromWhiteList a; CLeSetAdvertiseEnable true] in
     allows_connection cs (address_bytes b) /\ ~ allows_connection cs (address_bytes a).
Proof.
  split; [vm_compute; reflexivity|]. split; [intros x [_ H]; vm_compute in H; exact H|].
  cbv zeta. rewrite <- !admits_after. split.
  - vm_compute. auto.
  - vm_compute. intros [_ [H|[H|[H|[]]]]]; discriminate H.
Qed.
