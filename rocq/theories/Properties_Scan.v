(** * Whom a scanner hears (property C121).

    [told … d cs] as in C78: the calls [cs] succeeded, and the controller has the settings
    [d].  The scanner has settings [d] and public address [public], the advertiser [a] and
    [public']. *)
From Verif Require Import Base Model_Types Model_Intervals Model_EventBase Model_Command Model_Event Model_Host
  Spec_Wire Spec_Interval Spec_Errors Spec_Host Spec_Link Spec_Example Spec_Split Spec_Device Spec_Air Spec_Scan
  Proofs_Base Proofs_Device Proofs_Air Proofs_Scan Properties_Air.
Open Scope list_scope.
Open Scope N_scope.

(** ** C121: a scanner hears and asks those whom its host wants to hear *)
Theorem C121_hears F V St E (C : controller St E) h os s d cs F' V' St' E' (C' : controller St' E') h' os' s' a cs' public public' :
  contract C h -> Forall (typed_operation F) os -> possible h s -> told F V C h os s d cs ->
  contract C' h' -> Forall (typed_operation F') os' -> possible h' s' -> told F' V' C' h' os' s' a cs' ->
  hears public d public' a <-> is_to_hear public cs public' cs'.
Proof.
  exact (fun HC Ho Hs HT HC' Ho' Hs' HT' =>
    heard_told F V C h os s d cs HC Ho Hs HT F' V' C' h' os' s' a cs' HC' Ho' Hs' HT' public public').
Qed.
Print Assumptions C121_hears.
Theorem C121_answered F V St E (C : controller St E) h os s d cs F' V' St' E' (C' : controller St' E') h' os' s' a cs' public :
  contract C h -> Forall (typed_operation F) os -> possible h s -> told F V C h os s d cs ->
  contract C' h' -> Forall (typed_operation F') os' -> possible h' s' -> told F' V' C' h' os' s' a cs' ->
  asks d a /\ answers a (scanner_address public d) <-> is_to_be_answered public cs cs'.
Proof.
  exact (fun HC Ho Hs HT HC' Ho' Hs' HT' =>
    answered_told F V C h os s d cs HC Ho Hs HT F' V' C' h' os' s' a cs' HC' Ho' Hs' HT' public).
Qed.
Print Assumptions C121_answered.
(** So the scanner's host finds an advertisement in an event exactly if it is the one that
    the advertiser's calls describe, and the calls of both ask for it to be heard; or it
    is the response, and the calls of both ask for that. *)
Theorem C121_reported F V St E (C : controller St E) h os s d cs F' V' St' E' (C' : controller St' E') h' os' s' a cs'
    public public' rssi adv :
  contract C h -> Forall (typed_operation F) os -> possible h s -> told F V C h os s d cs ->
  contract C' h' -> Forall (typed_operation F') os' -> possible h' s' -> told F' V' C' h' os' s' a cs' ->
  bd_addr_typed public' -> byte rssi ->
  (exists packet r, reports public d public' a rssi packet /\ event_new F V packet = Ok (EvLeAdvertisingReport r)
     /\ iterates (@lar_next Empty_set r) O [adv])
  <-> is_to_hear public cs public' cs'
      /\ (adv = seen_advertisement public' rssi cs'
          \/ is_to_be_answered public cs cs' /\ adv = seen_response public' rssi cs').
Proof.
  exact (fun HC Ho Hs HT HC' Ho' Hs' HT' =>
    report_told F V C h os s d cs HC Ho Hs HT F' V' C' h' os' s' a cs' HC' Ho' Hs' HT' public public' rssi adv).
Qed.
Print Assumptions C121_reported.
(** The controller leaves out what it has reported before exactly if it was asked to. *)
Theorem C121_duplicates F V St E (C : controller St E) h os s d cs :
  contract C h -> Forall (typed_operation F) os -> possible h s -> told F V C h os s d cs ->
  filters_duplicates d = wants_no_duplicates cs.
Proof. exact (duplicates_told F V C h os s d cs). Qed.
Print Assumptions C121_duplicates.

(** A scanner that asks for responses, and has the advertiser of C78 on its white list.
    Its first attempt to switch scanning on is blocked. *)
Definition scan_settings_wanted : scan_parameters :=
  {| sp_scan_type := Active; sp_scan_window := {| sw_interval := ms 20; sw_window := ms 10 |};
     sp_own_address_type := OwnPublic; sp_filter_policy := ScanWhiteList |}.
Definition listener_operations : list (operation test_vendor) :=
  [Send CReset; Send (CLeSetScanParameters scan_settings_wanted);
   Send (CLeAddDeviceToWhiteList (BdRandom [1; 2; 3; 4; 5; 0xC6]));
   Send (CLeSetScanEnable true false); Receive; Send (CLeSetScanEnable true true)].
Definition listener_state : queue :=
  {| q_received := []; q_consumed := 0; q_arrivals := []; q_written := [];
     q_ready := [Ready; Ready; Ready; Busy; Ready] |}.
Definition listener_result := session F41 test_vendor queue_controller listener_operations listener_state.
Definition listener_calls : list (command test_vendor) := sent_commands (snd listener_result).
Definition listener_packets : list (N * list N) :=
  match parse_commands (q_written (fst listener_result)) with Some packets => packets | None => [] end.
Definition listener_settings : settings := fold_left carry_out listener_packets after_reset.

Example C121_case :
  let public := [7; 7; 7; 7; 7; 7] in let public' := [9; 9; 9; 9; 9; 9] in
  Forall (typed_operation F41) listener_operations /\ possible queue_history listener_state
  /\ told F41 test_vendor queue_controller queue_history listener_operations listener_state listener_settings listener_calls
  /\ is_to_hear public listener_calls public' air_calls
  /\ is_to_be_answered public listener_calls air_calls
  /\ wants_no_duplicates listener_calls = true
  /\ reports public listener_settings public' air_settings 127 [0x3E; 16; 2; 1; 4; 1; 1; 2; 3; 4; 5; 0xC6; 4; 3; 9; 65; 66; 127]
  (* another device would have to be on the list; and a directed advertisement does not
     reach those it is not for *)
  /\ ~ is_to_hear public listener_calls public' (V' := test_vendor) [CLeSetAdvertiseEnable true]
  /\ ~ is_to_hear public (V := test_vendor) [CLeSetScanEnable true false] public'
         (V' := test_vendor) [CLeSetAdvertisingParameters
            {| ap_interval := {| ai_interval := (ms 100, ms 200); ai_type := ConnectableDirectedLowDutyCycle |};
               ap_own_address_type := OwnPublic; ap_peer_address := BdPublic [1; 1; 1; 1; 1; 1];
               ap_channel_map := 7; ap_filter_policy := AllowConnectionAndScan |}; CLeSetAdvertiseEnable true].
Proof.
  cbv zeta. split.
  { repeat (apply Forall_cons; [cbn [typed_operation arguments_typed]|]); try exact I; try (now constructor).
    - split; [|split; [reflexivity|reflexivity]]. exists (ms 20), (ms 10). split; vm_compute; reflexivity.
    - split; [reflexivity|repeat constructor]. }
  split; [split; [constructor|split; [cbn; lia|repeat constructor]]|].
  split.
  { left. change (session _ _ _ listener_operations listener_state) with listener_result.
    rewrite (surjective_pairing listener_result). split; [reflexivity|].
    exists (q_written (fst listener_result)), listener_packets.
    split; [reflexivity|]. split; [vm_compute; reflexivity|reflexivity]. }
  rewrite <- !hears_after, <- answered_after.
  split; [vm_compute; repeat split; auto; discriminate|].
  split; [vm_compute; auto|].
  split; [vm_compute; reflexivity|].
  split; [split; [vm_compute; repeat split; auto; discriminate|right; vm_compute; auto]|].
  split; vm_compute.
  - intros (_ & _ & [H|[H|[H|[]]]] & _); discriminate H.
  - intros (_ & _ & _ & H). specialize (H eq_refl). discriminate H.
Qed.
