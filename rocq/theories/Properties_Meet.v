(** * Who is connected with whom (property C123).

    [told … d cs] as in C78: the calls [cs] succeeded, and the controller has the settings
    [d].  The initiator has settings [d] and public address [public], the advertiser [a]
    and [public']. *)
From Verif Require Import Base Model_Types Model_Intervals Model_EventBase Model_Command Model_Event Model_Host
  Spec_Wire Spec_Interval Spec_Errors Spec_Host Spec_Link Spec_Example Spec_Split Spec_Sent Spec_Device Spec_Air Spec_Meet
  Proofs_Base Proofs_Device Proofs_Air Proofs_Meet Properties_Air.
Open Scope list_scope.
Open Scope N_scope.

(** ** C123: two devices connect if both hosts ask for it, and both hosts are told the same *)
Theorem C123_connect F V St E (C : controller St E) h os s d cs F' V' St' E' (C' : controller St' E') h' os' s' a cs' public public' :
  contract C h -> Forall (typed_operation F) os -> possible h s -> told F V C h os s d cs ->
  contract C' h' -> Forall (typed_operation F') os' -> possible h' s' -> told F' V' C' h' os' s' a cs' ->
  connect public d public' a <-> is_to_connect public cs public' cs'.
Proof.
  exact (fun HC Ho Hs HT HC' Ho' Hs' HT' =>
    connect_told F V C h os s d cs HC Ho Hs HT F' V' C' h' os' s' a cs' HC' Ho' Hs' HT' public public').
Qed.
Print Assumptions C123_connect.

(** If they do, there is an announcement for every interval in the range asked for; and
    there are no others.  Each host finds the other one's address in it, its own role, and
    the same parameters; or neither takes the announcement.  With [ample] parameters (C60)
    both take it. *)
Theorem C123_announced F V St E (C : controller St E) h os s d cs F' V' St' E' (C' : controller St' E') h' os' s' a cs'
    public public' x x' interval accuracy :
  contract C h -> Forall (typed_operation F) os -> possible h s -> told F V C h os s d cs ->
  contract C' h' -> Forall (typed_operation F') os' -> possible h' s' -> told F' V' C' h' os' s' a cs' ->
  bd_addr_typed public -> bd_addr_typed public' -> u16 x -> u16 x' ->
  (forall p, is_to_connect public cs public' cs' -> wanted_connection cs = Some p -> in_range p interval ->
     exists to to', announced public d public' a x x' interval (clock_accuracy_code accuracy) to to')
  /\ forall to to', announced public d public' a x x' interval (clock_accuracy_code accuracy) to to' ->
     exists p, is_to_connect public cs public' cs' /\ wanted_connection cs = Some p /\ in_range p interval
       /\ (reportable p interval ->
           event_new F V to = Ok (EvLeConnectionComplete (Build_le_connection_complete Success x Central
             (known_as public' cs') (agreed p interval) Ppm500))
           /\ event_new F' V' to' = Ok (EvLeConnectionComplete (Build_le_connection_complete Success x' Peripheral
             (initiates_as public cs p) (agreed p interval) accuracy)))
       /\ (~ reportable p interval -> exists e e', event_new F V to = Err e /\ event_new F' V' to' = Err e')
       /\ (ample (cp_conn_interval p) -> reportable p interval).
Proof.
  exact (fun HC Ho Hs HT HC' Ho' Hs' HT' =>
    announced_told F V C h os s d cs HC Ho Hs HT F' V' C' h' os' s' a cs' HC' Ho' Hs' HT' public public' x x' interval accuracy).
Qed.
Print Assumptions C123_announced.

(** The device that the initiator of C79 looks for; it lets only that one connect.  The
    call that switches advertising on is blocked once. *)
Definition door_parameters : advertising_parameters :=
  {| ap_interval := {| ai_interval := (ms 100, ms 200); ai_type := ConnectableUndirected |};
     ap_own_address_type := OwnRandom; ap_peer_address := BdPublic [0; 0; 0; 0; 0; 0];
     ap_channel_map := 7; ap_filter_policy := WhiteListConnectionAllowScan |}.
Definition door_operations : list (operation test_vendor) :=
  [Send CReset; Send (CLeSetRandomAddress [1; 2; 3; 4; 5; 0xC6]); Send (CLeSetAdvertisingParameters door_parameters);
   Send (CLeAddDeviceToWhiteList (BdPublic [7; 7; 7; 7; 7; 7]));
   Send (CLeSetAdvertiseEnable true); Receive; Send (CLeSetAdvertiseEnable true)].
Definition door_state : queue :=
  {| q_received := []; q_consumed := 0; q_arrivals := []; q_written := [];
     q_ready := [Ready; Ready; Ready; Ready; Busy; Ready] |}.
Definition door_result := session F41 test_vendor queue_controller door_operations door_state.
Definition door_calls : list (command test_vendor) := sent_commands (snd door_result).
Definition door_packets : list (N * list N) :=
  match parse_commands (q_written (fst door_result)) with Some packets => packets | None => [] end.
Definition door_settings : settings := fold_left carry_out door_packets after_reset.

Example C123_case :
  let public := [7; 7; 7; 7; 7; 7] in let public' := [9; 9; 9; 9; 9; 9] in
  let ci := {| fci_interval := ms 75; fci_latency := 3; fci_timeout := ms 2000 |} in
  Forall (typed_operation F41) door_operations /\ possible queue_history door_state
  /\ told F41 test_vendor queue_controller queue_history door_operations door_state door_settings door_calls
  /\ is_to_connect public seeker_calls public' door_calls
  /\ in_range seeker_parameters 60 /\ reportable seeker_parameters 60 /\ agreed seeker_parameters 60 = ci
  /\ (exists to to', announced public seeker_settings public' door_settings 1 2 60 (clock_accuracy_code Ppm50) to to'
      /\ event_new F41 test_vendor to = Ok (EvLeConnectionComplete (Build_le_connection_complete Success 1 Central
           (BdRandom [1; 2; 3; 4; 5; 0xC6]) ci Ppm500))
      /\ event_new F41 test_vendor to' = Ok (EvLeConnectionComplete (Build_le_connection_complete Success 2 Peripheral
           (BdPublic [7; 7; 7; 7; 7; 7]) ci Ppm50)))
  (* an initiator with another address is not let in *)
  /\ ~ is_to_connect [6; 6; 6; 6; 6; 6] seeker_calls public' door_calls.
Proof.
  cbv zeta. split.
  { repeat (apply Forall_cons; [cbn [typed_operation arguments_typed]|]); try exact I; try (now constructor).
    - split; [reflexivity|repeat constructor].
    - split; [|split; [reflexivity|split; [split; [reflexivity|repeat constructor]|discriminate]]].
      left. exists ConnectableUndirected, (ms 100), (ms 200). split; [vm_compute; reflexivity|].
      split; [vm_compute; reflexivity|reflexivity].
    - split; [reflexivity|repeat constructor]. }
  split; [split; [constructor|split; [cbn; lia|repeat constructor]]|].
  split.
  { left. change (session _ _ _ door_operations door_state) with door_result.
    rewrite (surjective_pairing door_result). split; [reflexivity|].
    exists (q_written (fst door_result)), door_packets.
    split; [reflexivity|]. split; [vm_compute; reflexivity|reflexivity]. }
  rewrite <- !connect_after.
  assert (K : connect [7; 7; 7; 7; 7; 7] (after seeker_calls) [9; 9; 9; 9; 9; 9] (after door_calls)).
  { split; [vm_compute; reflexivity|]. eexists. split; [vm_compute; reflexivity|]. vm_compute. auto. }
  split; [exact K|].
  split; [vm_compute; split; discriminate|].
  split; [vm_compute; repeat split; discriminate|].
  split; [vm_compute; reflexivity|].
  split.
  - do 2 eexists. split.
    + split; [exact K|]. eexists. split; [vm_compute; reflexivity|]. split; [vm_compute; split; discriminate|].
      split; reflexivity.
    + split; vm_compute; reflexivity.
  - intros (_ & i & H & _ & H'). vm_compute in H. injection H as <-. vm_compute in H'.
    destruct H' as [H'|[H'|[H'|[]]]]; discriminate H'.
Qed.
