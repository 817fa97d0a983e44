(** * A controller that refuses some of several commands (property C125).

    [orderly], [answer_to], [reply_with] as in C106; [asked], [decide] as in C124. *)
From Verif Require Import Base Model_Types Model_Intervals Model_EventBase Model_Command Model_Event Model_Host
  Spec_Wire Spec_Errors Spec_Host Spec_Link Spec_Example Spec_Split Spec_Conform Spec_Follow Spec_Credit Spec_Facts Spec_Data
  Spec_Window Spec_Turns Spec_Own Spec_Apart Spec_Device Spec_Refuse Spec_Several
  Proofs_Base Proofs_Link Proofs_Queue Proofs_Conform Proofs_Follow Proofs_Facts Proofs_Data Proofs_Turns Proofs_Own Proofs_Several.
Open Scope list_scope.
Open Scope N_scope.

(** ** C125: with several commands under way too, the answers tell the settings

    When the host has read as many answers as it has sent commands, the settings of the
    controller are those that the commands ask for which the host finds approved: those
    whose own answer says Success. *)
Theorem C125_settings F V St E (C : controller St E) h accepts os s d x : contract C h ->
  Forall (typed_data_operation F V) os -> possible h s -> orderly F d ->
  Forall (fun w => reserved_address_commands (snd w) = false) (sent_by d) -> truthful accepts d ->
  let (s', log) := data_session F V C os s in
  (exists on_the_way, written h s' = written h s ++ flat_map wire_bytes (taken d) ++ on_the_way) ->
  (exists on_the_way, flat_map wire_bytes (sent_by d) = pending h s s' ++ on_the_way) ->
  all_heard (events_got log) (ordered log) ->
  decide accepts [] (commands_taken d) x = fold_left asked (approved (events_got log) [] (ordered log)) x.
Proof. exact (fun HC => several_settled F V C h HC accepts os s d x). Qed.
Print Assumptions C125_settings.
(** So it is over a command link and an event link. *)
Theorem C125_settings_apart F V St E (C : controller St E) h accepts os s d x : contract C h ->
  Forall (typed_operation F) os -> possible h s -> orderly F d -> apart d ->
  Forall (fun w => reserved_address_commands (snd w) = false) (sent_by d) -> truthful accepts d ->
  let (s', log) := split_session F V C os s in
  (exists on_the_way, written h s' = written h s ++ flat_map bare_bytes (taken d) ++ on_the_way) ->
  (exists on_the_way, flat_map bare_bytes (sent_by d) = pending h s s' ++ on_the_way) ->
  all_heard (split_events_read log) (split_sent log) ->
  decide accepts [] (commands_taken d) x = fold_left asked (approved (split_events_read log) [] (split_sent log)) x.
Proof. exact (fun HC => split_settled F V C h HC accepts os s d x). Qed.
Print Assumptions C125_settings_apart.

(** An event that answers a command confirms it exactly if the status in its packet is
    zero. *)
Theorem C125_confirms F V op pkt ev : op <> 0 -> bytes pkt -> event_new F V pkt = Ok ev -> answer_to op ev = true ->
  (event_confirms ev = true <-> status_in pkt = 0).
Proof. exact (event_status F V op pkt ev). Qed.
Print Assumptions C125_confirms.
Example C125_confirms_case :
  event_new F41 test_vendor [0x0E; 4; 1; 0x11; 0x20; 7]
  = Ok (EvCommandComplete (Build_command_complete 1 (RetLeAddDeviceToWhiteList OutOfMemory)))
  /\ event_confirms (V := test_vendor) (EvCommandComplete (Build_command_complete 1 (RetLeAddDeviceToWhiteList OutOfMemory))) = false
  /\ event_confirms (V := test_vendor) (EvCommandStatus (Build_command_status Success 1 (hci_opcode 0x08 0x00D))) = true.
Proof. repeat split. Qed.

(** Two devices for a white list that has room for one, and LE Rand, all at once; LE Rand
    is answered first. *)
Definition C125_accepts (before : list (N * list N)) (packet : N * list N) : bool :=
  negb ((fst packet =? hci_opcode 0x08 0x011) && (2 <=? length before)%nat)%bool.
Definition C125_replies : list (list N) :=
  [ framed 0x0E ([3] ++ le 2 (hci_opcode 0x03 0x003) ++ [0]);
    framed 0x0E ([1] ++ le 2 (hci_opcode 0x08 0x018) ++ [0; 1; 2; 3; 4; 5; 6; 7; 8]);
    framed 0x0E ([2] ++ le 2 (hci_opcode 0x08 0x011) ++ [0]);
    framed 0x0E ([3] ++ le 2 (hci_opcode 0x08 0x011) ++ [7]) ].
Definition C125_device : list device_step :=
  let reply k := Sends (0x04, nth k C125_replies []) in
  [ Takes (0x01, [0x03; 0x0C; 0]); reply 0%nat; Takes (0x01, [0x11; 0x20; 7; 0; 1; 2; 3; 4; 5; 6]);
    Takes (0x01, [0x11; 0x20; 7; 1; 6; 5; 4; 3; 2; 1]);
    Takes (0x01, [0x18; 0x20; 0]); reply 1%nat; reply 2%nat; reply 3%nat ].
Definition C125_operations : list (data_operation test_vendor) :=
  [ Order CReset; Fetch; Order (CLeAddDeviceToWhiteList (BdPublic [1; 2; 3; 4; 5; 6]));
    Order (CLeAddDeviceToWhiteList (BdRandom [6; 5; 4; 3; 2; 1])); Order CLeRand; Fetch; Fetch; Fetch ].
Definition C125_state : queue :=
  {| q_received := []; q_consumed := 0;
     q_arrivals := let reply k := uart_frame (nth k C125_replies []) in
       [[]; reply 0%nat; []; []; []; []; []; reply 1%nat ++ reply 2%nat ++ reply 3%nat; []; []; []; []; []; []; []; []];
     q_written := []; q_ready := repeat Ready 5 |}.
Lemma C125_device_does : orderly F41 C125_device
  /\ Forall (fun w => reserved_address_commands (snd w) = false) (sent_by C125_device)
  /\ truthful C125_accepts C125_device.
Proof.
  split.
  { split.
    { unfold C125_device, taken. cbn [flat_map app].
      repeat (apply Forall_cons;
        [right; match goal with |- context [(_, ?x :: ?y :: _ :: ?p) = _] => exists x, y, p; split; reflexivity end|]).
      constructor. }
    intros before w after Hd.
    assert (P : Forall (conforming_packet F41) C125_replies).
    { unfold C125_replies. repeat (apply Forall_cons; [apply return_checked; vm_compute; reflexivity|]). constructor. }
    inversion P as [|? ? P0 P']; subst. inversion P' as [|? ? P1 P'']; subst. inversion P'' as [|? ? P2 P3']; subst.
    inversion P3' as [|? ? P3 _]; subst. clear P P' P'' P3'.
    assert (Q : forall pkt, conforming_packet F41 pkt -> incoming_packet (0x04, pkt)).
    { intros pkt H. left. split; [reflexivity|]. exact (conforming_event_packet F41 pkt H). }
    unfold C125_device in Hd. places.
    all: subst w; split; [now apply Q|]; split; [intros _; assumption|].
    all: intros op Z H; apply andb_prop in H; destruct H as [_ H]; apply orb_prop in H; destruct H as [H|H];
      apply andb_prop in H; destruct H as [H1 H2]; [|discriminate H1].
    all: apply N.eqb_eq in H2; subst op; vm_compute; reflexivity. }
  split; [repeat constructor|].
  { intros before op params after pkt Hc H.
    let v := eval vm_compute in (commands_taken C125_device) in
      assert (K : commands_taken C125_device = v) by (vm_compute; reflexivity).
    rewrite K in Hc. clear K.
    do 4 (destruct before as [|? before];
      [injection Hc as <- <- _; vm_compute in H; injection H as <-; vm_compute; split; congruence|injection Hc as <- Hc]).
    now destruct before. }
Qed.
Example C125_case :
  contract queue_controller queue_history
  /\ Forall (typed_data_operation F41 test_vendor) C125_operations /\ possible queue_history C125_state
  /\ orderly F41 C125_device
  /\ Forall (fun w => reserved_address_commands (snd w) = false) (sent_by C125_device)
  /\ truthful C125_accepts C125_device
  /\ let (s', log) := data_session F41 test_vendor queue_controller C125_operations C125_state in
     written queue_history s' = flat_map wire_bytes (taken C125_device)
     /\ pending queue_history C125_state s' = flat_map wire_bytes (sent_by C125_device)
     /\ all_heard (events_got log) (ordered log)
     /\ approved (events_got log) [] (ordered log)
        = [CReset; CLeAddDeviceToWhiteList (BdPublic [1; 2; 3; 4; 5; 6]); CLeRand]
     /\ white_list (fold_left asked (approved (events_got log) [] (ordered log)) after_reset) = [[0; 1; 2; 3; 4; 5; 6]].
Proof.
  split; [exact (buffering_contract _ _ queue_buffering)|].
  split.
  { apply Forall_cons; [exact I|]. apply Forall_cons; [exact I|].
    do 2 (apply Forall_cons; [split; [reflexivity|repeat constructor]|]).
    repeat (apply Forall_cons; [exact I|]). apply Forall_nil. }
  split; [vm_compute; repeat split; repeat constructor|].
  destruct C125_device_does as (D1 & D2 & D3). do 3 (split; [assumption|]). clear D1 D2 D3.
  set (run := data_session F41 test_vendor queue_controller C125_operations C125_state).
  let v := eval vm_compute in run in assert (R : run = v) by (vm_compute; reflexivity).
  rewrite R. clear R run. split; [reflexivity|]. split; [reflexivity|]. split; [|repeat split].
  intros c H. cbn in H. repeat (destruct H as [<-|H]; [vm_compute; lia|]). contradiction.
Qed.
Definition C125_apart_operations : list (operation test_vendor) :=
  [ Send CReset; Receive; Send (CLeAddDeviceToWhiteList (BdPublic [1; 2; 3; 4; 5; 6]));
    Send (CLeAddDeviceToWhiteList (BdRandom [6; 5; 4; 3; 2; 1])); Send CLeRand; Receive; Receive; Receive ].
Definition C125_apart_state : queue :=
  {| q_received := []; q_consumed := 0;
     q_arrivals := let reply k := nth k C125_replies [] in
       [[]; reply 0%nat; []; []; []; []; reply 1%nat ++ reply 2%nat ++ reply 3%nat; []; []; []; []; []; []; []; []; []];
     q_written := []; q_ready := repeat Ready 5 |}.
Example C125_apart_case :
  contract queue_controller queue_history
  /\ Forall (typed_operation F41) C125_apart_operations /\ possible queue_history C125_apart_state
  /\ orderly F41 C125_device /\ apart C125_device
  /\ Forall (fun w => reserved_address_commands (snd w) = false) (sent_by C125_device)
  /\ truthful C125_accepts C125_device
  /\ let (s', log) := split_session F41 test_vendor queue_controller C125_apart_operations C125_apart_state in
     written queue_history s' = flat_map bare_bytes (taken C125_device)
     /\ pending queue_history C125_apart_state s' = flat_map bare_bytes (sent_by C125_device)
     /\ all_heard (split_events_read log) (split_sent log)
     /\ approved (split_events_read log) [] (split_sent log)
        = [CReset; CLeAddDeviceToWhiteList (BdPublic [1; 2; 3; 4; 5; 6]); CLeRand].
Proof.
  split; [exact (buffering_contract _ _ queue_buffering)|].
  split.
  { apply Forall_cons; [exact I|]. apply Forall_cons; [exact I|].
    do 2 (apply Forall_cons; [split; [reflexivity|repeat constructor]|]).
    repeat (apply Forall_cons; [exact I|]). apply Forall_nil. }
  split; [vm_compute; repeat split; repeat constructor|].
  destruct C125_device_does as (D1 & D2 & D3). split; [exact D1|].
  split; [split; repeat constructor|]. do 2 (split; [assumption|]). clear D1 D2 D3.
  set (run := split_session F41 test_vendor queue_controller C125_apart_operations C125_apart_state).
  let v := eval vm_compute in run in assert (R : run = v) by (vm_compute; reflexivity).
  rewrite R. clear R run. split; [reflexivity|]. split; [reflexivity|]. split; [|repeat split].
  intros c H. cbn in H. repeat (destruct H as [<-|H]; [vm_compute; lia|]). contradiction.
Qed.
