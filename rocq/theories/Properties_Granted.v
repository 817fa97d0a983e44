(** * What becomes of a list of commands (property C130).

    [runs_program F V cs accepts device known]: a run without an end of the program of
    C129 with the list [cs], over a UART or separate links; [device m] are the settings of
    its controller, and [known m] the commands that it has found approved.
    [granted accepts [] cs]: those of the commands which the controller accepts.
    [by_answers] as in C126. *)
From Coq Require Import Lia.
From Verif Require Import Base Model_Types Model_Intervals Model_EventBase Model_Command Model_Event Model_Host
  Spec_Wire Spec_Errors Spec_Report Spec_Host Spec_Link Spec_Example Spec_Split Spec_Conform Spec_Follow Spec_Credit Spec_Facts Spec_Data
  Spec_Window Spec_Turns Spec_Own Spec_Apart Spec_Live Spec_LiveOwn Spec_LiveApart Spec_Device Spec_Air Spec_Scan Spec_Meet
  Spec_Dialogue Spec_Refuse Spec_Several Spec_Approved Spec_Rest Spec_Done Spec_Granted
  Proofs_Base Proofs_Link Proofs_Queue Proofs_Conform Proofs_Follow Proofs_Facts Proofs_Data Proofs_Window Proofs_Turns Proofs_Own Proofs_Apart
  Proofs_Live Proofs_LiveOwn Proofs_LiveApart Proofs_Several Proofs_Approved Proofs_Learn Proofs_Rest Proofs_Done Proofs_Granted
  Properties_Approved Properties_Rest.
Open Scope list_scope.
Open Scope N_scope.

(** ** C130: the list and the controller's decisions settle all

    At some time the host has found approved just those commands of its list that the
    controller accepts, and C126 tells the settings by them. *)
Theorem C130_granted F V cs accepts device known : runs_program F V cs accepts device known ->
  exists m0, forall m, (m0 <= m)%nat -> known m = granted accepts [] cs /\ by_answers F V (device m) (granted accepts [] cs).
Proof. exact (program_gets F V cs accepts device known). Qed.
Print Assumptions C130_granted.
(** All of them, if it refuses none. *)
Theorem C130_all F V cs device known : runs_program F V cs (fun _ _ => true) device known ->
  exists m0, forall m, (m0 <= m)%nat -> known m = cs /\ by_answers F V (device m) cs.
Proof. exact (program_gets_all F V cs device known). Qed.
Print Assumptions C130_all.
(** So two lists, and what the controllers refuse, settle whether at some time one device
    hears the other, and whether they connect, *)
Theorem C130_hears F V cs accepts device known F' V' cs' accepts' device' known' public public' :
  runs_program F V cs accepts device known -> runs_program F' V' cs' accepts' device' known' ->
  exists m0, forall m m', (m0 <= m)%nat -> (m0 <= m')%nat ->
  hears public (device m) public' (device' m') <-> is_to_hear public (granted accepts [] cs) public' (granted accepts' [] cs').
Proof. exact (programs_hear F V cs accepts device known F' V' cs' accepts' device' known' public public'). Qed.
Print Assumptions C130_hears.
Theorem C130_connect F V cs accepts device known F' V' cs' accepts' device' known' public public' :
  runs_program F V cs accepts device known -> runs_program F' V' cs' accepts' device' known' ->
  exists m0, forall m m', (m0 <= m)%nat -> (m0 <= m')%nat ->
  connect public (device m) public' (device' m') <-> is_to_connect public (granted accepts [] cs) public' (granted accepts' [] cs').
Proof. exact (programs_connect F V cs accepts device known F' V' cs' accepts' device' known' public public'). Qed.
Print Assumptions C130_connect.

(** The hosts of C128: each has a list of three commands, and its controller refuses the
    second. *)
Definition C130_scanner_list : list (command test_vendor) := [CReset; CLeSetScanEnable true false; CLeSetScanEnable true false].
Definition C130_advertiser_list : list (command test_vendor) := [CReset; CLeSetAdvertiseEnable true; CLeSetAdvertiseEnable true].
Lemma C130_device_fair low params : In (low, params) C126_devices -> fair F41 (C126_device low params).
Proof.
  intros I. pose proof (C126_conforming low params I) as P. split; [exact (proj1 (C126_orderly low params I))|].
  intros before w after Hd. unfold C126_replies in P.
  inversion P as [|? ? P0 P']; subst. inversion P' as [|? ? P1 P'']; subst. inversion P'' as [|? ? P2 _]; subst. clear P P' P''.
  assert (Q : forall pkt, conforming_packet F41 pkt -> incoming_packet (0x04, pkt)).
  { intros pkt H. left. split; [reflexivity|]. exact (conforming_event_packet F41 pkt H). }
  unfold C126_device in Hd. cbn [app] in Hd. places.
  all: subst w; split; [now apply Q|]; split; [intros _; assumption|].
  all: clear P0 P1 P2 Q; destruct I as [E|[E|[]]]; injection E as <- <-; vm_compute; (split; [reflexivity|discriminate]).
Qed.
Lemma C130_fair low params n : In (low, params) C126_devices -> fair F41 (C128_steps low params n).
Proof.
  intros I. destruct (C128_first low params n) as [rest Q]. apply (fair_before F41 _ rest). rewrite <- Q. now apply C130_device_fair.
Qed.
Lemma C130_late low params n : C128_steps low params (n + 6) = C126_device low params.
Proof. unfold C128_steps. rewrite nth_overflow by (cbn; lia). reflexivity. Qed.
Lemma C130_answers low params n : In (low, params) C126_devices ->
  how_many is_command (taken (C128_steps low params n)) <= how_many is_reply (sent_by (C128_steps low params (n + 6))).
Proof.
  intros I. rewrite C130_late. destruct (C128_first low params n) as [rest Q].
  transitivity (how_many is_command (taken (C126_device low params))); [rewrite Q, taken_app, how_many_app; lia|].
  destruct I as [E|[E|[]]]; injection E as <- <-; vm_compute; discriminate.
Qed.
Lemma C130_room low params n : In (low, params) C126_devices -> 0 < allowed (C128_steps low params (n + 6)).
Proof. intros I. rewrite C130_late. destruct I as [E|[E|[]]]; injection E as <- <-; vm_compute; reflexivity. Qed.
Lemma C130_scanner_program n :
  C128_scanner_calls n = next_call C130_scanner_list (until C128_scanner_calls C128_scanner_results n).
Proof.
  destruct (Compare_dec.le_lt_dec 6 n) as [L|L].
  - unfold next_call. rewrite (no_more_ordered test_vendor C128_scanner_calls C128_scanner_results 6 n); [| |exact L].
    2:{ intros k c K. unfold C128_scanner_calls. rewrite nth_overflow by (cbn; lia). discriminate. }
    replace (length (ordered (until C128_scanner_calls C128_scanner_results 6))) with 3%nat by (vm_compute; reflexivity).
    unfold C128_scanner_calls. rewrite nth_overflow by (cbn; lia). reflexivity.
  - do 6 (destruct n as [|n]; [vm_compute; reflexivity|]). lia.
Qed.
Lemma C130_advertiser_program n :
  C128_advertiser_calls n = next_operation C130_advertiser_list (until C128_advertiser_calls C128_advertiser_results n).
Proof.
  destruct (Compare_dec.le_lt_dec 6 n) as [L|L].
  - unfold next_operation. rewrite (no_more_sent test_vendor C128_advertiser_calls C128_advertiser_results 6 n); [| |exact L].
    2:{ intros k c K. unfold C128_advertiser_calls. rewrite nth_overflow by (cbn; lia). discriminate. }
    replace (length (split_sent (until C128_advertiser_calls C128_advertiser_results 6))) with 3%nat by (vm_compute; reflexivity).
    unfold C128_advertiser_calls. rewrite nth_overflow by (cbn; lia). reflexivity.
  - do 6 (destruct n as [|n]; [vm_compute; reflexivity|]). lia.
Qed.
Example C130_case :
  runs_program F41 test_vendor C130_scanner_list C126_accepts C128_scanner C128_scanner_known
  /\ runs_program F41 test_vendor C130_advertiser_list C126_accepts C128_advertiser C128_advertiser_known
  /\ granted C126_accepts [] C130_scanner_list = [CReset; CLeSetScanEnable true false]
  /\ granted C126_accepts [] C130_advertiser_list = [CReset; CLeSetAdvertiseEnable true]
  /\ forall public public', exists m0, forall m m', (m0 <= m)%nat -> (m0 <= m')%nat ->
     hears public (C128_scanner m) public' (C128_advertiser m').
Proof.
  assert (I1 : In (0x0C, [1; 0]) C126_devices) by (now left). assert (I2 : In (0x0A, [1]) C126_devices) by (right; now left).
  split; [|split; [|split; [reflexivity|split; [reflexivity|exact C128_case_hears]]]].
  - apply (program_uart F41 test_vendor _ _ _ _ queue N queue_controller queue_history C128_scanner_calls C128_scanner_states
             C128_scanner_results (C128_steps 0x0C [1; 0])).
    + exact queue_buffering.
    + apply endless_of.
    + vm_compute; repeat split; repeat constructor.
    + repeat (apply Forall_cons; [exact I || (vm_compute; repeat split; reflexivity)|]). apply Forall_nil.
    + exact C130_scanner_program.
    + intros n. exists (n + 6)%nat. split; [lia|]. intros c. unfold C128_scanner_calls. rewrite nth_overflow by (cbn; lia). discriminate.
    + split; [exact C128_scanner_connected|intros n; now apply C130_fair|intros n; now apply C128_usual|..];
        intros n; exists (n + 6)%nat; (split; [lia|]).
      * now apply C130_answers.
      * right. now apply C130_room.
    + intros c. split; [exact C128_scanner_connected|intros n; now apply C128_orderly|intros n; now apply C128_usual|].
      intros n. exists (n + 6)%nat. split; [lia|]. now apply C128_replied.
    + intros m. now apply C128_truthful.
    + reflexivity.
    + reflexivity.
  - apply (program_links F41 test_vendor _ _ _ _ queue N queue_controller queue_history C128_advertiser_calls C128_advertiser_states
             C128_advertiser_results (C128_steps 0x0A [1])).
    + apply buffering_prompt. exact queue_buffering.
    + apply endless_of.
    + vm_compute; repeat split; repeat constructor.
    + repeat (apply Forall_cons; [exact I || (vm_compute; repeat split; reflexivity)|]). apply Forall_nil.
    + exact C130_advertiser_program.
    + intros n. exists (n + 6)%nat. split; [lia|]. now rewrite (proj2 (C128_advertiser_stays (n + 6) ltac:(lia))).
    + split; [exact C128_advertiser_connected|intros n; now apply C130_fair|intros n; now apply C128_usual|..];
        intros n; exists (n + 6)%nat; (split; [lia|]).
      * now apply C130_answers.
      * right. now apply C130_room.
    + intros c. split; [exact C128_advertiser_connected|intros n; now apply C128_orderly|intros n; now apply C128_usual|].
      intros n. exists (n + 6)%nat. split; [lia|]. now apply C128_replied.
    + intros m. now apply C128_truthful.
    + reflexivity.
    + reflexivity.
Qed.
(** The two Resets of C129, of which none is refused. *)
Example C130_all_case :
  let call := data_perform F41 test_vendor reset_controller in
  let log m := until two_calls (results_of call two_calls empty_queue) m in
  runs_program F41 test_vendor [CReset; CReset] (fun _ _ => true)
    (fun m => decide (fun _ _ => true) [] (commands_taken (two_device m)) after_reset)
    (fun m => approved (events_got (log m)) [] (ordered (log m))).
Proof.
  cbv zeta. apply (program_uart F41 test_vendor _ _ _ _ queue N reset_controller queue_history two_calls
    (states_of (data_perform F41 test_vendor reset_controller) two_calls empty_queue)
    (results_of (data_perform F41 test_vendor reset_controller) two_calls empty_queue) two_device).
  - apply answering_buffering. intros _. vm_compute. repeat constructor.
  - apply endless_of.
  - cbn; repeat split; repeat constructor.
  - repeat constructor.
  - exact (two_program test_vendor).
  - exact (two_writes test_vendor).
  - exact (two_go_on test_vendor).
  - intros c. apply (two_reply test_vendor).
  - exact two_truthful.
  - reflexivity.
  - reflexivity.
Qed.
