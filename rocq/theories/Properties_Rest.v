(** * Hosts that have said what they want (property C128).

    [comes_to_rest F V device known]: a run without an end, with a controller that may
    refuse commands, but answers each at some time, and a host that at some time has sent
    its last command and goes on reading.  When call [m] is made, the controller has the
    settings [device m] and the host has found the commands [known m] approved. *)
From Coq Require Import Lia.
From Verif Require Import Base Model_Types Model_Intervals Model_EventBase Model_Command Model_Event Model_Host
  Spec_Wire Spec_Errors Spec_Host Spec_Link Spec_Example Spec_Split Spec_FlagNames Spec_Conform Spec_Follow Spec_Credit Spec_Facts
  Spec_Data Spec_Window Spec_Turns Spec_Own Spec_Apart Spec_Live Spec_LiveOwn Spec_LiveApart Spec_Device Spec_Air Spec_Scan Spec_Meet
  Spec_Refuse Spec_Several Spec_Approved Spec_Rest
  Proofs_Base Proofs_Link Proofs_Queue Proofs_Conform Proofs_Follow Proofs_Facts Proofs_Data Proofs_Window Proofs_Turns Proofs_Own Proofs_Live
  Proofs_Rest Properties_Approved.
Open Scope list_scope.
Open Scope N_scope.

(** ** C128: hosts that have said what they want come to get it

    At some time the settings of the controller change no more, and neither does what the
    host has found; and all that C126 says about them is true. *)
Theorem C128_rest F V device known : comes_to_rest F V device known ->
  exists m0, by_answers F V (device m0) (known m0) /\ forall m, (m0 <= m)%nat -> device m = device m0 /\ known m = known m0.
Proof. exact (at_rest F V device known). Qed.
Print Assumptions C128_rest.
(** So at some time a scanner hears an advertiser exactly if their hosts, by what they
    have found approved, are to expect it; each has calls of its own, and neither waits
    for the other. *)
Theorem C128_hears F V device known F' V' device' known' public public' :
  comes_to_rest F V device known -> comes_to_rest F' V' device' known' ->
  exists m0, forall m m', (m0 <= m)%nat -> (m0 <= m')%nat ->
  hears public (device m) public' (device' m') <-> is_to_hear public (known m) public' (known' m').
Proof. exact (rest_hears F V device known F' V' device' known' public public'). Qed.
Print Assumptions C128_hears.
(** And two devices connect exactly if their hosts are to expect it. *)
Theorem C128_connect F V device known F' V' device' known' public public' :
  comes_to_rest F V device known -> comes_to_rest F' V' device' known' ->
  exists m0, forall m m', (m0 <= m)%nat -> (m0 <= m')%nat ->
  connect public (device m) public' (device' m') <-> is_to_connect public (known m) public' (known' m').
Proof. exact (rest_connect F V device known F' V' device' known' public public'). Qed.
Print Assumptions C128_connect.

(** The scanner and the advertiser of C126, which then read on for ever. *)
Definition C128_steps (low : N) (params : list N) (n : nat) : list device_step :=
  firstn (nth n [0; 2; 2; 3]%nat 6%nat) (C126_device low params).
Lemma C128_first low params n : exists rest, C126_device low params = C128_steps low params n ++ rest.
Proof. eexists. symmetry. apply firstn_skipn. Qed.
Lemma C128_grows low params : grows (C128_steps low params).
Proof.
  intros [|[|[|[|n]]]].
  - now exists (firstn 2 (C126_device low params)).
  - now exists [].
  - exists [nth 2 (C126_device low params) (Takes (0, []))]. reflexivity.
  - now exists (skipn 3 (C126_device low params)).
  - exists []. rewrite List.app_nil_r. destruct n; reflexivity.
Qed.
Lemma C128_usual low params n : In (low, params) C126_devices -> Forall (fun w => reserved_address_commands (snd w) = false) (sent_by (C128_steps low params n)).
Proof.
  intros I.
  assert (H : Forall (fun w => reserved_address_commands (snd w) = false) (sent_by (C126_device low params)))
    by (destruct I as [E|[E|[]]]; injection E as <- <-; repeat constructor).
  destruct (C128_first low params n) as [rest Q]. rewrite Q, sent_by_app in H. now apply Forall_app in H.
Qed.
Lemma C128_replied low params op n : In (low, params) C126_devices ->
  how_many (command_with op) (taken (C128_steps low params n)) <= how_many (reply_with op) (sent_by (C128_steps low params (n + 6))).
Proof.
  intros I. destruct (C128_first low params n) as [rest Q].
  replace (C128_steps low params (n + 6)) with (C126_device low params).
  2:{ unfold C128_steps. rewrite (nth_overflow _ 6%nat) by (cbn; lia). reflexivity. }
  unfold how_many. transitivity (N.of_nat (length (filter (command_with op) (taken (C126_device low params))))).
  { rewrite Q, taken_app, filter_app, app_length. lia. }
  destruct I as [E|[E|[]]]; injection E as <- <-.
  - destruct (N.eq_dec op 0x0C03) as [->|N1]; [vm_compute; discriminate|].
    destruct (N.eq_dec op 0x200C) as [->|N2]; [vm_compute; discriminate|].
    replace (filter (command_with op) (taken (C126_device 0x0C [1; 0]))) with (@nil (N * list N)); [cbn; lia|].
    apply N.eqb_neq in N1, N2. rewrite N.eqb_sym in N1, N2.
    change (taken (C126_device 0x0C [1; 0])) with [(0x01, [3; 12; 0]); (0x01, [12; 32; 2; 1; 0]); (0x01, [12; 32; 2; 1; 0])].
    cbn [filter]. unfold command_with. cbn [fst snd].
    change (u16_le [3; 12; 0] 0) with 0x0C03. change (u16_le [12; 32; 2; 1; 0] 0) with 0x200C. now rewrite N1, N2.
  - destruct (N.eq_dec op 0x0C03) as [->|N1]; [vm_compute; discriminate|].
    destruct (N.eq_dec op 0x200A) as [->|N2]; [vm_compute; discriminate|].
    replace (filter (command_with op) (taken (C126_device 0x0A [1]))) with (@nil (N * list N)); [cbn; lia|].
    apply N.eqb_neq in N1, N2. rewrite N.eqb_sym in N1, N2.
    change (taken (C126_device 0x0A [1])) with [(0x01, [3; 12; 0]); (0x01, [10; 32; 1; 1]); (0x01, [10; 32; 1; 1])].
    cbn [filter]. unfold command_with. cbn [fst snd].
    change (u16_le [3; 12; 0] 0) with 0x0C03. change (u16_le [10; 32; 1; 1] 0) with 0x200A. now rewrite N1, N2.
Qed.
Lemma C128_orderly low params n : In (low, params) C126_devices -> orderly F41 (C128_steps low params n).
Proof.
  intros I. destruct (C128_first low params n) as [rest Q]. apply (orderly_first F41 _ rest). rewrite <- Q. now apply C126_orderly.
Qed.
Lemma C128_truthful low params n : In (low, params) C126_devices -> truthful C126_accepts (C128_steps low params n).
Proof.
  intros I. destruct (C128_first low params n) as [rest Q]. apply (truthful_first _ _ rest). rewrite <- Q. now apply C126_truthful.
Qed.

Definition C128_scanner_calls (n : nat) : data_operation test_vendor := nth n C126_scanner_operations Fetch.
Definition C128_scanner_states := states_of (data_perform F41 test_vendor queue_controller) C128_scanner_calls C126_scanner_state.
Definition C128_scanner_results := results_of (data_perform F41 test_vendor queue_controller) C128_scanner_calls C126_scanner_state.
Definition C128_scanner (m : nat) : settings := decide C126_accepts [] (commands_taken (C128_steps 0x0C [1; 0] m)) after_reset.
Definition C128_scanner_known (m : nat) : list (command test_vendor) :=
  let log := until C128_scanner_calls C128_scanner_results m in approved (events_got log) [] (ordered log).
Lemma C128_scanner_stays n : (6 <= n)%nat -> C128_scanner_states n = C128_scanner_states 6%nat
  /\ C128_scanner_results n = Fetched None.
Proof.
  intros L. apply (stays (data_perform F41 test_vendor queue_controller) C128_scanner_calls C126_scanner_state 6 _ Fetch (Fetched None) eq_refl).
  - intros k K. unfold C128_scanner_calls. rewrite nth_overflow by (cbn; lia). reflexivity.
  - vm_compute. reflexivity.
  - exact L.
Qed.
Lemma C128_scanner_connected : connected queue_history C128_scanner_states (C128_steps 0x0C [1; 0]).
Proof.
  assert (D : forall n, (6 <= n)%nat -> C128_steps 0x0C [1; 0] n = C126_device 0x0C [1; 0])
    by (intros n L; unfold C128_steps; rewrite nth_overflow by (cbn; lia); reflexivity).
  split.
  - apply C128_grows.
  - intros n. exists []. destruct (Compare_dec.le_lt_dec 6 n) as [L|L].
    + rewrite (proj1 (C128_scanner_stays n L)), (D n L). vm_compute. reflexivity.
    + do 6 (destruct n as [|n]; [vm_compute; reflexivity|]). lia.
  - intros n. destruct (Compare_dec.le_lt_dec 6 n) as [L|L].
    + rewrite (proj1 (C128_scanner_stays n L)), (D n L). exists []. vm_compute. reflexivity.
    + do 6 (destruct n as [|n]; [vm_compute; eexists; reflexivity|]). lia.
  - intros n. exists n, []. split; [lia|]. destruct (Compare_dec.le_lt_dec 6 n) as [L|L].
    + rewrite (proj1 (C128_scanner_stays n L)), (D n L). vm_compute. reflexivity.
    + do 6 (destruct n as [|n]; [vm_compute; reflexivity|]). lia.
  - intros n. exists (n + 6)%nat. rewrite (proj1 (C128_scanner_stays (n + 6) ltac:(lia))). destruct (Compare_dec.le_lt_dec 6 n) as [L|L].
    + rewrite (D n L). exists []. split; [lia|]. vm_compute. reflexivity.
    + do 6 (destruct n as [|n]; [eexists; split; [lia|vm_compute; reflexivity]|]). lia.
Qed.

Definition C128_advertiser_calls (n : nat) : operation test_vendor := nth n C126_advertiser_operations Receive.
Definition C128_advertiser_states := states_of (split_perform F41 test_vendor queue_controller) C128_advertiser_calls C126_advertiser_state.
Definition C128_advertiser_results := results_of (split_perform F41 test_vendor queue_controller) C128_advertiser_calls C126_advertiser_state.
Definition C128_advertiser (m : nat) : settings := decide C126_accepts [] (commands_taken (C128_steps 0x0A [1] m)) after_reset.
Definition C128_advertiser_known (m : nat) : list (command test_vendor) :=
  let log := until C128_advertiser_calls C128_advertiser_results m in approved (split_events_read log) [] (split_sent log).
Lemma C128_advertiser_stays n : (6 <= n)%nat -> C128_advertiser_states n = C128_advertiser_states 6%nat
  /\ C128_advertiser_results n = SplitReceived (Err WouldBlock).
Proof.
  intros L. apply (stays (split_perform F41 test_vendor queue_controller) C128_advertiser_calls C126_advertiser_state 6 _ Receive (SplitReceived (Err WouldBlock)) eq_refl).
  - intros k K. unfold C128_advertiser_calls. rewrite nth_overflow by (cbn; lia). reflexivity.
  - vm_compute. reflexivity.
  - exact L.
Qed.
Lemma C128_advertiser_connected : links_connected queue_history C128_advertiser_states (C128_steps 0x0A [1]).
Proof.
  assert (D : forall n, (6 <= n)%nat -> C128_steps 0x0A [1] n = C126_device 0x0A [1])
    by (intros n L; unfold C128_steps; rewrite nth_overflow by (cbn; lia); reflexivity).
  split.
  - intros n. assert (A : apart (C126_device 0x0A [1])) by (split; repeat constructor).
    destruct (C128_first 0x0A [1] n) as [rest Q]. rewrite Q in A. destruct A as [A1 A2]. rewrite taken_app in A1. rewrite sent_by_app in A2.
    apply Forall_app in A1, A2. now split.
  - apply C128_grows.
  - intros n. exists []. destruct (Compare_dec.le_lt_dec 6 n) as [L|L].
    + rewrite (proj1 (C128_advertiser_stays n L)), (D n L). vm_compute. reflexivity.
    + do 6 (destruct n as [|n]; [vm_compute; reflexivity|]). lia.
  - intros n. destruct (Compare_dec.le_lt_dec 6 n) as [L|L].
    + rewrite (proj1 (C128_advertiser_stays n L)), (D n L). exists []. vm_compute. reflexivity.
    + do 6 (destruct n as [|n]; [vm_compute; eexists; reflexivity|]). lia.
  - intros n. exists n, []. split; [lia|]. destruct (Compare_dec.le_lt_dec 6 n) as [L|L].
    + rewrite (proj1 (C128_advertiser_stays n L)), (D n L). vm_compute. reflexivity.
    + do 6 (destruct n as [|n]; [vm_compute; reflexivity|]). lia.
  - intros n. exists (n + 6)%nat. rewrite (proj1 (C128_advertiser_stays (n + 6) ltac:(lia))). destruct (Compare_dec.le_lt_dec 6 n) as [L|L].
    + rewrite (D n L). exists []. split; [lia|]. vm_compute. reflexivity.
    + do 6 (destruct n as [|n]; [eexists; split; [lia|vm_compute; reflexivity]|]). lia.
Qed.

Example C128_case :
  comes_to_rest F41 test_vendor C128_scanner C128_scanner_known
  /\ comes_to_rest F41 test_vendor C128_advertiser C128_advertiser_known
  /\ C128_scanner_known 4 = [CReset] /\ C128_scanner_known 6 = [CReset; CLeSetScanEnable true false]
  /\ is_scanning (C128_scanner 2) = false /\ is_scanning (C128_scanner 6) = true /\ is_advertising (C128_advertiser 6) = true.
Proof.
  assert (I1 : In (0x0C, [1; 0]) C126_devices) by (now left). assert (I2 : In (0x0A, [1]) C126_devices) by (right; now left).
  split; [|split].
  - apply (rest_uart F41 test_vendor _ _ queue N queue_controller queue_history C128_scanner_calls C128_scanner_states C128_scanner_results
             (C128_steps 0x0C [1; 0]) C126_accepts 6).
    + exact queue_buffering.
    + apply endless_of.
    + intros k. unfold C128_scanner_calls. do 6 (destruct k as [|k]; [exact I || (vm_compute; repeat split; reflexivity)|]).
      rewrite nth_overflow by (cbn; lia). exact I.
    + vm_compute; repeat split; repeat constructor.
    + intros c. split; [exact C128_scanner_connected|intros n; now apply C128_orderly|intros n; now apply C128_usual|].
      intros n. exists (n + 6)%nat. split; [lia|]. now apply C128_replied.
    + intros n. exists (n + 6)%nat. split; [lia|]. unfold C128_scanner_calls. rewrite nth_overflow by (cbn; lia). reflexivity.
    + intros m. now apply C128_truthful.
    + intros k c L. unfold C128_scanner_calls. rewrite nth_overflow by (cbn; lia). discriminate.
    + reflexivity.
    + reflexivity.
  - apply (rest_links F41 test_vendor _ _ queue N queue_controller queue_history C128_advertiser_calls C128_advertiser_states
             C128_advertiser_results (C128_steps 0x0A [1]) C126_accepts 6).
    + apply buffering_prompt. exact queue_buffering.
    + apply endless_of.
    + intros k. unfold C128_advertiser_calls. do 6 (destruct k as [|k]; [exact I || (vm_compute; repeat split; reflexivity)|]).
      rewrite nth_overflow by (cbn; lia). exact I.
    + vm_compute; repeat split; repeat constructor.
    + intros c. split; [exact C128_advertiser_connected|intros n; now apply C128_orderly|intros n; now apply C128_usual|].
      intros n. exists (n + 6)%nat. split; [lia|]. now apply C128_replied.
    + intros n. exists (n + 6)%nat. split; [lia|]. now rewrite (proj2 (C128_advertiser_stays (n + 6) ltac:(lia))).
    + intros m. now apply C128_truthful.
    + intros k c L. unfold C128_advertiser_calls. rewrite nth_overflow by (cbn; lia). discriminate.
    + reflexivity.
    + reflexivity.
  - vm_compute. repeat split.
Qed.
(** So at some time the scanner comes to hear the advertiser, whatever their addresses. *)
Lemma C128_scanner_knows m : (6 <= m)%nat -> C128_scanner_known m = [CReset; CLeSetScanEnable true false].
Proof.
  intros L. assert (K : C128_scanner_known 6 = [CReset; CLeSetScanEnable true false]) by (vm_compute; reflexivity).
  rewrite <- K. apply (idle C128_scanner_calls C128_scanner_results 6 m L).
  intros n N. split; [unfold C128_scanner_calls; rewrite nth_overflow by (cbn; lia); reflexivity|exact (proj2 (C128_scanner_stays n N))].
Qed.
Lemma C128_advertiser_knows m : (6 <= m)%nat -> C128_advertiser_known m = [CReset; CLeSetAdvertiseEnable true].
Proof.
  intros L. assert (K : C128_advertiser_known 6 = [CReset; CLeSetAdvertiseEnable true]) by (vm_compute; reflexivity).
  rewrite <- K. apply (split_idle C128_advertiser_calls C128_advertiser_results 6 m L).
  intros n N. split; [unfold C128_advertiser_calls; rewrite nth_overflow by (cbn; lia); reflexivity|exact (proj2 (C128_advertiser_stays n N))].
Qed.
Example C128_case_hears public public' : exists m0, forall m m', (m0 <= m)%nat -> (m0 <= m')%nat ->
  hears public (C128_scanner m) public' (C128_advertiser m').
Proof.
  destruct C128_case as (R & R' & _).
  destruct (C128_hears F41 test_vendor _ _ F41 test_vendor _ _ public public' R R') as (m0 & H).
  exists (Nat.max m0 6). intros m m' L L'. apply (H m m' ltac:(lia) ltac:(lia)).
  rewrite C128_scanner_knows, C128_advertiser_knows by lia. apply C126_case_hears.
Qed.
