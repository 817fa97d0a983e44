(** * A host that reads on learns what its commands have done (property C127).

    [all_heard], [approved], [commands_taken], [truthful] as in C125; [asked], [decide]
    as in C124; [endless], [until], [replies_to_all], [links_reply] as in C114 and C116. *)
From Coq Require Import Lia.
From Verif Require Import Base Model_Types Model_Intervals Model_EventBase Model_Command Model_Event Model_Host
  Spec_Wire Spec_Errors Spec_Host Spec_Link Spec_Example Spec_Split Spec_Conform Spec_Follow Spec_Credit Spec_Facts Spec_Data
  Spec_Window Spec_Turns Spec_Own Spec_Apart Spec_Live Spec_LiveOwn Spec_LiveApart Spec_Device Spec_Refuse Spec_Several Spec_Learn
  Proofs_Base Proofs_Link Proofs_Queue Proofs_Conform Proofs_Follow Proofs_Facts Proofs_Data Proofs_Turns Proofs_Own
  Proofs_Live Proofs_LiveOwn Proofs_LiveApart Proofs_Several Proofs_Learn Properties_Several.
Open Scope list_scope.
Open Scope N_scope.

(** ** C127: a host that reads on learns what its commands have done

    When the host has read an answer to each of its first commands [cs], the controller
    has taken them all, and its settings after them are those that the approved ones ask
    for, whatever else is under way. *)
Theorem C127_first F V St E (C : controller St E) h accepts os s d x : contract C h ->
  Forall (typed_data_operation F V) os -> possible h s -> orderly F d ->
  Forall (fun w => reserved_address_commands (snd w) = false) (sent_by d) -> truthful accepts d ->
  let (s', log) := data_session F V C os s in
  (exists on_the_way, written h s' = written h s ++ flat_map wire_bytes (taken d) ++ on_the_way) ->
  (exists on_the_way, flat_map wire_bytes (sent_by d) = pending h s s' ++ on_the_way) ->
  forall cs later, ordered log = cs ++ later -> all_heard (events_got log) cs ->
  (length cs <= length (commands_taken d))%nat
  /\ decide accepts [] (firstn (length cs) (commands_taken d)) x = fold_left asked (approved (events_got log) [] cs) x.
Proof. exact (fun HC => several_known F V C h HC accepts os s d x). Qed.
Print Assumptions C127_first.
Theorem C127_first_apart F V St E (C : controller St E) h accepts os s d x : contract C h ->
  Forall (typed_operation F) os -> possible h s -> orderly F d -> apart d ->
  Forall (fun w => reserved_address_commands (snd w) = false) (sent_by d) -> truthful accepts d ->
  let (s', log) := split_session F V C os s in
  (exists on_the_way, written h s' = written h s ++ flat_map bare_bytes (taken d) ++ on_the_way) ->
  (exists on_the_way, flat_map bare_bytes (sent_by d) = pending h s s' ++ on_the_way) ->
  forall cs later, split_sent log = cs ++ later -> all_heard (split_events_read log) cs ->
  (length cs <= length (commands_taken d))%nat
  /\ decide accepts [] (firstn (length cs) (commands_taken d)) x = fold_left asked (approved (split_events_read log) [] cs) x.
Proof. exact (fun HC => split_known F V C h HC accepts os s d x). Qed.
Print Assumptions C127_first_apart.

(** In C125's example, before the last answer is read, the host knows what the first two
    commands have done, but not yet what the third has. *)
Example C127_case :
  let operations := firstn 7 C125_operations in
  Forall (typed_data_operation F41 test_vendor) operations
  /\ let (s', log) := data_session F41 test_vendor queue_controller operations C125_state in
     (exists on_the_way, written queue_history s' = flat_map wire_bytes (taken C125_device) ++ on_the_way)
     /\ (exists on_the_way, flat_map wire_bytes (sent_by C125_device) = pending queue_history C125_state s' ++ on_the_way)
     /\ let cs := [CReset; CLeAddDeviceToWhiteList (BdPublic [1; 2; 3; 4; 5; 6])] in
        let later := [CLeAddDeviceToWhiteList (BdRandom [6; 5; 4; 3; 2; 1]); CLeRand] in
        ordered log = cs ++ later /\ all_heard (events_got log) cs /\ ~ all_heard (events_got log) (ordered log)
        /\ approved (events_got log) [] cs = cs.
Proof.
  split.
  { apply Forall_cons; [exact I|]. apply Forall_cons; [exact I|].
    do 2 (apply Forall_cons; [split; [reflexivity|repeat constructor]|]).
    repeat (apply Forall_cons; [exact I|]). apply Forall_nil. }
  set (run := data_session F41 test_vendor queue_controller (firstn 7 C125_operations) C125_state).
  let v := eval vm_compute in run in assert (R : run = v) by (vm_compute; reflexivity).
  rewrite R. clear R run. split; [now exists []|].
  split; [now exists []|]. cbv zeta. split; [reflexivity|].
  split; [|split; [|reflexivity]].
  - intros c H. repeat (destruct H as [<-|H]; [vm_compute; lia|]). contradiction.
  - intros H. specialize (H (CLeAddDeviceToWhiteList (BdPublic [1; 2; 3; 4; 5; 6]))). vm_compute in H.
    assert (K : (2 <= 1)%nat) by (apply H; right; now left). lia.
Qed.

(** In a run without an end, in which the controller answers every command at some time
    and the host goes on reading, for all the commands of the first [n] calls this comes
    about at some time, and for good. *)
Theorem C127_learns F V St E (C : controller St E) h calls states results d accepts x : buffering C h ->
  endless (data_perform F V C) calls states results -> (forall n, typed_data_operation F V (calls n)) -> possible h (states 0%nat) ->
  (forall c : command V, replies_to_all F (command_opcode c) h states d) ->
  again_and_again (fun n => calls n = Fetch) ->
  (forall n, truthful accepts (d n)) ->
  forall n, exists m0, (n <= m0)%nat /\ forall m, (m0 <= m)%nat ->
  all_heard (events_got (until calls results m)) (ordered (until calls results n))
  /\ (length (ordered (until calls results n)) <= length (commands_taken (d m)))%nat
  /\ decide accepts [] (firstn (length (ordered (until calls results n))) (commands_taken (d m))) x
     = fold_left asked (approved (events_got (until calls results m)) [] (ordered (until calls results n))) x.
Proof. exact (fun HB R T S A W HT n => learns F V C h HB calls states results R T S d A W accepts x n HT). Qed.
Print Assumptions C127_learns.
Theorem C127_learns_apart F V St E (C : controller St E) h calls states results d accepts x : prompt C h ->
  endless (split_perform F V C) calls states results -> (forall n, typed_operation F (calls n)) -> possible h (states 0%nat) ->
  (forall c : command V, links_reply F (command_opcode c) h states d) ->
  again_and_again (fun n => split_read_went (results n) = true) ->
  (forall n, truthful accepts (d n)) ->
  forall n, exists m0, (n <= m0)%nat /\ forall m, (m0 <= m)%nat ->
  all_heard (split_events_read (until calls results m)) (split_sent (until calls results n))
  /\ (length (split_sent (until calls results n)) <= length (commands_taken (d m)))%nat
  /\ decide accepts [] (firstn (length (split_sent (until calls results n))) (commands_taken (d m))) x
     = fold_left asked (approved (split_events_read (until calls results m)) [] (split_sent (until calls results n))) x.
Proof. exact (fun HP R T S A W HT n => split_learns F V C h HP calls states results R T S d A W accepts x n HT). Qed.
Print Assumptions C127_learns_apart.

(** When the host sends no more commands, it knows at some time, and for good, the
    settings of the controller. *)
Theorem C127_settles F V St E (C : controller St E) h calls states results d accepts x : buffering C h ->
  endless (data_perform F V C) calls states results -> (forall n, typed_data_operation F V (calls n)) -> possible h (states 0%nat) ->
  (forall c : command V, replies_to_all F (command_opcode c) h states d) ->
  again_and_again (fun n => calls n = Fetch) ->
  (forall n, truthful accepts (d n)) ->
  forall n, (forall k c, (n <= k)%nat -> calls k <> Order c) ->
  exists m0, (n <= m0)%nat /\ forall m, (m0 <= m)%nat ->
  all_heard (events_got (until calls results m)) (ordered (until calls results m))
  /\ decide accepts [] (commands_taken (d m)) x
     = fold_left asked (approved (events_got (until calls results m)) [] (ordered (until calls results m))) x.
Proof. exact (fun HB R T S A W HT n Hn => settles F V C h HB calls states results R T S d A W accepts x n HT Hn). Qed.
Print Assumptions C127_settles.
Theorem C127_settles_apart F V St E (C : controller St E) h calls states results d accepts x : prompt C h ->
  endless (split_perform F V C) calls states results -> (forall n, typed_operation F (calls n)) -> possible h (states 0%nat) ->
  (forall c : command V, links_reply F (command_opcode c) h states d) ->
  again_and_again (fun n => split_read_went (results n) = true) ->
  (forall n, truthful accepts (d n)) ->
  forall n, (forall k c, (n <= k)%nat -> calls k <> Send c) ->
  exists m0, (n <= m0)%nat /\ forall m, (m0 <= m)%nat ->
  all_heard (split_events_read (until calls results m)) (split_sent (until calls results m))
  /\ decide accepts [] (commands_taken (d m)) x
     = fold_left asked (approved (split_events_read (until calls results m)) [] (split_sent (until calls results m))) x.
Proof. exact (fun HP R T S A W HT n Hn => split_settles F V C h HP calls states results R T S d A W accepts x n HT Hn). Qed.
Print Assumptions C127_settles_apart.

(** Reset for ever: what the first Reset has done the host knows after call 1. *)
Example C127_learns_case :
  let call := data_perform F41 test_vendor reset_controller in
  let states := states_of call reset_calls empty_queue in let results := results_of call reset_calls empty_queue in
  buffering reset_controller queue_history
  /\ endless call reset_calls states results
  /\ (forall n, typed_data_operation F41 test_vendor (reset_calls n)) /\ possible queue_history (states 0%nat)
  /\ (forall c : command test_vendor, replies_to_all F41 (command_opcode c) queue_history states reset_device)
  /\ again_and_again (fun n => @reset_calls test_vendor n = Fetch)
  /\ (forall n, truthful (fun _ _ => true) (reset_device n))
  /\ ordered (until reset_calls results 1) = [CReset]
  /\ approved (events_got (until reset_calls results 1)) [] [@CReset test_vendor] = []
  /\ approved (events_got (until reset_calls results 2)) [] [@CReset test_vendor] = [CReset].
Proof.
  cbv zeta. split; [apply answering_buffering; intros _; vm_compute; repeat constructor|]. split; [apply endless_of|].
  split; [intros n; unfold reset_calls, in_turn; destruct (Nat.even n); exact I|].
  split; [cbn; repeat split; repeat constructor|].
  split; [intros c; apply resets_all|]. split; [exact (in_turn_reads test_vendor _ _ _ _ _ (reset_write _) (reset_read _))|].
  split; [exact resets_truthful|]. vm_compute. repeat split.
Qed.
Example C127_learns_apart_case :
  let call := split_perform F41 test_vendor link_reset_controller in
  let states := states_of call link_resets empty_queue in let results := results_of call link_resets empty_queue in
  prompt link_reset_controller queue_history
  /\ endless call link_resets states results
  /\ (forall n, typed_operation F41 (@link_resets test_vendor n)) /\ possible queue_history (states 0%nat)
  /\ (forall c : command test_vendor, links_reply F41 (command_opcode c) queue_history states reset_device)
  /\ again_and_again (fun n => split_read_went (results n) = true)
  /\ (forall n, truthful (fun _ _ => true) (reset_device n))
  /\ split_sent (until link_resets results 1) = [CReset]
  /\ approved (split_events_read (until link_resets results 1)) [] [@CReset test_vendor] = []
  /\ approved (split_events_read (until link_resets results 2)) [] [@CReset test_vendor] = [CReset].
Proof.
  cbv zeta. split; [apply buffering_prompt, answering_buffering; intros _; vm_compute; repeat constructor|]. split; [apply endless_of|].
  split; [intros n; unfold link_resets; destruct (Nat.even n); exact I|].
  split; [cbn; repeat split; repeat constructor|].
  split; [intros c; apply link_resets_all|]. split; [exact (link_resets_read test_vendor)|].
  split; [exact resets_truthful|]. vm_compute. repeat split.
Qed.

(** One Reset, and then only reads. *)
Example C127_settles_case :
  let call := data_perform F41 test_vendor reset_controller in
  let states := states_of call one_call empty_queue in let results := results_of call one_call empty_queue in
  buffering reset_controller queue_history
  /\ endless call one_call states results
  /\ (forall n, typed_data_operation F41 test_vendor (one_call n)) /\ possible queue_history (states 0%nat)
  /\ (forall c : command test_vendor, replies_to_all F41 (command_opcode c) queue_history states one_device)
  /\ again_and_again (fun n => @one_call test_vendor n = Fetch)
  /\ (forall n, truthful (fun _ _ => true) (one_device n))
  /\ (forall k c, (1 <= k)%nat -> @one_call test_vendor k <> Order c)
  /\ commands_taken (one_device 2) = [(0x0C03, [])]
  /\ approved (events_got (until one_call results 2)) [] (ordered (until one_call results 2)) = [CReset].
Proof.
  cbv zeta. split; [apply answering_buffering; intros _; vm_compute; repeat constructor|]. split; [apply endless_of|].
  split; [intros [|n]; exact I|]. split; [cbn; repeat split; repeat constructor|].
  split; [intros c; apply one_all|]. split; [intros n; exists (S n); split; [lia|reflexivity]|].
  split; [exact one_truthful|]. split; [intros [|k] c L; [lia|discriminate]|]. vm_compute. repeat split.
Qed.
Example C127_settles_apart_case :
  let call := split_perform F41 test_vendor link_reset_controller in
  let states := states_of call one_send empty_queue in let results := results_of call one_send empty_queue in
  prompt link_reset_controller queue_history
  /\ endless call one_send states results
  /\ (forall n, typed_operation F41 (@one_send test_vendor n)) /\ possible queue_history (states 0%nat)
  /\ (forall c : command test_vendor, links_reply F41 (command_opcode c) queue_history states one_device)
  /\ again_and_again (fun n => split_read_went (results n) = true)
  /\ (forall n, truthful (fun _ _ => true) (one_device n))
  /\ (forall k c, (1 <= k)%nat -> @one_send test_vendor k <> Send c)
  /\ approved (split_events_read (until one_send results 2)) [] (split_sent (until one_send results 2)) = [CReset].
Proof.
  cbv zeta. split; [apply buffering_prompt, answering_buffering; intros _; vm_compute; repeat constructor|]. split; [apply endless_of|].
  split; [intros [|n]; exact I|]. split; [cbn; repeat split; repeat constructor|].
  split; [intros c; apply one_split_all|]. split; [exact (one_split_reads test_vendor)|].
  split; [exact one_truthful|]. split; [intros [|k] c L; [lia|discriminate]|]. vm_compute. repeat split.
Qed.
