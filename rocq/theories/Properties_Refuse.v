(** * A controller that refuses some commands (property C124).

    [asks], [takes], [unrelated] as in C65; [asked], [carry_out] as in C76. *)
From Verif Require Import Base Model_Types Model_EventBase Model_Command Model_Event Model_Host
  Spec_Wire Spec_Errors Spec_Host Spec_Link Spec_Example Spec_Retry Spec_Dialogue Spec_Device Spec_Refuse
  Proofs_Base Proofs_Dialogue Proofs_Refuse.
Open Scope list_scope.
Open Scope N_scope.

(** ** C124: a host that goes by the answers knows the settings of its controller

    The settings of a controller that has decided, command by command, about the bytes
    written to it are those that the commands ask for which the answers that the host has
    read ([heard]) confirm. *)
Theorem C124_settings F V accepts respond cs answers s ps d :
  Forall (fun c => arguments_typed F c /\ @rejection V N c = None) cs ->
  possible queue_history s -> takes (length cs) (q_ready s) ->
  (* events still to be read from before *)
  q_pending s ++ concat (q_arrivals s) = flat_map uart_frame ps -> Forall (unrelated F V) ps ->
  honest F V accepts respond (q_written s) [] cs answers ->
  exists m, forall n, (m <= n)%nat ->
  let (s', heard) := asks F V (device respond) n cs s in
  exists stream packets, q_written s' = q_written s ++ stream /\ parse_commands stream = Some packets
    /\ decide accepts [] packets d = fold_left asked (confirmed cs heard) d.
Proof. exact (settled F V accepts respond cs answers s ps d). Qed.
Print Assumptions C124_settings.

(** A packet that answers a command confirms it, as the host sees it, exactly if the
    status in it is zero. *)
Theorem C124_confirms F V c a p : answered F V (command_opcode (V := V) c) a p ->
  (confirms a = true <-> status_in p = 0).
Proof. exact (confirms_status F V c a p). Qed.
Print Assumptions C124_confirms.

(** A controller with room for one device on its white list, which says of the second one
    that its memory is full, and which does not allow advertising just now. *)
Definition small_accepts (before : list (N * list N)) (packet : N * list N) : bool :=
  negb (((fst packet =? hci_opcode 0x08 0x011) && (2 <=? length before)%nat) || (fst packet =? hci_opcode 0x08 0x00A))%bool.
Definition small_respond (w cmd : list N) : list (list N) :=
  map (fun b => [b])
    (flat_map uart_frame
       (match cmd with
        | [0x01; 0x03; 0x0C; 0] => [[0x77; 0]; [0x0E; 4; 1; 0x03; 0x0C; 0]]
        | 0x01 :: 0x11 :: _ => [[0x0E; 4; 1; 0x11; 0x20; if (5 <? length w)%nat then 7 else 0]; [0x10; 1; 0x42]]
        | _ :: lo :: hi :: _ => [[0x0F; 4; 0x0C; 1; lo; hi]]
        | _ => []
        end)).
Definition small_calls : list (command test_vendor) :=
  [CReset; CLeAddDeviceToWhiteList (BdPublic [1; 2; 3; 4; 5; 6]);
   CLeAddDeviceToWhiteList (BdRandom [6; 5; 4; 3; 2; 1]); CLeSetAdvertiseEnable true].
Definition small_answers : list (answer test_vendor) :=
  [Completed (RetReset Success); Completed (RetLeAddDeviceToWhiteList Success);
   Completed (RetLeAddDeviceToWhiteList OutOfMemory); Accepted CommandDisallowed].
Definition small_device : queue :=
  {| q_received := []; q_consumed := 0; q_arrivals := []; q_written := [];
     q_ready := [Busy; Ready; Ready; Ready; Busy; Busy; Ready] |}.

Example C124_case :
  Forall (fun c => arguments_typed F41 c /\ @rejection test_vendor N c = None) small_calls
  /\ possible queue_history small_device /\ takes (length small_calls) (q_ready small_device)
  /\ honest F41 test_vendor small_accepts small_respond [] [] small_calls small_answers
  /\ snd (asks F41 test_vendor (device small_respond) 50 small_calls small_device) = map Some small_answers
  /\ confirmed small_calls (map Some small_answers)
     = [CReset; CLeAddDeviceToWhiteList (BdPublic [1; 2; 3; 4; 5; 6])]
  /\ white_list (fold_left asked (confirmed small_calls (map Some small_answers)) after_reset) = [[0; 1; 2; 3; 4; 5; 6]].
Proof.
  split.
  { apply Forall_cons; [split; [exact I|reflexivity]|].
    do 2 (apply Forall_cons; [split; [split; [reflexivity|repeat constructor]|reflexivity]|]).
    apply Forall_cons; [split; [vm_compute; reflexivity|reflexivity]|apply Forall_nil]. }
  split; [split; [constructor|split; [cbn; lia|constructor]]|].
  split; [apply (takes_more 3 1), (takes_more 2 0), (takes_more 1 0), (takes_more 0 2), takes_none|].
  split; [|split; [vm_compute; reflexivity|split; vm_compute; reflexivity]].
  unfold small_calls, small_answers.
  apply (honest_one F41 test_vendor small_accepts small_respond [] [] _ _ _ _ [[0x77; 0]] [0x0E; 4; 1; 0x03; 0x0C; 0] []);
    [vm_compute; repeat constructor|vm_compute; reflexivity| |constructor| |split; reflexivity|].
  { constructor; [|constructor]. unrelated_packet 0x77 (@nil N). left. exists 0x77, []. repeat split; discriminate. }
  { apply (by_completion F41 test_vendor (command_opcode (V := test_vendor) CReset) 1 (RetReset Success) [0]);
      [reflexivity|repeat constructor|cbn; lia|]. split; [reflexivity|]. exists 0, []. split; reflexivity. }
  apply (honest_one F41 test_vendor small_accepts small_respond _ _ _ _ _ _ [] [0x0E; 4; 1; 0x11; 0x20; 0] [[0x10; 1; 0x42]]);
    [vm_compute; repeat constructor|vm_compute; reflexivity|constructor| | |split; reflexivity|].
  { constructor; [|constructor]. unrelated_packet 0x10 [0x42]. left. exists 0x10, [0x42]. repeat split; discriminate. }
  { apply (by_completion F41 test_vendor (hci_opcode 0x08 0x011) 1 (RetLeAddDeviceToWhiteList Success) [0]);
      [reflexivity|repeat constructor|cbn; lia|]. split; [reflexivity|]. exists 0, []. split; reflexivity. }
  apply (honest_one F41 test_vendor small_accepts small_respond _ _ _ _ _ _ [] [0x0E; 4; 1; 0x11; 0x20; 7] [[0x10; 1; 0x42]]);
    [vm_compute; repeat constructor|vm_compute; reflexivity|constructor| | |split; intros H; vm_compute in H; discriminate H|].
  { constructor; [|constructor]. unrelated_packet 0x10 [0x42]. left. exists 0x10, [0x42]. repeat split; discriminate. }
  { apply (by_completion F41 test_vendor (hci_opcode 0x08 0x011) 1 (RetLeAddDeviceToWhiteList OutOfMemory) [7]);
      [reflexivity|repeat constructor|cbn; lia|]. split; [reflexivity|]. exists 7, []. split; reflexivity. }
  apply (honest_one F41 test_vendor small_accepts small_respond _ _ _ _ _ _ [] [0x0F; 4; 0x0C; 1; 0x0A; 0x20] []);
    [vm_compute; repeat constructor|vm_compute; reflexivity|constructor|constructor| |
     split; intros H; vm_compute in H; discriminate H|constructor].
  apply (by_status F41 test_vendor (hci_opcode 0x08 0x00A) 1 0x0C); reflexivity.
Qed.
