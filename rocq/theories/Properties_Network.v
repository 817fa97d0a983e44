(** * Hosts connected to each other: C91. *)
From Verif Require Import Base Model_Types Model_Intervals Model_EventBase Model_Command Model_Event Model_Host
  Spec_Wire Spec_Errors Spec_Host Spec_Link Spec_Split Spec_Example Spec_Conform Spec_Pass Spec_Follow Spec_Network
  Proofs_Base Proofs_Link Proofs_Network.
Open Scope list_scope.
Open Scope N_scope.

(** ** C91: the two ends of a connection agree about it

    Every host knows exactly the connections of its device. *)
Theorem C91_knows F V address device os evs : address_book address -> may_all_occur [] os ->
  heard F V (flat_map (packets_for address device) os) evs ->
  Forall2 describes (connections_of address device (fold_left occur (filter noticed os) []))
    (fold_left follow evs []).
Proof. exact (fun HA => knows address device HA F V os evs). Qed.
Print Assumptions C91_knows.

(** The hosts at the two ends of a connection agree: each takes the other for its
    peer, one is the central and the other the peripheral, and both know the same
    parameters and whether it is encrypted. *)
Theorem C91_agree F V F' V' address os evs evs' l : address_book address -> may_all_occur [] os ->
  In l (fold_left occur (filter noticed os) []) ->
  heard F V (flat_map (packets_for address (e_central (l_ends l))) os) evs ->
  heard F' V' (flat_map (packets_for address (e_peripheral (l_ends l))) os) evs' ->
  exists k k', In k (fold_left follow evs []) /\ In k' (fold_left follow evs' []) /\ agree address l k k'.
Proof. exact (both_agree F V F' V' address os evs evs' l). Qed.
Print Assumptions C91_agree.

(** Three devices: the first one connects to the second and the third, the second
    one to the third. *)
Definition C91_address (d : N) : N * list N := (d mod 2, [d mod 256; 2; 3; 4; 5; 6]).
Definition C91_ends1 := {| e_central := 1; e_central_handle := 0x40; e_peripheral := 2; e_peripheral_handle := 0x01 |}.
Definition C91_ends2 := {| e_central := 1; e_central_handle := 0x41; e_peripheral := 3; e_peripheral_handle := 0x01 |}.
Definition C91_ends3 := {| e_central := 2; e_central_handle := 0x02; e_peripheral := 3; e_peripheral_handle := 0x40 |}.
Definition C91_occurrences : list occurrence := [
  Made C91_ends1 0x18 4 0x64 5;
  Made C91_ends2 0x06 0 0x0A 0;
  Secured C91_ends1 true;
  Made C91_ends3 0x50 0 0xC8 1;
  Renewed C91_ends1 0x20 0 0x190;
  Ended C91_ends3 0x13 0x16].
Definition C91_link : link :=
  {| l_ends := C91_ends1; l_interval := 0x20; l_latency := 0; l_timeout := 0x190; l_encrypted := true |}.
Definition C91_queue (bs : list N) : queue :=
  {| q_received := bs; q_consumed := 0; q_arrivals := []; q_written := []; q_ready := [] |}.

Lemma C91_address_ok : address_book C91_address.
Proof.
  intros d. cbn [C91_address fst snd]. split; [|split; [reflexivity|]].
  - pose proof (N.mod_lt d 2 ltac:(discriminate)). lia.
  - repeat constructor. unfold byte. apply N.mod_lt. discriminate.
Qed.
Example C91_case :
  address_book C91_address
  /\ may_all_occur [] C91_occurrences
  /\ fold_left occur (filter noticed C91_occurrences) [] = [C91_link]
  /\ let evs := events_read (snd (session F41 test_vendor queue_controller (repeat Receive 4)
                  (C91_queue (flat_map uart_frame (flat_map (packets_for C91_address 1) C91_occurrences))))) in
     let evs' := split_events_read (snd (split_session F50 test_vendor queue_controller (repeat Receive 5)
                  (C91_queue (concat (flat_map (packets_for C91_address 2) C91_occurrences))))) in
     heard F41 test_vendor (flat_map (packets_for C91_address 1) C91_occurrences) evs
     /\ heard F50 test_vendor (flat_map (packets_for C91_address 2) C91_occurrences) evs'
     /\ let ci := {| fci_interval := 0x20 * interval_unit; fci_latency := 0; fci_timeout := 0x190 * timeout_unit |} in
        fold_left follow evs []
        = [{| k_handle := 0x40; k_kind := KnownLe Central (BdPublic [2; 2; 3; 4; 5; 6]) ci; k_encrypted := true |}]
        /\ fold_left follow evs' []
        = [{| k_handle := 0x01; k_kind := KnownLe Peripheral (BdRandom [1; 2; 3; 4; 5; 6]) ci; k_encrypted := true |}].
Proof.
  split; [exact C91_address_ok|].
  split.
  { unfold C91_occurrences, may_all_occur.
    repeat match goal with |- _ /\ _ => split end; try exact I;
    cbn; unfold is_open, free, uses, parameter_ranges, timeout_suffices; cbn; try lia; try tauto;
    repeat split; try lia; try discriminate; try (intros l Hl; vm_compute in Hl; decompose [or] Hl; subst; cbn; lia); auto. }
  split; [reflexivity|].
  cbv zeta. split; [|split; [|split; vm_compute; reflexivity]].
  - exists queue, N, queue_controller, queue_history, (repeat Receive 4),
      (C91_queue (flat_map uart_frame (flat_map (packets_for C91_address 1) C91_occurrences))), [].
    split; [exact (buffering_contract _ _ queue_buffering)|].
    split; [repeat constructor|].
    split; [cbn; split; [repeat constructor|split; [lia|constructor]]|]. left.
    destruct (session _ _ _ _ _) as [s' log] eqn:Es. apply (f_equal fst) in Es as E1. cbn [fst] in E1. subst s'.
    split; [vm_compute; reflexivity|]. split; [vm_compute; reflexivity|]. reflexivity.
  - exists queue, N, queue_controller, queue_history, (repeat Receive 5),
      (C91_queue (concat (flat_map (packets_for C91_address 2) C91_occurrences))), [].
    split; [exact (buffering_contract _ _ queue_buffering)|].
    split; [repeat constructor|].
    split; [cbn; split; [repeat constructor|split; [lia|constructor]]|]. right.
    destruct (split_session _ _ _ _ _) as [s' log] eqn:Es. apply (f_equal fst) in Es as E1. cbn [fst] in E1. subst s'.
    split; [vm_compute; reflexivity|]. split; [vm_compute; reflexivity|]. reflexivity.
Qed.
