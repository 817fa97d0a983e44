(** * Threads that share a controller (property C120). *)
From Coq Require Import Lia.
From Verif Require Import Base Model_Types Model_EventBase Model_Command Model_Event Model_Host
  Spec_Wire Spec_Errors Spec_Host Spec_Link Spec_Example Spec_Split Spec_Share
  Proofs_Base Proofs_Link Proofs_Queue Proofs_Share.
Open Scope list_scope.
Open Scope N_scope.

(** ** C120: threads may share a controller with a lock

    In whatever order they get the lock, each thread makes the calls that it makes if it
    gets these results.  Each packet taken goes to one thread ([ps] are the packets, in
    order, with their threads): what a thread was told are its packets.  Each command
    written was sent by one thread ([cs]), whole, and a controller can tell them apart;
    those of a thread are the ones of which it was told that they were sent, in its order. *)
Theorem C120_uart F V St E (C : controller St E) h (threads : nat -> thread V (report V E)) schedule s :
  contract C h -> (forall i, typed_thread F (threads i)) -> possible h s ->
  let (s', log) := share (perform F V C) threads schedule [] s in
  (forall i, follows (threads i) (of_thread i log))
  /\ exists ps cs, Forall event_packet (map snd ps)
     /\ exchanged h s s' (flat_map command_bytes (map snd cs)) (flat_map uart_frame (map snd ps))
     /\ parse_commands (flat_map command_bytes (map snd cs))
          = Some (map (fun c => (command_opcode c, command_params c)) (map snd cs))
     /\ forall i, received_packets (of_thread i log) = map (uart_result F V) (of_thread i ps)
          /\ sent_commands (of_thread i log) = of_thread i cs.
Proof. exact (fun HC HT => share_uart_all F V C h HC threads HT schedule s). Qed.
Print Assumptions C120_uart.
Theorem C120_split F V St E (C : controller St E) h (threads : nat -> thread V (split_report V E)) schedule s :
  contract C h -> (forall i, typed_thread F (threads i)) -> possible h s ->
  let (s', log) := share (split_perform F V C) threads schedule [] s in
  (forall i, follows (threads i) (of_thread i log))
  /\ exists ps cs, Forall event_packet (map snd ps)
     /\ exchanged h s s' (flat_map link_bytes (map snd cs)) (concat (map snd ps))
     /\ parse_link_commands (flat_map link_bytes (map snd cs))
          = Some (map (fun c => (command_opcode c, command_params c)) (map snd cs))
     /\ forall i, split_received (of_thread i log) = map (link_result F V) (of_thread i ps)
          /\ split_sent (of_thread i log) = of_thread i cs.
Proof. exact (fun HC HT => share_link_all F V C h HC threads HT schedule s). Qed.
Print Assumptions C120_split.

(** All calls together are one history of calls, as the properties on histories (C38, C68,
    C106 and so on) have it. *)
Theorem C120_histories F V St E (C : controller St E) (threads : nat -> thread V (report V E)) schedule s :
  let (s', log) := share (perform F V C) threads schedule [] s in
  session F V C (map fst (map snd log)) s = (s', map snd log).
Proof. exact (share_session F V C threads s schedule [] s eq_refl). Qed.
Print Assumptions C120_histories.
Theorem C120_split_histories F V St E (C : controller St E) (threads : nat -> thread V (split_report V E)) schedule s :
  let (s', log) := share (split_perform F V C) threads schedule [] s in
  split_session F V C (map fst (map snd log)) s = (s', map snd log).
Proof. exact (split_share_session F V C threads s schedule [] s eq_refl). Qed.
Print Assumptions C120_split_histories.

(** If all the other threads only send, thread [j] gets all packets, in order. *)
Theorem C120_reader F V St E (C : controller St E) h (threads : nat -> thread V (report V E)) schedule s j :
  contract C h -> (forall i, typed_thread F (threads i)) -> possible h s ->
  (forall i, i <> j -> only_sends (threads i)) ->
  let (s', log) := share (perform F V C) threads schedule [] s in
  exists ps out, Forall event_packet ps /\ exchanged h s s' out (flat_map uart_frame ps)
    /\ received_packets (of_thread j log) = map (uart_result F V) ps.
Proof. exact (fun HC HT => share_uart_reader F V C h HC threads HT schedule s j). Qed.
Print Assumptions C120_reader.
Theorem C120_split_reader F V St E (C : controller St E) h (threads : nat -> thread V (split_report V E)) schedule s j :
  contract C h -> (forall i, typed_thread F (threads i)) -> possible h s ->
  (forall i, i <> j -> only_sends (threads i)) ->
  let (s', log) := share (split_perform F V C) threads schedule [] s in
  exists ps out, Forall event_packet ps /\ exchanged h s s' out (concat ps)
    /\ split_received (of_thread j log) = map (link_result F V) ps.
Proof. exact (fun HC HT => share_link_reader F V C h HC threads HT schedule s j). Qed.
Print Assumptions C120_split_reader.

(** Thread 0 reads for ever.  Thread 1 resets the controller again and again until it was
    told once that this was sent.  Thread 2 reads the address of the controller, once.  The
    controller is busy at first, and an event comes in two pieces. *)
Definition C120_threads (i : nat) : thread test_vendor (report test_vendor N) :=
  match i with
  | 0%nat => fun _ => Some Receive
  | 1%nat => fun rs =>
      if existsb (fun r => match r with Sent (Plain (Ok _)) => true | _ => false end) rs then None else Some (Send CReset)
  | 2%nat => fun rs => match rs with [] => Some (Send CReadBdAddr) | _ => None end
  | _ => fun _ => None
  end.
Example C120_case :
  let s := {| q_received := [0x04]; q_consumed := 0; q_arrivals := [[0x10]; [1; 0x42; 0x04]]; q_written := [];
              q_ready := [Busy; Ready; Ready] |} in
  (forall i, typed_thread F41 (C120_threads i)) /\ (forall i, i <> 0%nat -> only_sends (C120_threads i))
  /\ possible queue_history s
  /\ let (s', log) := share (perform F41 test_vendor queue_controller) C120_threads
                        [1; 0; 2; 7; 0; 1; 0; 1; 2]%nat [] s in
     map fst log = [1; 0; 2; 0; 1; 0]%nat
     /\ of_thread 1%nat log = [(Send CReset, Sent (Plain (Err WouldBlock))); (Send CReset, Sent (Plain (Ok tt)))]
     /\ received_packets (of_thread 0%nat log) = [Ok (PEvent (EvHardwareError (Build_hardware_error 0x42)))]
     /\ sent_commands (of_thread 2%nat log) = [CReadBdAddr]
     /\ q_written s' = command_bytes (V := test_vendor) CReadBdAddr ++ command_bytes (V := test_vendor) CReset
     /\ q_consumed s' = 4%nat.
Proof.
  cbv zeta. split.
  { intros [|[|[|i]]] rs o; cbn.
    - now intros [= <-].
    - destruct (existsb _ rs); [discriminate|]. now intros [= <-].
    - destruct rs; [|discriminate]. now intros [= <-].
    - discriminate. }
  split.
  { intros [|[|[|i]]] Hi rs; cbn.
    - now destruct Hi.
    - destruct (existsb _ rs); discriminate.
    - destruct rs; discriminate.
    - discriminate. }
  split; [split; [repeat constructor|split; [cbn; lia|repeat constructor]]|].
  vm_compute. repeat split.
Qed.
