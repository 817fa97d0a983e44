(** * A program that sends a list of data packets, each in its turn (property C131).

    [passes_on ws calls results]: while packets of the list [ws] are left, the program sends
    the next one just when it knows of a buffer for it, and it goes on reading; [passed]: the
    data packets that it has sent; [data_go]: the transport does not refuse data for ever.
    [frees] and [limits] as in C112. *)
From Coq Require Import Lia.
From Verif Require Import Base Model_Types Model_Intervals Model_EventBase Model_Command Model_Event Model_Host
  Spec_Wire Spec_Errors Spec_Host Spec_Link Spec_Example Spec_Split Spec_Conform Spec_Follow Spec_Credit Spec_Facts Spec_Data
  Spec_Window Spec_Turns Spec_Live Spec_Deliver
  Proofs_Base Proofs_Link Proofs_Queue Proofs_Conform Proofs_Follow Proofs_Facts Proofs_Data Proofs_Window Proofs_Turns
  Proofs_Live Proofs_Deliver.
Open Scope list_scope.
Open Scope N_scope.

(** ** C131: a program that sends its data in turn gets done

    It sends no more than the controller has room for (as in C104).  If it is told the
    buffers at some time, then at some time it has sent all its data, each packet once and
    in order, and the controller has taken just these. *)
Theorem C131_done F V St E (C : controller St E) h calls states results size number d ws : buffering C h ->
  endless (data_perform F V C) calls states results -> (forall n, typed_data_operation F V (calls n)) -> possible h (states 0%nat) ->
  frees F size number h states d ->
  Forall (fun w => is_data w = true /\ data_size w <= size) ws ->
  passes_on ws calls results ->
  (forall n, careful (until calls results n))
  /\ ((exists n, limits (until calls results n) <> None) -> data_go calls results ->
      exists m0, forall m, (m0 <= m)%nat -> passed (until calls results m) = ws /\ filter is_data (taken (d m)) = ws).
Proof.
  exact (fun HB R T S G W P => conj (pass_careful F V C h HB calls states results R T S size number d G ws W P)
    (all_pass F V C h HB calls states results R T S size number d G ws W P)).
Qed.
Print Assumptions C131_done.

(** Two packets and one buffer: the program has to wait before the second. *)
Example C131_case :
  let call := data_perform F41 test_vendor one_buffer_controller in
  let states := states_of call pass_calls empty_queue in let results := results_of call pass_calls empty_queue in
  let ws := [one_buffer_packet 1; one_buffer_packet 2] in
  buffering one_buffer_controller queue_history
  /\ endless call pass_calls states results
  /\ (forall n, typed_data_operation F41 test_vendor (pass_calls n)) /\ possible queue_history (states 0%nat)
  /\ frees F41 27 1 queue_history states pass_device
  /\ Forall (fun w => is_data w = true /\ data_size w <= 27) ws
  /\ passes_on ws pass_calls results
  /\ limits (until pass_calls results 2) <> None /\ data_go (@pass_calls test_vendor) results
  /\ passed (until pass_calls results 4) = [one_buffer_packet 1] /\ passed (until pass_calls results 5) = ws.
Proof.
  cbv zeta. split; [apply answering_buffering; intros l; destruct (nth 0 l 0 =? 1); vm_compute; repeat constructor|]. split; [apply endless_of|].
  split.
  { assert (D : data_packet (one_buffer_packet 1)) by (exists 0x40, 0, [7]; repeat split; [repeat constructor..|]; left; split; reflexivity).
    intros n. destruct n as [|[|[|[|[|n]]]]]; try exact I; exact D. }
  split; [cbn; repeat split; repeat constructor|].
  split; [exact (pass_frees test_vendor)|]. split; [repeat constructor; vm_compute; discriminate|].
  split; [exact (pass_program test_vendor)|]. split; [vm_compute; discriminate|]. split; [exact (pass_go test_vendor)|].
  split; vm_compute; reflexivity.
Qed.
