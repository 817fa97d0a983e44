(** * Encryption between two hosts (property C109). *)
From Verif Require Import Base Model_Types Model_Intervals Model_EventBase Model_Command Model_Event Model_Host
  Spec_Wire Spec_Errors Spec_Host Spec_Link Spec_Example Spec_Split Spec_Conform Spec_Follow Spec_Credit Spec_Facts Spec_Data
  Spec_Window Spec_Turns Spec_Keys Spec_Secure Proofs_Base Proofs_Link Proofs_Queue Proofs_Conform Proofs_Follow Proofs_Facts Proofs_Data
  Proofs_Turns Proofs_Keys Proofs_Secure Properties_Keys.
Open Scope list_scope.
Open Scope N_scope.

(** ** C109: a link is encrypted exactly if the two hosts have the same key

    The central's host starts encryption, the peripheral's host answers as in C108.
    The peripheral's controller asks for the key with the random number and the
    diversifier that the central's controller was given.  Then the [k]th answer
    carries the key of the [k]th start exactly if the key that the peripheral's
    host has for the number and the diversifier in the [k]th call of the central's
    host is the key in this call. *)
Theorem C109_same_key key_for F V St E (C : controller St E) h os s d handle
    F' V' St' E' (C' : controller St' E') h' os' s' d' handle' :
  contract C h -> contract C' h' ->
  (forall c r e k, key_for c r e = Some k -> length k = 16%nat) ->
  Forall (typed_data_operation F V) os -> possible h s -> Forall outgoing_packet (taken d) ->
  Forall (typed_data_operation F' V') os' -> possible h' s' -> conforming_device F' d' ->
  over_the_air handle d handle' d' ->
  let (t, log) := data_session F V C os s in
  let (t', log') := data_session F' V' C' os' s' in
  (exists on_the_way, written h t = written h s ++ flat_map wire_bytes (taken d) ++ on_the_way) ->
  answers_keys key_for log' ->
  (exists on_the_way, written h' t' = written h' s' ++ flat_map wire_bytes (taken d') ++ on_the_way) ->
  (exists on_the_way, flat_map wire_bytes (sent_by d') = pending h' s' t' ++ on_the_way) ->
  forall k reply, nth_error (replies handle' d') k = Some reply ->
  exists start q, nth_error (starts handle d) k = Some start /\ nth_error (start_calls handle log) k = Some q
  /\ (same_key start reply
      <-> key_for handle' (enc_random_number q) (enc_encrypted_diversifier q) = Some (enc_long_term_key q)).
Proof. exact (secured key_for F V C h os s d handle F' V' C' h' os' s' d' handle'). Qed.
Print Assumptions C109_same_key.

(** A central with the handle 0x30 for the connection that is 0x40 at the peripheral of
    C108 starts encryption with the right key, and one with the handle 0x31 for 0x41
    with a key that the peripheral does not have. *)
Definition C109_parameters (handle : N) : encryption_parameters :=
  {| enc_conn_handle := handle; enc_random_number := 0x0807060504030201; enc_encrypted_diversifier := 0x1234;
     enc_long_term_key := C108_key |}.
Definition C109_start (handle : N) : N * list N :=
  (0x01, [0x19; 0x20; 28; handle; 0; 1; 2; 3; 4; 5; 6; 7; 8; 0x34; 0x12] ++ C108_key).
Definition C109_device : list device_step := [Takes (C109_start 0x30); Takes (C109_start 0x31)].
Definition C109_operations : list (data_operation test_vendor) :=
  [ Order (CLeStartEncryption (C109_parameters 0x30)); Order (CLeStartEncryption (C109_parameters 0x31)) ].
Definition C109_state : queue :=
  {| q_received := []; q_consumed := 0; q_arrivals := []; q_written := []; q_ready := repeat Ready 2 |}.
Example C109_case :
  contract queue_controller queue_history
  /\ Forall (typed_data_operation F50 test_vendor) C109_operations /\ possible queue_history C109_state
  /\ Forall outgoing_packet (taken C109_device)
  /\ over_the_air 0x30 C109_device 0x40 C108_device /\ over_the_air 0x31 C109_device 0x41 C108_device
  /\ (let (t, log) := data_session F50 test_vendor queue_controller C109_operations C109_state in
      written queue_history t = flat_map wire_bytes (taken C109_device)
      /\ start_calls 0x30 log = [C109_parameters 0x30] /\ start_calls 0x31 log = [C109_parameters 0x31])
  /\ (exists reply, replies 0x40 C108_device = [reply] /\ same_key (C109_start 0x30) reply)
  /\ (exists reply, replies 0x41 C108_device = [reply] /\ ~ same_key (C109_start 0x31) reply).
Proof.
  split; [exact (buffering_contract _ _ queue_buffering)|].
  split; [repeat constructor; try exact I; try (cbn; lia)|].
  split; [vm_compute; repeat split; repeat constructor|].
  split.
  { unfold C109_device, C109_start, taken. cbn [flat_map app].
    repeat (apply Forall_cons;
      [right; match goal with |- context [(_, ?x :: ?y :: _ :: ?p) = _] => exists x, y, p; split; reflexivity end|]).
    constructor. }
  split; [exists []; vm_compute; reflexivity|]. split; [exists []; vm_compute; reflexivity|].
  split; [vm_compute; repeat split|].
  split; eexists; (split; [vm_compute; reflexivity|]).
  - split; reflexivity.
  - intros [H _]. discriminate H.
Qed.
