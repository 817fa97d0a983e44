(** * What is asked of a controller (properties C88, C89). *)
From Verif Require Import Base Model_Types Model_EventBase Model_Command Model_Event Model_Host
  Spec_Wire Spec_Errors Spec_Host Spec_Link Spec_Example Spec_Split Spec_Retry Spec_Demand
  Proofs_Base Proofs_Demand.
Open Scope list_scope.
Open Scope N_scope.

(** ** C88: little is asked of a controller

    On a UART: only [peek(0)] and [peek(2)], reads of 3 to 258 bytes into a buffer
    of zeros, and headers of 4 bytes with at most 32 bytes of payload.  A controller
    that panics at everything else works just as well. *)
Theorem C88_uart F V St E (C : controller St E) os s : shows_bytes C -> Forall (typed_operation F) os ->
  session F V (modest [0; 2]%nat 3 258 4 32 C) os s = session F V C os s.
Proof. exact (fun H => session_modest F V C H os s). Qed.
Print Assumptions C88_uart.

(** Over separate links: only [peek(1)], reads of 2 to 257 bytes, headers of 3. *)
Theorem C88_split F V St E (C : controller St E) os s : shows_bytes C -> Forall (typed_operation F) os ->
  split_session F V (modest [1]%nat 2 257 3 32 C) os s = split_session F V C os s.
Proof. exact (fun H => split_session_modest F V C H os s). Qed.
Print Assumptions C88_split.

(** Each call of the crate makes only a few calls of the controller, whatever these
    return: up to one for a command and three (two) for a read. *)
Theorem C88_calls_uart F V St E (C : controller St E) os s : Forall (typed_operation F) os ->
  let (s', log) := session F V C os s in
  exists n, session F V (counting C) os (s, 0%nat) = ((s', n), log)
    /\ (n <= sends_count os + 3 * receives_count os)%nat.
Proof. exact (counted_uart F V C os s). Qed.
Print Assumptions C88_calls_uart.
Theorem C88_calls_split F V St E (C : controller St E) os s : Forall (typed_operation F) os ->
  let (s', log) := split_session F V C os s in
  exists n, split_session F V (counting C) os (s, 0%nat) = ((s', n), log)
    /\ (n <= sends_count os + 2 * receives_count os)%nat.
Proof. exact (counted_split F V C os s). Qed.
Print Assumptions C88_calls_split.

(** The longest event and the longest command need all of this. *)
Example C88_case :
  let c : command test_vendor := CLeEncrypt {| aes_key := repeat 1 16; aes_plaintext_data := repeat 2 16 |} in
  let os := [Receive; Send c] in
  let s := longest_queue (uart_frame longest_event) in
  shows_bytes byte_queue /\ Forall (typed_operation F41) os
  /\ map snd (snd (session F41 test_vendor byte_queue os s)) = [Received (uart_result F41 test_vendor longest_event); Sent (Plain (Ok tt))]
  /\ map snd (snd (session F41 test_vendor (modest [0; 2]%nat 3 257 4 31 byte_queue) os s)) = [Received Panic; Sent (Plain Panic)]
  /\ snd (fst (session F41 test_vendor (counting byte_queue) os (s, 0%nat))) = 4%nat.
Proof.
  cbv zeta. split.
  { intros s n s' b. cbn. destruct (nth_error _ n); [|discriminate]. intros X. injection X as _ <-.
    apply N.mod_lt. discriminate. }
  split; [repeat constructor|]. vm_compute. auto.
Qed.
Example C88_split_case :
  let s := longest_queue longest_event in
  map snd (snd (split_session F41 test_vendor byte_queue [Receive] s)) = [SplitReceived (link_result F41 test_vendor longest_event)]
  /\ map snd (snd (split_session F41 test_vendor (modest [1]%nat 2 256 3 32 byte_queue) [Receive] s)) = [SplitReceived Panic]
  /\ snd (fst (split_session F41 test_vendor (counting byte_queue) [Receive] (s, 0%nat))) = 2%nat.
Proof. vm_compute. auto. Qed.

(** ** C89: how much memory a controller needs

    A controller that holds back what it has no room for delivers every packet if
    it has room for 258 bytes (257 over a separate link), as long as something
    comes now and then. *)
Theorem C89_uart F V capacity g patience ps supply : (258 <= capacity)%nat -> brings g supply ->
  (259 * g <= patience)%nat -> Forall event_packet ps ->
  snd (repeated (waiting blocked (uart_read F V (tank_controller capacity)) patience) (length ps)
         (fresh_tank (flat_map uart_frame ps) supply))
  = map Some (map (uart_result F V) ps).
Proof. exact (enough_uart F V capacity g patience ps supply). Qed.
Print Assumptions C89_uart.
Theorem C89_split F V capacity g patience ps supply : (257 <= capacity)%nat -> brings g supply ->
  (258 * g <= patience)%nat -> Forall event_packet ps ->
  snd (repeated (waiting blocked (link_read F V (tank_controller capacity)) patience) (length ps)
         (fresh_tank (concat ps) supply))
  = map Some (map (link_result F V) ps).
Proof. exact (enough_link F V capacity g patience ps supply). Qed.
Print Assumptions C89_split.

(** With less room than for a packet and its type, reading blocks for ever. *)
Theorem C89_uart_less F V capacity patience p ps supply : Forall event_packet (p :: ps) ->
  (capacity < 1 + length p)%nat ->
  snd (waiting blocked (uart_read F V (tank_controller capacity)) patience
         (fresh_tank (flat_map uart_frame (p :: ps)) supply)) = None.
Proof. exact (stuck_uart F V capacity patience p ps supply). Qed.
Print Assumptions C89_uart_less.
Theorem C89_split_less F V capacity patience p ps supply : Forall event_packet (p :: ps) ->
  (capacity < length p)%nat ->
  snd (waiting blocked (link_read F V (tank_controller capacity)) patience
         (fresh_tank (concat (p :: ps)) supply)) = None.
Proof. exact (stuck_link F V capacity patience p ps supply). Qed.
Print Assumptions C89_split_less.

Example C89_case :
  let supply := fun i => if Nat.even i then 7%nat else 0%nat in
  brings 2 supply /\ Forall event_packet [longest_event; [0x10; 1; 0x42]]
  /\ (1 + length longest_event = 258)%nat
  /\ snd (repeated (waiting blocked (uart_read F41 test_vendor (tank_controller 258)) 518) 2
           (fresh_tank (flat_map uart_frame [longest_event; [0x10; 1; 0x42]]) supply))
     = [Some (Err (Other (UBLE (EBadLength 255 1)))); Some (Ok (PEvent (EvHardwareError {| hwe_code := 0x42 |})))]
  /\ snd (waiting blocked (uart_read F41 test_vendor (tank_controller 257)) 518
           (fresh_tank (flat_map uart_frame [longest_event; [0x10; 1; 0x42]]) supply)) = None.
Proof.
  cbv zeta. split.
  { intros i. destruct (Nat.even i) eqn:E.
    - exists 0%nat. rewrite Nat.add_0_r, E. lia.
    - exists 1%nat. rewrite Nat.add_1_r, Nat.even_succ, <- Nat.negb_even, E. cbn. lia. }
  split.
  { constructor; [|constructor; [|constructor]].
    - exists 0x10, (repeat 0x42 255). repeat split; [|cbn; lia]. apply Forall_forall. intros x Hx.
      apply repeat_spec in Hx. now subst.
    - exists 0x10, [0x42]. repeat split; [repeat constructor|cbn; lia]. }
  vm_compute. auto.
Qed.
Example C89_split_case :
  let supply := fun i => if Nat.even i then 7%nat else 0%nat in
  (length longest_event = 257)%nat
  /\ snd (repeated (waiting blocked (link_read F41 test_vendor (tank_controller 257)) 516) 2
           (fresh_tank (concat [longest_event; [0x10; 1; 0x42]]) supply))
     = [Some (Err (Other (LBLE (EBadLength 255 1)))); Some (Ok (EvHardwareError {| hwe_code := 0x42 |}))]
  /\ snd (waiting blocked (link_read F41 test_vendor (tank_controller 256)) 516
           (fresh_tank (concat [longest_event; [0x10; 1; 0x42]]) supply)) = None.
Proof. vm_compute. auto. Qed.
