(** * Going by the answers (property C126).

    [by_answers F V d cs]: after a session as in C125, with a controller that had been reset
    and may refuse commands, it has the settings [d], and the host finds the commands [cs]
    approved. *)
From Verif Require Import Base Model_Types Model_Intervals Model_EventBase Model_Command Model_Event Model_Host
  Spec_Wire Spec_Errors Spec_Host Spec_Link Spec_Example Spec_Split Spec_FlagNames Spec_Conform Spec_Follow Spec_Credit Spec_Facts
  Spec_Data Spec_Window Spec_Turns Spec_Own Spec_Apart Spec_Device Spec_Air Spec_Enabled Spec_Watch Spec_Scan Spec_Meet Spec_Refuse
  Spec_Several Spec_Approved
  Proofs_Base Proofs_Link Proofs_Queue Proofs_Conform Proofs_Follow Proofs_Facts Proofs_Data Proofs_Turns Proofs_Own Proofs_Approved.
Open Scope list_scope.
Open Scope N_scope.

(** ** C126: a refused command is as if it had never been sent

    There is a session with a controller that takes all, in which just the approved
    commands are sent, after which it has the same settings.  So all that C78 to C82, C86,
    C94, C121 and C123 say, about settings and calls, is true of a controller that
    refuses commands and the calls that were approved. *)
Theorem C126_as_if F V d cs : by_answers F V d cs ->
  exists s, Forall (typed_operation F) (map (@Send V) cs) /\ possible queue_history s
    /\ told F V queue_controller queue_history (map (@Send V) cs) s d cs.
Proof. exact (as_if_never_sent F V d cs). Qed.
Print Assumptions C126_as_if.

(** In particular: who is on the white list (C77), *)
Theorem C126_white_list F V d cs x : by_answers F V d cs -> In x (white_list d) <-> stays x [] cs.
Proof. exact (fun H => approved_white_list F V d cs H x). Qed.
Print Assumptions C126_white_list.
(** to whom the controller tries to connect (C79), *)
Theorem C126_attempts F V d cs x : by_answers F V d cs -> attempts d x <-> wants_connection cs x.
Proof. exact (fun H => approved_attempts F V d cs H x). Qed.
Print Assumptions C126_attempts.
(** whom it lets connect (C80), *)
Theorem C126_admits F V d cs x : by_answers F V d cs -> admits d x <-> allows_connection cs x.
Proof. exact (fun H => approved_admits F V d cs H x). Qed.
Print Assumptions C126_admits.
(** which events it sends (C82), *)
Theorem C126_events F V d cs pkt ev : by_answers F V d cs -> event_new F V pkt = Ok ev -> le_event_known F ev = true ->
  lets_through d pkt = wants_event F cs ev.
Proof. exact (fun H => approved_events F V d cs H pkt ev). Qed.
Print Assumptions C126_events.
(** whether it tells all about its connections (C86), *)
Theorem C126_watched F V d cs : by_answers F V d cs -> watches F d <-> wants_connections F cs.
Proof. exact (fun H => approved_watched F V d cs H). Qed.
Print Assumptions C126_watched.
(** whom it hears (C121), *)
Theorem C126_hears F V d cs F' V' a cs' public public' : by_answers F V d cs -> by_answers F' V' a cs' ->
  hears public d public' a <-> is_to_hear public cs public' cs'.
Proof. exact (approved_hears F V d cs F' V' a cs' public public'). Qed.
Print Assumptions C126_hears.
(** and with whom it connects (C123). *)
Theorem C126_connect F V d cs F' V' a cs' public public' : by_answers F V d cs -> by_answers F' V' a cs' ->
  connect public d public' a <-> is_to_connect public cs public' cs'.
Proof. exact (approved_connect F V d cs F' V' a cs' public public'). Qed.
Print Assumptions C126_connect.

(** A scanner, over a UART, and an advertiser, over separate links.  After Reset each is
    told twice to begin, at once; it refuses at first. *)
Definition C126_accepts (before : list (N * list N)) (_ : N * list N) : bool := negb (length before =? 1)%nat.
Definition C126_replies (low : N) : list (list N) :=
  [ [0x0E; 4; 3; 0x03; 0x0C; 0]; [0x0E; 4; 2; low; 0x20; 0x0C]; [0x0E; 4; 3; low; 0x20; 0] ].
Definition C126_device (low : N) (params : list N) : list device_step :=
  let reply k := Sends (0x04, nth k (C126_replies low) []) in
  [ Takes (0x01, [0x03; 0x0C; 0]); reply 0%nat; Takes (0x01, [low; 0x20; N.of_nat (length params)] ++ params);
    Takes (0x01, [low; 0x20; N.of_nat (length params)] ++ params); reply 1%nat; reply 2%nat ].
Definition C126_devices : list (N * list N) := [(0x0C, [1; 0]); (0x0A, [1])].
Lemma C126_conforming low params : In (low, params) C126_devices -> Forall (conforming_packet F41) (C126_replies low).
Proof.
  intros [E|[E|[]]]; injection E as <- <-; unfold C126_replies.
  - apply Forall_cons; [apply (return_checked F41 3 (hci_opcode 0x03 0x003) [0]); vm_compute; reflexivity|].
    apply Forall_cons; [apply (return_checked F41 2 (hci_opcode 0x08 0x00C) [0x0C]); vm_compute; reflexivity|].
    apply Forall_cons; [apply (return_checked F41 3 (hci_opcode 0x08 0x00C) [0]); vm_compute; reflexivity|constructor].
  - apply Forall_cons; [apply (return_checked F41 3 (hci_opcode 0x03 0x003) [0]); vm_compute; reflexivity|].
    apply Forall_cons; [apply (return_checked F41 2 (hci_opcode 0x08 0x00A) [0x0C]); vm_compute; reflexivity|].
    apply Forall_cons; [apply (return_checked F41 3 (hci_opcode 0x08 0x00A) [0]); vm_compute; reflexivity|constructor].
Qed.
Lemma C126_orderly low params : In (low, params) C126_devices -> orderly F41 (C126_device low params).
Proof.
  intros I. pose proof (C126_conforming low params I) as P. split.
  - clear P. destruct I as [E|[E|[]]]; injection E as <- <-; unfold C126_device, taken; cbn [flat_map app].
    all: repeat (apply Forall_cons;
      [right; match goal with |- context [(_, ?x :: ?y :: _ :: ?p) = _] => exists x, y, p; split; reflexivity end|]).
    all: constructor.
  - intros before w after Hd. unfold C126_replies in P.
    inversion P as [|? ? P0 P']; subst. inversion P' as [|? ? P1 P'']; subst. inversion P'' as [|? ? P2 _]; subst. clear P P' P''.
    assert (Q : forall pkt, conforming_packet F41 pkt -> incoming_packet (0x04, pkt)).
    { intros pkt H. left. split; [reflexivity|]. exact (conforming_event_packet F41 pkt H). }
    unfold C126_device in Hd. cbn [app] in Hd. places.
    all: subst w; split; [now apply Q|]; split; [intros _; assumption|].
    all: intros op Z H; apply andb_prop in H; destruct H as [_ H]; apply orb_prop in H; destruct H as [H|H];
      apply andb_prop in H; destruct H as [H1 H2]; [|discriminate H1].
    all: apply N.eqb_eq in H2; subst op; destruct I as [E|[E|[]]]; injection E as <- <-; vm_compute; reflexivity.
Qed.
Lemma C126_truthful low params : In (low, params) C126_devices -> truthful C126_accepts (C126_device low params).
Proof.
  intros [E|[E|[]]]; injection E as <- <-; intros before op params after pkt Hc H.
  all: match type of Hc with commands_taken ?d = _ =>
      let v := eval vm_compute in (commands_taken d) in
      assert (K : commands_taken d = v) by (vm_compute; reflexivity); rewrite K in Hc; clear K end.
  all: do 3 (destruct before as [|? before];
      [injection Hc as <- <- _; vm_compute in H; injection H as <-; vm_compute; split; congruence|injection Hc as <- Hc]).
  all: now destruct before.
Qed.
Definition C126_scanner_operations : list (data_operation test_vendor) :=
  [ Order CReset; Fetch; Order (CLeSetScanEnable true false); Order (CLeSetScanEnable true false); Fetch; Fetch ].
Definition C126_scanner_state : queue :=
  {| q_received := []; q_consumed := 0;
     q_arrivals := let reply k := uart_frame (nth k (C126_replies 0x0C) []) in
       [[]; reply 0%nat; []; []; []; []; reply 1%nat ++ reply 2%nat];
     q_written := []; q_ready := repeat Ready 4 |}.
Definition C126_advertiser_operations : list (operation test_vendor) :=
  [ Send CReset; Receive; Send (CLeSetAdvertiseEnable true); Send (CLeSetAdvertiseEnable true); Receive; Receive ].
Definition C126_advertiser_state : queue :=
  {| q_received := []; q_consumed := 0;
     q_arrivals := let reply k := nth k (C126_replies 0x0A) [] in [[]; reply 0%nat; []; []; []; reply 1%nat ++ reply 2%nat];
     q_written := []; q_ready := repeat Ready 4 |}.
Definition C126_scanner : settings := decide C126_accepts [] (commands_taken (C126_device 0x0C [1; 0])) after_reset.
Definition C126_advertiser : settings := decide C126_accepts [] (commands_taken (C126_device 0x0A [1])) after_reset.
Example C126_case :
  by_answers F41 test_vendor C126_scanner [CReset; CLeSetScanEnable true false]
  /\ by_answers F41 test_vendor C126_advertiser [CReset; CLeSetAdvertiseEnable true]
  /\ is_scanning C126_scanner = true /\ is_advertising C126_advertiser = true.
Proof.
  split; [|split; [|split; vm_compute; reflexivity]].
  - assert (I : In (0x0C, [1; 0]) C126_devices) by (now left).
    set (run := data_session F41 test_vendor queue_controller C126_scanner_operations C126_scanner_state).
    apply (by_uart F41 test_vendor _ _ queue N queue_controller queue_history C126_accepts C126_scanner_operations C126_scanner_state
             (C126_device 0x0C [1; 0]) (fst run) (snd run)).
    + exact (buffering_contract _ _ queue_buffering).
    + repeat (apply Forall_cons; [exact I || (vm_compute; repeat split; reflexivity)|]). apply Forall_nil.
    + vm_compute; repeat split; repeat constructor.
    + exact (C126_orderly _ _ I).
    + repeat constructor.
    + exact (C126_truthful _ _ I).
    + apply surjective_pairing.
    + exists []. vm_compute. reflexivity.
    + exists []. vm_compute. reflexivity.
    + intros c H. vm_compute in H. repeat (destruct H as [<-|H]; [vm_compute; lia|]). contradiction.
    + reflexivity.
    + vm_compute. reflexivity.
  - assert (I : In (0x0A, [1]) C126_devices) by (right; now left).
    set (run := split_session F41 test_vendor queue_controller C126_advertiser_operations C126_advertiser_state).
    apply (by_links F41 test_vendor _ _ queue N queue_controller queue_history C126_accepts C126_advertiser_operations
             C126_advertiser_state (C126_device 0x0A [1]) (fst run) (snd run)).
    + exact (buffering_contract _ _ queue_buffering).
    + repeat (apply Forall_cons; [exact I || (vm_compute; repeat split; reflexivity)|]). apply Forall_nil.
    + vm_compute; repeat split; repeat constructor.
    + exact (C126_orderly _ _ I).
    + split; repeat constructor.
    + repeat constructor.
    + exact (C126_truthful _ _ I).
    + apply surjective_pairing.
    + exists []. vm_compute. reflexivity.
    + exists []. vm_compute. reflexivity.
    + intros c H. vm_compute in H. repeat (destruct H as [<-|H]; [vm_compute; lia|]). contradiction.
    + reflexivity.
    + vm_compute. reflexivity.
Qed.
(** So the scanner hears the advertiser, whatever their addresses. *)
Example C126_case_hears public public' :
  is_to_hear (V := test_vendor) (V' := test_vendor) public [CReset; CLeSetScanEnable true false]
    public' [CReset; CLeSetAdvertiseEnable true].
Proof.
  destruct C126_case as (H & H' & _). apply (C126_hears F41 test_vendor _ _ F41 test_vendor _ _ public public' H H').
  repeat split; vm_compute; auto. discriminate.
Qed.
