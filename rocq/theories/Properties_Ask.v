(** * Asking first which commands there are (property C97). *)
From Verif Require Import Base Model_Types Model_EventBase Model_Command Model_Event Model_Host
  Spec_Wire Spec_Errors Spec_Flags Spec_Host Spec_Link Spec_Example Spec_Retry Spec_Dialogue Spec_Split Spec_Ask Proofs_Ask.
Open Scope list_scope.
Open Scope N_scope.

(** ** C97: a host that asks first sends what the controller has

    It sends exactly those of the commands it wants to send that the controller
    has, each once and in order, and gets their answers. *)
Theorem C97_sent F V respond wanted commands answers s ps :
  let sent := filter (has_command commands) wanted in
  Forall (fun c => arguments_typed F c /\ @rejection V N c = None) wanted ->
  possible queue_history s -> takes (S (length sent)) (q_ready s) ->
  (* events still to be read from before *)
  q_pending s ++ concat (q_arrivals s) = flat_map uart_frame ps -> Forall (unrelated F V) ps ->
  serves F V respond (q_written s) (CReadLocalSupportedCommands :: sent)
    (Completed (RetReadLocalSupportedCommands
       {| lsc_status := Success; lsc_commands := commands |}) :: answers) ->
  exists m, forall n, (m <= n)%nat ->
  exists s', ask_first_which F V (device respond) n wanted s = (s', Some (combine sent (map Some answers)))
    /\ q_written s' = q_written s ++ command_bytes (V := V) CReadLocalSupportedCommands ++ flat_map command_bytes sent.
Proof. exact (careful F V respond wanted commands answers s ps). Qed.
Print Assumptions C97_sent.

(** The same over separate links. *)
Theorem C97_sent_split F V respond wanted commands answers s ps :
  let sent := filter (has_command commands) wanted in
  Forall (fun c => arguments_typed F c /\ @rejection V N c = None) wanted ->
  possible queue_history s -> takes (S (length sent)) (q_ready s) ->
  q_pending s ++ concat (q_arrivals s) = concat ps -> Forall (unrelated F V) ps ->
  link_serves F V respond (q_written s) (CReadLocalSupportedCommands :: sent)
    (Completed (RetReadLocalSupportedCommands
       {| lsc_status := Success; lsc_commands := commands |}) :: answers) ->
  exists m, forall n, (m <= n)%nat ->
  exists s', link_ask_first_which F V (device respond) n wanted s = (s', Some (combine sent (map Some answers)))
    /\ q_written s' = q_written s ++ link_bytes (V := V) CReadLocalSupportedCommands ++ flat_map link_bytes sent.
Proof. exact (link_careful F V respond wanted commands answers s ps). Qed.
Print Assumptions C97_sent_split.

(** On any controller that keeps its contract: apart from the question, only
    commands in the list of the first answer that came are sent, and without such
    an answer none.  (0x1002 is the opcode of the question; the answer says that
    it succeeded.) *)
Theorem C97_only F V St E (C : controller St E) h n wanted s s' r : contract C h ->
  Forall (arguments_typed F) wanted -> possible h s ->
  ask_first_which F V C n wanted s = (s', r) ->
  match r with
  | None => written h s' = written h s
            \/ written h s' = written h s ++ command_bytes (V := V) CReadLocalSupportedCommands
  | Some l => exists before k commands later sent,
      let pkt := framed 0x0E ([k; 0x02; 0x10; 0x00] ++ commands) in
      length commands = 64%nat /\ Forall event_packet (before ++ [pkt]) /\ Forall (passed_over F V 0x1002) before
      /\ pending h s s' = flat_map uart_frame (before ++ [pkt]) ++ later
      /\ map fst l = filter (has_command commands) wanted /\ some_of sent (map fst l)
      /\ written h s' = written h s ++ command_bytes (V := V) CReadLocalSupportedCommands ++ flat_map command_bytes sent
  end.
Proof. exact (only_listed F V St E C h n wanted s s' r). Qed.
Print Assumptions C97_only.
Theorem C97_only_split F V St E (C : controller St E) h n wanted s s' r : contract C h ->
  Forall (arguments_typed F) wanted -> possible h s ->
  link_ask_first_which F V C n wanted s = (s', r) ->
  match r with
  | None => written h s' = written h s
            \/ written h s' = written h s ++ link_bytes (V := V) CReadLocalSupportedCommands
  | Some l => exists before k commands later sent,
      let pkt := framed 0x0E ([k; 0x02; 0x10; 0x00] ++ commands) in
      length commands = 64%nat /\ Forall event_packet (before ++ [pkt]) /\ Forall (passed_over F V 0x1002) before
      /\ pending h s s' = concat (before ++ [pkt]) ++ later
      /\ map fst l = filter (has_command commands) wanted /\ some_of sent (map fst l)
      /\ written h s' = written h s ++ link_bytes (V := V) CReadLocalSupportedCommands ++ flat_map link_bytes sent
  end.
Proof. exact (link_only_listed F V St E C h n wanted s s' r). Qed.
Print Assumptions C97_only_split.

(** The list the host has is the one the controller gave, for each command. *)
Theorem C97_list F V p pkt (c : command V) :
  answered F V (command_opcode (V := V) CReadLocalSupportedCommands) (Completed (RetReadLocalSupportedCommands p)) pkt ->
  is_listed F (lsc_commands p) c = has_command (skipn 6 pkt) c.
Proof. exact (list_given F V p pkt c). Qed.
Print Assumptions C97_list.

Example C97_case :
  let wanted := [CReset; CLeRand; CReadRssi 0x0201; CLeTestEnd] in
  let sent := [CReset; CReadRssi 0x0201] in
  let got :=
    [Completed (RetReset Success);
     Completed (RetReadRssi {| rssi_status := Success; rssi_conn_handle := 0x0201; rssi_rssi := (-16)%Z |})] in
  filter (has_command (V := test_vendor) example_list) wanted = sent
  /\ Forall (fun c => arguments_typed F41 c /\ @rejection test_vendor N c = None) wanted
  /\ possible queue_history example_device /\ takes 3 (q_ready example_device)
  /\ serves F41 test_vendor example_lister [] (CReadLocalSupportedCommands :: sent)
       (Completed (RetReadLocalSupportedCommands {| lsc_status := Success; lsc_commands := example_list |}) :: got)
  /\ snd (ask_first_which F41 test_vendor (device example_lister) 50 wanted example_device)
     = Some (combine sent (map Some got)).
Proof. exact careful_case. Qed.
Example C97_split_case :
  let wanted := [CReset; CLeRand; CReadRssi 0x0201; CLeTestEnd] in
  let sent := [CReset; CReadRssi 0x0201] in
  let got :=
    [Completed (RetReset Success);
     Completed (RetReadRssi {| rssi_status := Success; rssi_conn_handle := 0x0201; rssi_rssi := (-16)%Z |})] in
  link_serves F41 test_vendor example_link_lister [] (CReadLocalSupportedCommands :: sent)
       (Completed (RetReadLocalSupportedCommands {| lsc_status := Success; lsc_commands := example_list |}) :: got)
  /\ snd (link_ask_first_which F41 test_vendor (device example_link_lister) 50 wanted example_device)
     = Some (combine sent (map Some got)).
Proof. exact link_careful_case. Qed.
