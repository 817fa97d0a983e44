(** * A controller that refuses some of several commands (specification).

    As in Spec_Refuse.v, but with several commands under way, as in Spec_Own.v. *)
From Verif Require Import Base Model_Types Model_Intervals Model_EventBase Model_Command Model_Event Model_Host
  Spec_Wire Spec_Errors Spec_Host Spec_Link Spec_Split Spec_Data Spec_Window Spec_Turns Spec_Own Spec_Device Spec_Dialogue
  Spec_Refuse.
Open Scope list_scope.
Open Scope N_scope.

(** ** The controller

    The commands that it has taken: opcode and parameters. *)
Definition commands_taken (d : list device_step) : list (N * list N) :=
  map (fun w => (u16_le (snd w) 0, skipn 3 (snd w))) (filter is_command (taken d)).

(** The status in the k-th answer to an opcode is zero exactly if it has accepted the
    k-th command with that opcode.  It carries commands out in the order in which it
    takes them, and may answer them in another order. *)
Definition truthful (accepts : list (N * list N) -> N * list N -> bool) (d : list device_step) : Prop :=
  forall before op params after pkt, commands_taken d = before ++ (op, params) :: after ->
  nth_error (filter (reply_with op) (sent_by d)) (length (filter (fun c => fst c =? op) before)) = Some (0x04, pkt) ->
  (status_in pkt = 0 <-> accepts before (op, params) = true).

(** ** The host *)
Section Host.
Context {V : vendor}.
(** The commands for which the call succeeded. *)
Definition ordered {E} (log : list (data_operation V * @data_report V E)) : list (command V) :=
  flat_map (fun x => match x with (Order c, Ordered r) => if succeeded r then [c] else [] | _ => [] end) log.
Definition event_confirms (ev : event V) : bool :=
  match ev with
  | EvCommandComplete e => confirms (Completed (cc_return_params e))
  | EvCommandStatus e => confirms (V := V) (Accepted (cst_status e))
  | _ => false
  end.
(** It takes the k-th event that is an answer to some command for the answer to the k-th
    such command. *)
Fixpoint approved (events : list (event V)) (before cs : list (command V)) : list (command V) :=
  match cs with
  | [] => []
  | c :: cs =>
      let k := length (filter (fun b => command_opcode b =? command_opcode c) before) in
      (match nth_error (filter (answer_to (command_opcode c)) events) k with
       | Some ev => if event_confirms ev then [c] else []
       | None => []
       end) ++ approved events (before ++ [c]) cs
  end.
(** It has read as many answers as it has sent commands, for each opcode. *)
Definition all_heard (events : list (event V)) (cs : list (command V)) : Prop :=
  forall c, In c cs -> Nat.le (length (filter (fun b => command_opcode b =? command_opcode c) cs))
                              (length (filter (answer_to (command_opcode c)) events)).
End Host.
