(** * What becomes of a list of commands (specification). *)
From Verif Require Import Base Model_Types Model_Intervals Model_EventBase Model_Command Model_Event Model_Host
  Spec_Wire Spec_Errors Spec_Host Spec_Link Spec_Split Spec_Conform Spec_Follow Spec_Credit Spec_Data Spec_Window Spec_Turns Spec_Own
  Spec_Apart Spec_Live Spec_LiveOwn Spec_LiveApart Spec_Device Spec_Refuse Spec_Several Spec_Done.
Open Scope list_scope.
Open Scope N_scope.

(** The commands in a list that a controller accepts which takes just these, in order. *)
Fixpoint granted {V} (accepts : list (N * list N) -> N * list N -> bool) (before : list (N * list N)) (cs : list (command V))
    : list (command V) :=
  match cs with
  | [] => []
  | c :: cs =>
      let packet := (command_opcode c, command_params c) in
      (if accepts before packet then [c] else []) ++ granted accepts (before ++ [packet]) cs
  end.

(** A run of the program of C129 with the list [cs], with a controller that had been reset
    and accepts commands as [accepts] says.  When call [m] is made, the controller has the
    settings [device m], and the host has found the commands [known m] approved. *)
Inductive runs_program (F : features) (V : vendor) (cs : list (command V)) (accepts : list (N * list N) -> N * list N -> bool)
    (device : nat -> settings) (known : nat -> list (command V)) : Prop :=
| program_uart St E (C : controller St E) h calls states results d :
    buffering C h ->
    endless (data_perform F V C) calls states results -> possible h (states 0%nat) ->
    Forall (typed_data_operation F V) (map Order cs) ->
    (forall n, calls n = next_call cs (until calls results n)) -> writes_go calls results ->
    goes_on F h states d -> (forall c : command V, replies_to_all F (command_opcode c) h states d) ->
    (forall m, truthful accepts (d m)) ->
    (forall m, device m = decide accepts [] (commands_taken (d m)) after_reset) ->
    (forall m, known m = approved (events_got (until calls results m)) [] (ordered (until calls results m))) ->
    runs_program F V cs accepts device known
| program_links St E (C : controller St E) h calls states results d :
    prompt C h ->
    endless (split_perform F V C) calls states results -> possible h (states 0%nat) ->
    Forall (typed_operation F) (map Send cs) ->
    (forall n, calls n = next_operation cs (until calls results n)) -> links_work results ->
    links_go_on F h states d -> (forall c : command V, links_reply F (command_opcode c) h states d) ->
    (forall m, truthful accepts (d m)) ->
    (forall m, device m = decide accepts [] (commands_taken (d m)) after_reset) ->
    (forall m, known m = approved (split_events_read (until calls results m)) [] (split_sent (until calls results m))) ->
    runs_program F V cs accepts device known.
