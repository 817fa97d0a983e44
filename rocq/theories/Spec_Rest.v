(** * Hosts that have said what they want (specification). *)
From Verif Require Import Base Model_Types Model_Intervals Model_EventBase Model_Command Model_Event Model_Host
  Spec_Wire Spec_Errors Spec_Host Spec_Link Spec_Split Spec_Conform Spec_Follow Spec_Credit Spec_Data Spec_Window Spec_Turns Spec_Own
  Spec_Apart Spec_Live Spec_LiveOwn Spec_LiveApart Spec_Device Spec_Refuse Spec_Several.
Open Scope list_scope.
Open Scope N_scope.

(** A run without an end, as in C114 or C116, with a controller that had been reset and
    may refuse commands, but answers each at some time.  From the call [n] on the host
    sends no more commands, but goes on reading.  When call [m] is made, the controller
    has the settings [device m], and the host has found the commands [known m] approved. *)
Inductive comes_to_rest (F : features) (V : vendor) (device : nat -> settings) (known : nat -> list (command V)) : Prop :=
| rest_uart St E (C : controller St E) h calls states results d accepts n :
    buffering C h ->
    endless (data_perform F V C) calls states results -> (forall k, typed_data_operation F V (calls k)) -> possible h (states 0%nat) ->
    (forall c : command V, replies_to_all F (command_opcode c) h states d) ->
    again_and_again (fun k => calls k = Fetch) ->
    (forall m, truthful accepts (d m)) ->
    (forall k c, (n <= k)%nat -> calls k <> Order c) ->
    (forall m, device m = decide accepts [] (commands_taken (d m)) after_reset) ->
    (forall m, known m = approved (events_got (until calls results m)) [] (ordered (until calls results m))) ->
    comes_to_rest F V device known
| rest_links St E (C : controller St E) h calls states results d accepts n :
    prompt C h ->
    endless (split_perform F V C) calls states results -> (forall k, typed_operation F (calls k)) -> possible h (states 0%nat) ->
    (forall c : command V, links_reply F (command_opcode c) h states d) ->
    again_and_again (fun k => split_read_went (results k) = true) ->
    (forall m, truthful accepts (d m)) ->
    (forall k c, (n <= k)%nat -> calls k <> Send c) ->
    (forall m, device m = decide accepts [] (commands_taken (d m)) after_reset) ->
    (forall m, known m = approved (split_events_read (until calls results m)) [] (split_sent (until calls results m))) ->
    comes_to_rest F V device known.
