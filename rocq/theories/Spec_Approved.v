(** * Going by the answers (specification). *)
From Verif Require Import Base Model_Types Model_Intervals Model_EventBase Model_Command Model_Event Model_Host
  Spec_Wire Spec_Errors Spec_Host Spec_Link Spec_Split Spec_Conform Spec_Follow Spec_Credit Spec_Data Spec_Window Spec_Turns Spec_Own
  Spec_Apart Spec_Device Spec_Refuse Spec_Several.
Open Scope list_scope.
Open Scope N_scope.

(** A session as in C125, over a UART or over separate links, with a controller that had
    been reset, after which it has the settings [d], and the host finds the commands [cs]
    approved. *)
Inductive by_answers (F : features) (V : vendor) (d : settings) (cs : list (command V)) : Prop :=
| by_uart St E (C : controller St E) h accepts os s steps s' log :
    contract C h -> Forall (typed_data_operation F V) os -> possible h s -> orderly F steps ->
    Forall (fun w => reserved_address_commands (snd w) = false) (sent_by steps) ->
    truthful accepts steps ->
    data_session F V C os s = (s', log) ->
    (exists on_the_way, written h s' = written h s ++ flat_map wire_bytes (taken steps) ++ on_the_way) ->
    (exists on_the_way, flat_map wire_bytes (sent_by steps) = pending h s s' ++ on_the_way) ->
    all_heard (events_got log) (ordered log) ->
    d = decide accepts [] (commands_taken steps) after_reset ->
    cs = approved (events_got log) [] (ordered log) ->
    by_answers F V d cs
| by_links St E (C : controller St E) h accepts os s steps s' log :
    contract C h -> Forall (typed_operation F) os -> possible h s -> orderly F steps -> apart steps ->
    Forall (fun w => reserved_address_commands (snd w) = false) (sent_by steps) ->
    truthful accepts steps ->
    split_session F V C os s = (s', log) ->
    (exists on_the_way, written h s' = written h s ++ flat_map bare_bytes (taken steps) ++ on_the_way) ->
    (exists on_the_way, flat_map bare_bytes (sent_by steps) = pending h s s' ++ on_the_way) ->
    all_heard (split_events_read log) (split_sent log) ->
    d = decide accepts [] (commands_taken steps) after_reset ->
    cs = approved (split_events_read log) [] (split_sent log) ->
    by_answers F V d cs.
