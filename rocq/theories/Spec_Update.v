(** * Programs built differently that follow one another (specification). *)
From Verif Require Import Base Model_Types Model_EventBase Model_Command Model_Event Model_Host
  Spec_Wire Spec_Errors Spec_Host Spec_Link Spec_Split Spec_Crash.
Open Scope list_scope.
Open Scope N_scope.

(** ** Updates

    A program was built with some version of the specification enabled, and with the
    extensions of some vendor; it has made some calls. *)
Record life (E : Type) := {
  built_for : features;
  built_with : vendor;
  calls_made : list (operation built_with * report built_with E)
}.
Arguments built_for {E} l.
Arguments built_with {E} l.
Arguments calls_made {E} l.
(** What became of it (as in C117). *)
Record life_end (E : Type) := { of_life : life E; its_fate : fate (built_with of_life) }.
Arguments of_life {E} l.
Arguments its_fate {E} l.
Definition end_told {E} (x : life_end E) : Prop := ended (built_for (of_life x)) (calls_made (of_life x), its_fate x).
Definition end_packets {E} (x : life_end E) : list (list N) := packets_taken (its_fate x).
Definition end_sent {E} (x : life_end E) : list (command (built_with (of_life x))) := all_sent (calls_made (of_life x), its_fate x).

(** Programs one after the other, each of them stopped at some moment and replaced by one
    that may be built differently.  More may arrive meanwhile. *)
Inductive updates {St E} (C : controller St E) (h : history St) : St -> list (life E) -> St -> Prop :=
| no_update s : updates C h s [] s
| one_update s F V log x y ls s' :
    stopped F V C s x log -> nothing h x y -> updates C h y ls s' ->
    updates C h s ({| built_for := F; built_with := V; calls_made := log |} :: ls) s'.

(** The same over a command link and an event link. *)
Record split_life (E : Type) := {
  split_built_for : features;
  split_built_with : vendor;
  split_calls_made : list (operation split_built_with * split_report split_built_with E)
}.
Arguments split_built_for {E} s.
Arguments split_built_with {E} s.
Arguments split_calls_made {E} s.
Record split_life_end (E : Type) := { of_split_life : split_life E; its_split_fate : fate (split_built_with of_split_life) }.
Arguments of_split_life {E} s.
Arguments its_split_fate {E} s.
Definition split_end_told {E} (x : split_life_end E) : Prop :=
  split_ended (split_built_for (of_split_life x)) (split_calls_made (of_split_life x), its_split_fate x).
Definition split_end_packets {E} (x : split_life_end E) : list (list N) := packets_taken (its_split_fate x).
Definition split_end_sent {E} (x : split_life_end E) : list (command (split_built_with (of_split_life x))) :=
  split_all_sent (split_calls_made (of_split_life x), its_split_fate x).
Inductive split_updates {St E} (C : controller St E) (h : history St) : St -> list (split_life E) -> St -> Prop :=
| no_split_update s : split_updates C h s [] s
| one_split_update s F V log x y ls s' :
    split_stopped F V C s x log -> nothing h x y -> split_updates C h y ls s' ->
    split_updates C h s ({| split_built_for := F; split_built_with := V; split_calls_made := log |} :: ls) s'.
