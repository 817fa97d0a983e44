(** * The masks needed to follow connections (specification). *)
From Coq Require Import String.
From Verif Require Import Base Model_Types Model_Bitflags Model_FlagNames Model_EventBase Model_Command Model_Event
  Model_Host Spec_Wire Spec_Host Spec_FlagNames Spec_Device Spec_Air Spec_Enabled Spec_Follow.
Open Scope list_scope.
Open Scope N_scope.

(** A controller with the settings [d] tells about everything that happens to
    its connections. *)
Definition watches (F : features) (d : settings) : Prop :=
  forall ps cs, Forall (conforming_packet F) ps ->
    fold_left happened (filter (lets_through d) ps) cs = fold_left happened ps cs.

(** The flags, by name. *)
Definition connection_flags : list string :=
  ["CONNECTION_COMPLETE"; "DISCONNECTION_COMPLETE"; "ENCRYPTION_CHANGE"; "LE_META_EVENT"]%string.
Definition le_connection_flags : list string := ["CONNECTION_COMPLETE"; "CONNECTION_UPDATE_COMPLETE"]%string.
Definition wants_connections (F : features) {V} (cs : list (command V)) : Prop :=
  Forall (fun name => has_flag (event_constant F name) (wanted_mask cs) = true) connection_flags
  /\ Forall (fun name => has_flag (le_event_constant F name) (wanted_le_mask cs) = true) le_connection_flags.
