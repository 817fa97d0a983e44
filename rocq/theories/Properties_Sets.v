(** * Sets of flags: C93. *)
From Coq Require Import String.
From Verif Require Import Base Model_Types Model_Bitflags Model_FlagNames Model_SetOps Model_EventBase Model_Event
  Model_Host Spec_Wire Spec_Host Spec_Example Spec_FlagNames Spec_Sets Proofs_Sets.
Open Scope list_scope.
Open Scope N_scope.

(** ** C93: flag expressions denote the sets of flags they say

    The value contains a flag exactly if the flag is a member of the set. *)
Theorem C93_contains_flag F names d e v name c : In (names, d) flag_types ->
  value F names d e = Some v -> bf_constant F names d name = Some c ->
  exists b, exists_as F names d name b /\ bf_contains v c = member e name b.
Proof. exact (fun H => contains_named F names d (types_declared names d H) e v name c). Qed.
Print Assumptions C93_contains_flag.

(** It contains another value exactly if this denotes a subset. *)
Theorem C93_contains F names d e v e' v' : In (names, d) flag_types ->
  value F names d e = Some v -> value F names d e' = Some v' ->
  bf_contains v v' = true
  <-> (forall name b, exists_as F names d name b -> member e' name b = true -> member e name b = true).
Proof. exact (fun H => contains_set F names d (types_declared names d H) e v e' v'). Qed.
Print Assumptions C93_contains.

(** Equal values, common flags, no flags, all flags. *)
Theorem C93_eq F names d e v e' v' : In (names, d) flag_types ->
  value F names d e = Some v -> value F names d e' = Some v' ->
  bf_eq v v' = true <-> (forall name b, exists_as F names d name b -> member e name b = member e' name b).
Proof. exact (fun H => equal_set F names d (types_declared names d H) e v e' v'). Qed.
Print Assumptions C93_eq.
Theorem C93_intersects F names d e v e' v' : In (names, d) flag_types ->
  value F names d e = Some v -> value F names d e' = Some v' ->
  bf_intersects v v' = true
  <-> exists name b, exists_as F names d name b /\ member e name b = true /\ member e' name b = true.
Proof. exact (fun H => common_flag F names d (types_declared names d H) e v e' v'). Qed.
Print Assumptions C93_intersects.
Theorem C93_is_empty F names d e v : In (names, d) flag_types -> value F names d e = Some v ->
  bf_is_empty v = true <-> (forall name b, exists_as F names d name b -> member e name b = false).
Proof. exact (fun H => empty_set F names d (types_declared names d H) e v). Qed.
Print Assumptions C93_is_empty.
Theorem C93_is_all F names d e v : In (names, d) flag_types -> value F names d e = Some v ->
  bf_is_all F d v = true <-> (forall name b, exists_as F names d name b -> member e name b = true).
Proof. exact (fun H => full_set F names d (types_declared names d H) e v). Qed.
Print Assumptions C93_is_all.

(** No operation makes undeclared bits: the bits give back the value. *)
Theorem C93_declared_bits F names d e v : In (names, d) flag_types -> value F names d e = Some v ->
  bf_from_bits F d v = Some v /\ u64 v.
Proof. exact (fun H => value_legal F names d (types_declared names d H) e v). Qed.
Print Assumptions C93_declared_bits.

(** So the events that the controller sends are those in the set given to
    [set_event_mask] and [le_set_event_mask]. *)
Theorem C93_events F V pkt ev name e mask : event_new F V pkt = Ok ev -> event_flag ev = Some name ->
  value F EventFlags_names EventFlags e = Some mask ->
  exists b header params, exists_as F EventFlags_names EventFlags name b
    /\ sent F V uart_header (CSetEventMask mask) = [(header, params)]
    /\ event_enabled params pkt = member e name b.
Proof. exact (events_asked F V pkt ev name e mask). Qed.
Print Assumptions C93_events.
Theorem C93_le_events F V pkt ev name e mask : event_new F V pkt = Ok ev -> le_event_flag ev = Some name ->
  le_event_known F ev = true -> value F LeEventFlags_names LeEventFlags e = Some mask ->
  exists b header params, exists_as F LeEventFlags_names LeEventFlags name b
    /\ sent F V uart_header (CLeSetEventMask mask) = [(header, params)]
    /\ le_event_enabled params pkt = member e name b.
Proof. exact (le_events_asked F V pkt ev name e mask). Qed.
Print Assumptions C93_le_events.

(** All events but two, and one of these again. *)
Definition C93_set : flags :=
  WithFlag (Difference AllFlags (Union (Named "HARDWARE_ERROR") (Named "DISCONNECTION_COMPLETE")))
    (Named "HARDWARE_ERROR") true.
Example C93_case :
  In (EventFlags_names, EventFlags) flag_types
  /\ (exists v, value F41 EventFlags_names EventFlags C93_set = Some v
      /\ sent F41 test_vendor uart_header (CSetEventMask v) = [([1; 1; 0x0C; 8], le 8 v)]
      /\ bf_contains v 0x8000 = true /\ bf_contains v 0x10 = false /\ bf_is_all F41 EventFlags v = false)
  /\ member C93_set "HARDWARE_ERROR" 15 = true /\ member C93_set "DISCONNECTION_COMPLETE" 4 = false
  /\ member C93_set "ENCRYPTION_CHANGE" 7 = true
  /\ bf_constant F41 EventFlags_names EventFlags "HARDWARE_ERROR" = Some 0x8000
  /\ bf_constant F41 EventFlags_names EventFlags "DISCONNECTION_COMPLETE" = Some 0x10
  /\ value F42 LeFeatures_names LeFeatures (Union (Named "PING") (Named "PHY_2M")) = None
  /\ value F50 LeFeatures_names LeFeatures (Union (Named "PING") (Named "PHY_2M")) = Some 0x110.
Proof.
  split; [cbn; tauto|]. split; [eexists; split; [reflexivity|vm_compute; repeat split; reflexivity]|].
  repeat split; vm_compute; reflexivity.
Qed.
Example C93_le_case :
  let e := Difference AllFlags (Named "ADVERTISING_REPORT") in
  exists ev, event_new F42 test_vendor [0x3E; 13; 5; 1; 0; 1; 2; 3; 4; 5; 6; 7; 8; 9; 10] = Ok ev
  /\ le_event_flag ev = Some "LONG_TERM_KEY_REQUEST"%string /\ le_event_known F42 ev = true
  /\ member e "LONG_TERM_KEY_REQUEST" 4 = true /\ member e "ADVERTISING_REPORT" 1 = false
  /\ exists mask, value F42 LeEventFlags_names LeEventFlags e = Some mask
     /\ le_event_enabled (le 8 mask) [0x3E; 13; 5; 1; 0; 1; 2; 3; 4; 5; 6; 7; 8; 9; 10] = true
     /\ le_event_enabled (le 8 mask) [0x3E; 2; 2; 0] = false.
Proof.
  cbv zeta. eexists. split; [vm_compute; reflexivity|]. split; [reflexivity|]. split; [reflexivity|].
  split; [vm_compute; reflexivity|]. split; [vm_compute; reflexivity|]. eexists. split; [vm_compute; reflexivity|].
  split; vm_compute; reflexivity.
Qed.
