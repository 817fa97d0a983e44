(** * Comparison with [==] (specification). *)
From Verif Require Import Base Model_Types Model_Intervals Model_EventBase Model_Event Model_Host
  Spec_Wire Spec_Host.
Open Scope list_scope.
Open Scope N_scope.

(** [==] of a type whose values are known by what [shows] gives for them: a code on
    the wire, or a text. *)
Definition compares_by {A B : Type} (equal : A -> A -> bool) (shows : A -> B) : Prop :=
  forall a b, equal a b = true <-> shows a = shows b.
(** [==] that is true of nothing but the same.  It is assumed of vendor types and of
    the errors of a transport. *)
Definition proper {A : Type} (equal : A -> A -> bool) : Prop := compares_by equal (fun a => a).

(** What the fields of [ScanParameters] say. *)
Definition scan_parameters_say (p : scan_parameters) : N * (N * N) * N * N :=
  (scan_type_code (sp_scan_type p), (sw_interval (sp_scan_window p), sw_window (sp_scan_window p)),
   own_address_code (sp_own_address_type p), scan_filter_code (sp_filter_policy p)).
