(** * A host that reads on learns what its commands have done (example).

    The host sends one Reset and then only reads. *)
From Verif Require Import Base Model_Types Model_Command Model_Host
  Spec_Host Spec_Link Spec_Split Spec_Data Spec_Window Spec_Turns Spec_Live.
Open Scope list_scope.
Open Scope N_scope.

Definition one_call {V} (n : nat) : data_operation V := match n with O => Order CReset | S _ => Fetch end.
Definition one_send {V} (n : nat) : operation V := match n with O => Send CReset | S _ => Receive end.
Definition one_device (n : nat) : list device_step :=
  match n with O => [] | S _ => [Takes reset_packet; Sends (0x04, reset_answer)] end.
