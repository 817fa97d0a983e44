(** * Several commands at a time over separate links (specification). *)
From Verif Require Import Base Model_Types Model_Intervals Model_EventBase Model_Command Model_Event Model_Host
  Spec_Wire Spec_Errors Spec_Host Spec_Link Spec_Split Spec_Conform Spec_Follow Spec_Credit Spec_Facts Spec_Data Spec_Window
  Spec_Turns Spec_Own.
Open Scope list_scope.
Open Scope N_scope.

(** ** The controller

    It takes commands on one link and sends events on the other, and no data on
    either.  No packet types are sent: they only tell the links apart here. *)
Definition apart (d : list device_step) : Prop :=
  Forall (fun w => fst w = 0x01) (taken d) /\ Forall (fun w => fst w = 0x04) (sent_by d).
Definition bare_bytes (w : N * list N) : list N := snd w.

(** ** The host, as in [patient] *)
Section Host.
Context {V : vendor} {E : Type}.
Definition links_out (log : list (operation V * split_report V E)) : list (N * list N) :=
  map (fun c => (0x01, link_bytes c)) (split_sent log).
Definition split_commands (log : list (operation V * split_report V E)) : N := N.of_nat (length (split_sent log)).
Definition split_answers (log : list (operation V * split_report V E)) : N :=
  N.of_nat (length (filter answers_command (split_events_read log))).
Definition split_number (log : list (operation V * split_report V E)) : N :=
  fold_left known_room (split_events_read log) 1.
Definition split_patient (log : list (operation V * split_report V E)) : Prop :=
  forall before c r after, log = before ++ (Send c, r) :: after ->
  split_commands before - split_answers before < split_number before.
End Host.
