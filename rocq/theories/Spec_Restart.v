(** * Programs that are started after others were stopped (specification). *)
From Verif Require Import Base Model_Types Model_EventBase Model_Command Model_Event Model_Host
  Spec_Wire Spec_Errors Spec_Host Spec_Link Spec_Split Spec_Data Spec_Window Spec_Turns Spec_Own Spec_Apart Spec_Crash.
Open Scope list_scope.
Open Scope N_scope.

(** Between [s] and [s'] the device did [d].  What it took has been written, and what has
    arrived it sent; more may be on the way in both directions. *)
Definition reached {St} (h : history St) (s s' : St) (d : list device_step) : Prop :=
  (exists on_the_way, written h s' = written h s ++ flat_map wire_bytes (taken d) ++ on_the_way)
  /\ (exists on_the_way, flat_map wire_bytes (sent_by d) = pending h s s' ++ on_the_way).

(** Commands and events as packets. *)
Definition command_wire {V} (c : command V) : N * list N := (0x01, link_bytes c).
Definition event_wire (p : list N) : N * list N := (0x04, p).

(** The commands with an opcode among [cs] that are still to be answered when the packets
    [ps] have been taken. *)
Definition unanswered {V} (op : N) (cs : list (command V)) (ps : list (list N)) : list (N * list N) :=
  skipn (length (filter (reply_with op) (map event_wire ps))) (filter (command_with op) (map command_wire cs)).

(** The same for a command link and an event link. *)
Definition links_reached {St} (h : history St) (s s' : St) (d : list device_step) : Prop :=
  (exists on_the_way, written h s' = written h s ++ flat_map bare_bytes (taken d) ++ on_the_way)
  /\ (exists on_the_way, flat_map bare_bytes (sent_by d) = pending h s s' ++ on_the_way).
