(** * Runs without an end over separate links (specification). *)
From Verif Require Import Base Model_Types Model_EventBase Model_Event Model_Host
  Spec_Wire Spec_Errors Spec_Host Spec_Link Spec_Split Spec_Credit Spec_Data Spec_Window Spec_Turns Spec_Own Spec_Apart Spec_Live.
Open Scope list_scope.
Open Scope N_scope.

(** ** A controller that goes on

    As [connected], but commands come on one link and events go out on the other,
    without packet types. *)
Record links_connected {St} (h : history St) (states : nat -> St) (d : nat -> list device_step) : Prop := {
  links_apart : forall n, apart (d n);
  links_grow : grows d;
  commands_under_way : forall n, exists rest,
    written h (states n) = written h (states O) ++ flat_map bare_bytes (taken (d n)) ++ rest;
  events_under_way : forall n, exists rest,
    flat_map bare_bytes (sent_by (d n)) = pending h (states O) (states n) ++ rest;
  commands_arrive : forall n, exists m more, (n <= m)%nat
    /\ written h (states O) ++ flat_map bare_bytes (taken (d m)) = written h (states n) ++ more;
  events_arrive : forall n, exists m more, (n <= m)%nat
    /\ pending h (states O) (states m) = flat_map bare_bytes (sent_by (d n)) ++ more
}.
(** As [goes_on]. *)
Record links_go_on (F : features) {St} (h : history St) (states : nat -> St) (d : nat -> list device_step) : Prop := {
  go_on_connected : links_connected h states d;
  go_on_fair : forall n, fair F (d n);
  go_on_usual : forall n, Forall (fun w => reserved_address_commands (snd w) = false) (sent_by (d n));
  go_on_answers : forall n, exists m, (n <= m)%nat
    /\ how_many is_command (taken (d n)) <= how_many is_reply (sent_by (d m));
  go_on_room : forall n, exists m, (n <= m)%nat
    /\ (how_many is_reply (sent_by (d m)) < how_many is_command (taken (d m)) \/ 0 < allowed (d m))
}.
(** As [replies_to_all]. *)
Record links_reply (F : features) (op : N) {St} (h : history St) (states : nat -> St) (d : nat -> list device_step) : Prop := {
  reply_connected : links_connected h states d;
  reply_orderly : forall n, orderly F (d n);
  reply_usual : forall n, Forall (fun w => reserved_address_commands (snd w) = false) (sent_by (d n));
  reply_comes : forall n, exists m, (n <= m)%nat
    /\ how_many (command_with op) (taken (d n)) <= how_many (reply_with op) (sent_by (d m))
}.
(** It is the host's turn (as in C107). *)
Definition split_may_send {V E} (log : list (operation V * split_report V E)) : Prop :=
  split_commands log - split_answers log < split_number log.

(** ** Examples: Reset and its answer, for ever *)
Definition link_resets {V} (n : nat) : operation V := if Nat.even n then Send CReset else Receive.
Definition link_reset_controller : controller queue N := answering_controller (fun _ => reset_answer).
