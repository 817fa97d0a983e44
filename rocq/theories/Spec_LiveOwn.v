(** * Every command gets its answer (specification). *)
From Verif Require Import Base Model_Types Model_EventBase Model_Event Model_Host
  Spec_Wire Spec_Errors Spec_Host Spec_Link Spec_Credit Spec_Data Spec_Window Spec_Turns Spec_Own Spec_Live.
Open Scope list_scope.
Open Scope N_scope.

(** A controller that answers in order for each opcode (as in C106), sends no reply of
    the kind that is refused (C85), and at some time has answered all the commands
    with the opcode [op] that it has taken. *)
Record replies_to_all (F : features) (op : N) {St} (h : history St) (states : nat -> St) (d : nat -> list device_step) : Prop := {
  all_connected : connected h states d;
  device_orderly : forall n, orderly F (d n);
  all_usual : forall n, Forall (fun w => reserved_address_commands (snd w) = false) (sent_by (d n));
  replies_come : forall n, exists m, (n <= m)%nat
    /\ how_many (command_with op) (taken (d n)) <= how_many (reply_with op) (sent_by (d m))
}.
