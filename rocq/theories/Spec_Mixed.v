(** * A program that sends commands and data, each in its turn (specification). *)
From Verif Require Import Base Model_Types Model_Intervals Model_EventBase Model_Command Model_Event Model_Host
  Spec_Wire Spec_Errors Spec_Host Spec_Link Spec_Split Spec_Follow Spec_Facts Spec_Data Spec_Window Spec_Turns Spec_Live
  Spec_Several Spec_Deliver.
Open Scope list_scope.
Open Scope N_scope.

(** It has a list [cs] of commands and a list [ws] of data packets.  If there is a command
    left and it is the host's turn (as in C105), it may send the next one; if there is a
    packet left and it knows of a buffer (as in C104), it may send the next one.  If it may
    do both it chooses as it likes; if it may do neither, it reads. *)
Definition command_next {V E} (cs : list (command V)) (log : list (data_operation V * @data_report V E)) (c : command V) : Prop :=
  nth_error cs (length (ordered log)) = Some c /\ may_send log.
Definition data_next {V E} (ws : list (N * list N)) (log : list (data_operation V * @data_report V E)) (w : N * list N) : Prop :=
  nth_error ws (length (passed log)) = Some w /\ may_transmit log.
Definition sends_both {V E} (cs : list (command V)) (ws : list (N * list N))
    (calls : nat -> data_operation V) (results : nat -> @data_report V E) : Prop :=
  forall n, let log := until calls results n in
  match calls n with
  | Order c => command_next cs log c
  | Transmit w => data_next ws log w
  | Fetch => (forall c, ~ command_next cs log c) /\ (forall w, ~ data_next ws log w)
  end.
(** The transport does not refuse to write for ever. *)
Definition goes_out {V E} (r : @data_report V E) : bool :=
  match r with
  | Ordered r => succeeded r
  | Transmitted (Ok _) => true
  | Transmitted _ => false
  | Fetched _ => true
  end.
Definition calls_work {V E} (results : nat -> @data_report V E) : Prop := again_and_again (fun m => goes_out (results m) = true).
