(** * A program that sends a list of data packets, each in its turn (specification). *)
From Verif Require Import Base Model_Types Model_Intervals Model_EventBase Model_Command Model_Event Model_Host
  Spec_Wire Spec_Errors Spec_Host Spec_Link Spec_Split Spec_Follow Spec_Facts Spec_Data Spec_Window Spec_Turns Spec_Live.
Open Scope list_scope.
Open Scope N_scope.

(** The data packets that it has sent. *)
Definition passed {V E} (log : list (data_operation V * @data_report V E)) : list (N * list N) :=
  filter is_data (put_out V log).
(** While packets of the list [ws] are left, it sends the next one just when it knows of a
    buffer for it (as in C104).  A call that fails is made again.  At other times it does
    what it likes (it may send commands), but goes on reading. *)
Record passes_on {V E} (ws : list (N * list N)) (calls : nat -> data_operation V) (results : nat -> @data_report V E) : Prop := {
  next_packet : forall n w, calls n = Transmit w ->
    nth_error ws (length (passed (until calls results n))) = Some w /\ may_transmit (until calls results n);
  at_once : forall n, may_transmit (until calls results n) -> (length (passed (until calls results n)) < length ws)%nat ->
    exists w, calls n = Transmit w;
  reads_on : again_and_again (fun n => calls n = Fetch)
}.
(** The transport does not refuse data for ever. *)
Definition data_go {V E} (calls : nat -> data_operation V) (results : nat -> @data_report V E) : Prop :=
  again_and_again (fun m => forall w, calls m = Transmit w -> exists u, results m = Transmitted (Ok u)).

(** ** Example: the controller of C112, with one buffer, and two packets *)
Definition pass_calls {V} (n : nat) : data_operation V :=
  match n with
  | 0%nat => Order CLeReadBufferSize
  | 2%nat => Transmit (one_buffer_packet 1)
  | 4%nat => Transmit (one_buffer_packet 2)
  | _ => Fetch
  end.
Definition pass_device (n : nat) : list device_step :=
  answered one_buffer_packet one_buffer_answer (match n with 0 => 0 | 1 | 2 => 1 | 3 | 4 => 2 | _ => 3 end)%nat.
