(** * A program that sends a list of commands, each in its turn (specification). *)
From Verif Require Import Base Model_Types Model_Intervals Model_EventBase Model_Command Model_Event Model_Host
  Spec_Wire Spec_Errors Spec_Host Spec_Link Spec_Split Spec_Follow Spec_Data Spec_Window Spec_Turns Spec_Own Spec_Apart Spec_Live
  Spec_LiveApart Spec_Refuse Spec_Several.
Open Scope list_scope.
Open Scope N_scope.

(** ** The program

    What it does next, after the calls in [log]: if there is a command left and it is
    the host's turn (as in C105), it sends the next one, otherwise it reads.  A call that
    fails is made again. *)
Definition next_call {V E} (cs : list (command V)) (log : list (data_operation V * @data_report V E)) : data_operation V :=
  match nth_error cs (length (ordered log)) with
  | Some c => if commands_sent log - answers_read log <? last_number log then Order c else Fetch
  | None => Fetch
  end.
(** ** The transport

    It does not refuse to write for ever: of the calls that write, at some time one
    succeeds, unless none is made at that time. *)
Definition writes_go {V E} (calls : nat -> data_operation V) (results : nat -> @data_report V E) : Prop :=
  again_and_again (fun m => forall c, calls m = Order c -> exists r, results m = Ordered r /\ succeeded r = true).

(** ** The same over separate links

    Here reads may fail too. *)
Definition next_operation {V E} (cs : list (command V)) (log : list (operation V * split_report V E)) : operation V :=
  match nth_error cs (length (split_sent log)) with
  | Some c => if split_commands log - split_answers log <? split_number log then Send c else Receive
  | None => Receive
  end.
Definition went_well {V E} (r : split_report V E) : bool :=
  match r with
  | SplitSent r => succeeded r
  | SplitReceived _ => split_read_went r
  end.
Definition links_work {V E} (results : nat -> split_report V E) : Prop := again_and_again (fun m => went_well (results m) = true).

(** ** Example: two Resets, and then only reads *)
Definition two_calls {V} (n : nat) : data_operation V :=
  match n with 0%nat | 2%nat => Order CReset | _ => Fetch end.
Definition two_device (n : nat) : list device_step :=
  answered (fun _ => reset_packet) (fun _ => reset_answer) (match n with 0 => 0 | 1 | 2 => 1 | _ => 2 end)%nat.
Definition two_sends {V} (n : nat) : operation V :=
  match n with 0%nat | 2%nat => Send CReset | _ => Receive end.
