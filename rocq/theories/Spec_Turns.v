(** * Room for commands, and a host that waits its turn (specification). *)
From Verif Require Import Base Model_Types Model_Intervals Model_EventBase Model_Command Model_Event Model_Host
  Spec_Wire Spec_Errors Spec_Host Spec_Link Spec_Conform Spec_Follow Spec_Credit Spec_Facts Spec_Data Spec_Window.
Open Scope list_scope.
Open Scope N_scope.

(** ** Packets

    An answer is a Command Complete or Command Status event for a command: its
    opcode is not zero (Vol 2, Part E, 7.7.14 and 7.7.15). *)
Definition is_command (w : N * list N) : bool := fst w =? 0x01.
Definition is_reply (w : N * list N) : bool :=
  (fst w =? 0x04)
  && (((at_ (snd w) 0 =? 0x0E) && negb (u16_le (snd w) 3 =? 0))
      || ((at_ (snd w) 0 =? 0x0F) && negb (u16_le (snd w) 4 =? 0))).
Definition how_many (p : N * list N -> bool) (ws : list (N * list N)) : N := N.of_nat (length (filter p ws)).

(** ** The controller

    How many commands the host may still send: one at first; after each Command
    Complete or Command Status the number in it, whether it answers a command or
    not; one less with each command (Vol 2, Part E, 4.4). *)
Definition allows (n : N) (x : device_step) : N :=
  match x with
  | Takes w => if is_command w then N.pred n else n
  | Sends w => if fst w =? 0x04 then room n (snd w) else n
  end.
Definition allowed (d : list device_step) : N := fold_left allows d 1.

(** It conforms to the specification, answers commands only once and not before it
    has them, and takes back no room it has given. *)
Definition fair (F : features) (d : list device_step) : Prop :=
  Forall outgoing_packet (taken d)
  /\ forall before w after, d = before ++ Sends w :: after ->
     incoming_packet w
     /\ (fst w = 0x04 -> conforming_packet F (snd w))
     /\ (is_reply w = true -> how_many is_reply (sent_by before) < how_many is_command (taken before))
     /\ allowed before <= allowed (before ++ [Sends w]).

(** ** The host *)
Section Host.
Context {V : vendor} {E : Type}.
Definition commands_sent (log : list (data_operation V * @data_report V E)) : N := how_many is_command (put_out V log).
Definition answers_command (ev : event V) : bool :=
  match ev with
  | EvCommandComplete e => match cc_return_params e with RetSpontaneous => false | _ => true end
  | EvCommandStatus e => negb (cst_opcode e =? 0)
  | _ => false
  end.
Definition answers_read (log : list (data_operation V * @data_report V E)) : N :=
  N.of_nat (length (filter answers_command (events_got log))).
Definition last_number (log : list (data_operation V * @data_report V E)) : N :=
  fold_left known_room (events_got log) 1.

(** It calls a method only if the commands it has sent and not yet read an answer
    for are fewer than the last number it has read. *)
Definition patient (log : list (data_operation V * @data_report V E)) : Prop :=
  forall before c r after, log = before ++ (Order c, r) :: after ->
  commands_sent before - answers_read before < last_number before.
End Host.
