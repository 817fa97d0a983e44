(** * Asking first which commands there are (specification). *)
From Verif Require Import Base Model_Types Model_Bitflags Model_FlagNames Model_EventBase Model_Command Model_Event
  Model_Host Spec_Wire Spec_Errors Spec_Host Spec_Link Spec_FlagNames Spec_Retry Spec_Dialogue Spec_Split.
Open Scope list_scope.
Open Scope N_scope.

(** ** The controller

    Whether one that answers Read Local Supported Commands with [commands] has
    the command (Vol 2, Part E, 6.27). *)
Definition has_command {V} (commands : list N) (c : command V) : bool :=
  match supported_bit c with
  | Some (octet, bit) => N.testbit (nth (N.to_nat octet) commands 0) bit
  | None => true
  end.

(** ** The host

    It looks for the constant with the name of the command. *)
Definition is_listed (F : features) {V} (flags : list N) (c : command V) : bool :=
  match command_flag c with
  | Some name =>
      match command_constant F name with
      | Some flag => match @ba_is_set Empty_set flags flag with Ok b => b | _ => false end
      | None => false
      end
  | None => true
  end.

(** It asks for the list, and sends of the commands [wanted] those that are in
    it; the result has these commands with their answers. *)
Section Careful.
Context (F : features) (V : vendor) {St E : Type} (C : controller St E).
Definition ask_first_which (n : nat) (wanted : list (command V)) (s : St)
    : St * option (list (command V * option (answer V))) :=
  let (s, a) := ask F V C n CReadLocalSupportedCommands s in
  match a with
  | Some (Completed (RetReadLocalSupportedCommands p)) =>
      match lsc_status p with
      | Success =>
          let cs := filter (is_listed F (lsc_commands p)) wanted in
          let (s, l) := asks F V C n cs s in
          (s, Some (combine cs l))
      | _ => (s, None)
      end
  | _ => (s, None)
  end.
(** The same over separate links. *)
Definition link_ask_first_which (n : nat) (wanted : list (command V)) (s : St)
    : St * option (list (command V * option (answer V))) :=
  let (s, a) := link_ask F V C n CReadLocalSupportedCommands s in
  match a with
  | Some (Completed (RetReadLocalSupportedCommands p)) =>
      match lsc_status p with
      | Success =>
          let cs := filter (is_listed F (lsc_commands p)) wanted in
          let (s, l) := link_asks F V C n cs s in
          (s, Some (combine cs l))
      | _ => (s, None)
      end
  | _ => (s, None)
  end.
End Careful.

(** Some of the list, in order. *)
Inductive some_of {A} : list A -> list A -> Prop :=
| some_nil : some_of [] []
| some_skip x l l' : some_of l l' -> some_of l (x :: l')
| some_keep x l l' : some_of l l' -> some_of (x :: l) (x :: l').

(** *** An example: a device without LE commands.  It lists what it has (octet 5,
    bit 7; octet 15, bit 5), and refuses other commands. *)
Definition example_list : list N := repeat 0 5 ++ [0x80] ++ repeat 0 9 ++ [0x20] ++ repeat 0 48.
Definition example_lister (w cmd : list N) : list (list N) :=
  map uart_frame
    (match cmd with
     | [0x01; 0x02; 0x10; 0] => [framed 0x0E ([1; 0x02; 0x10; 0] ++ example_list)]
     | [0x01; 0x03; 0x0C; 0] => [[0x0E; 4; 1; 0x03; 0x0C; 0]]
     | [0x01; 0x05; 0x14; 2; lo; hi] => [[0x0E; 7; 1; 0x05; 0x14; 0; lo; hi; 0xF0]]
     | _ :: lo :: hi :: _ => [[0x0F; 4; 0x01; 1; lo; hi]]
     | _ => []
     end).
Definition example_link_lister (w cmd : list N) : list (list N) :=
  match cmd with
  | [0x02; 0x10; 0] => [[0x0E]; 68 :: [1; 0x02; 0x10; 0] ++ example_list]
  | [0x03; 0x0C; 0] => [[0x0E; 4; 1; 0x03; 0x0C; 0]]
  | [0x05; 0x14; 2; lo; hi] => [[0x0E; 7; 1; 0x05; 0x14; 0; lo; hi; 0xF0]]
  | lo :: hi :: _ => [[0x0F; 4; 0x01; 1; lo; hi]]
  | _ => []
  end.
