(** * Flow control (specification). *)
From Verif Require Import Base Model_Types Model_Intervals Model_EventBase Model_Command Model_Event Model_Host
  Spec_Wire Spec_Errors Spec_Host Spec_Link Spec_Conform Spec_Pass Spec_Core Spec_Follow.
Open Scope list_scope.
Open Scope N_scope.

Definition total (l : list N) : N := fold_right N.add 0 l.

(** ** Data packets

    The data packets of the connection [h] that an event says are completed: the
    number of connections, then handle and count of each (Vol 2, Part E, 7.7.19). *)
Fixpoint freed (h : N) (n : nat) (p : list N) : N :=
  match n with
  | O => 0
  | S n => (if u16_le p 0 =? h then u16_le p 2 else 0) + freed h n (skipn 4 p)
  end.
Definition completed (h : N) (pkt : list N) : N :=
  if at_ pkt 0 =? 0x13 then freed h (N.to_nat (at_ pkt 2)) (skipn 3 pkt) else 0.

(** What an application adds up that goes through the pairs of each event. *)
Definition counted {V} (h : N) (ev : event V) (n : N) : Prop :=
  match ev with
  | EvNumberOfCompletedPackets e =>
      exists l, iterates (@ncp_next Empty_set e) O l
        /\ n = total (map (fun p => if cpp_conn_handle p =? h then cpp_num_completed_packets p else 0) l)
  | _ => n = 0
  end.
Definition counted_all {V} (h : N) (evs : list (event V)) (n : N) : Prop :=
  exists ns, Forall2 (counted h) evs ns /\ n = total ns.

(** ** Commands

    How many commands the controller has room for: the last number it gave, in
    Command Complete or Command Status. *)
Definition room (n : N) (pkt : list N) : N :=
  if at_ pkt 0 =? 0x0E then at_ pkt 2 else if at_ pkt 0 =? 0x0F then at_ pkt 3 else n.
Definition known_room {V} (n : N) (ev : event V) : N :=
  match ev with
  | EvCommandComplete e => cc_num_hci_command_packets e
  | EvCommandStatus e => cst_num_hci_command_packets e
  | _ => n
  end.

(** Supported commands with Set or Delete Reserved LT_ADDR among them. *)
Definition reserved_address_commands (pkt : list N) : bool :=
  (at_ pkt 0 =? 0x0E) && (u16_le pkt 3 =? hci_opcode 0x04 0x002)
  && (array_bit (skipn 6 pkt) (31 * 8 + 4) || array_bit (skipn 6 pkt) (31 * 8 + 5)).
