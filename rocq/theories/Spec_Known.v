(** * Asking only for events the crate knows (specification). *)
From Coq Require Import String.
From Verif Require Import Base Model_Types Model_Bitflags Model_FlagNames Model_EventBase Model_Command Model_Event
  Model_Host Spec_Wire Spec_Errors Spec_Host Spec_Link Spec_FlagNames Spec_Device Spec_Air Spec_Enabled Spec_Blame.
Open Scope list_scope.
Open Scope N_scope.

(** ** The flags of the events it knows, by name *)
Definition known_flags : list string :=
  ["CONNECTION_COMPLETE"; "DISCONNECTION_COMPLETE"; "ENCRYPTION_CHANGE"; "READ_REMOTE_VERSION_INFORMATION_COMPLETE";
   "HARDWARE_ERROR"; "DATA_BUFFER_OVERFLOW"; "ENCRYPTION_KEY_REFRESH_COMPLETE"; "LE_META_EVENT"]%string.
Definition known_le_flags : list string :=
  ["CONNECTION_COMPLETE"; "ADVERTISING_REPORT"; "CONNECTION_UPDATE_COMPLETE"; "READ_REMOTE_FEATURES_COMPLETE";
   "LONG_TERM_KEY_REQUEST"; "DATA_LENGTH_CHANGE"; "PHY_UPDATE_COMPLETE"]%string.

(** The masks given last have flags of these names only; the LE mask matters if
    LE events come at all. *)
Definition asks_known (F : features) {V} (cs : list (command V)) : Prop :=
  (forall name, has_flag (event_constant F name) (wanted_mask cs) = true -> In name known_flags)
  /\ (has_flag (event_constant F "LE_META_EVENT") (wanted_mask cs) = true ->
      forall name, has_flag (le_event_constant F name) (wanted_le_mask cs) = true -> In name known_le_flags).

(** The masks were made from flags. *)
Definition from_flags (F : features) {V} (c : command V) : Prop :=
  match c with
  | CSetEventMask mask => bf_from_bits F EventFlags mask = Some mask
  | CLeSetEventMask mask => bf_from_bits F LeEventFlags mask = Some mask
  | _ => True
  end.

(** ** What comes

    A whole packet that the masks let through.  Subevent codes start at 1.
    Command Complete is sent for a command that was given and is documented to
    be answered so, or with opcode 0 for none. *)
Definition may_come {V} (d : settings) (cs : list (command V)) (pkt : list N) : Prop :=
  event_packet pkt /\ lets_through d pkt = true
  /\ (at_ pkt 0 = 0x3E -> 1 <= at_ pkt 2)
  /\ (at_ pkt 0 = 0x0E ->
      u16_le pkt 3 = 0 \/ exists c, In c cs /\ answers c <> None /\ u16_le pkt 3 = command_opcode c).

(** The crate does not know what it is. *)
Definition unknown {A VE} (r : outcome (event_error VE) A) : Prop :=
  exists x, r = Err (EUnknownEvent x) \/ r = Err (EUnknownOpcode x).
Definition uart_unknown {A E VE} (r : outcome (nb_error (uart_error E VE)) A) : Prop :=
  exists e, r = Err (Other (UBLE e)) /\ unknown (Err (A := A) e).
Definition link_unknown {A E VE} (r : outcome (nb_error (link_error E VE)) A) : Prop :=
  exists e, r = Err (Other (LBLE e)) /\ unknown (Err (A := A) e).
