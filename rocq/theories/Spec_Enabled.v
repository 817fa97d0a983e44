(** * Which events a controller sends (specification). *)
From Verif Require Import Base Model_Types Model_Bitflags Model_FlagNames Model_EventBase Model_Command Model_Event
  Model_Host Spec_Wire Spec_Host Spec_FlagNames Spec_Device Spec_Air.
Open Scope list_scope.
Open Scope N_scope.

(** ** The controller (Vol 2, Part E, 7.3.1 and 7.8.1)

    Command Complete, Command Status, Number Of Completed Packets and vendor
    events are always sent, other events if bit [code - 1] of the mask is set,
    LE events if in addition bit [subevent code - 1] of the LE mask is. *)
Definition always_sent (code : N) : bool := existsb (N.eqb code) [0x0E; 0x0F; 0x13; 0xFF].
Definition lets_through (d : settings) (pkt : list N) : bool :=
  match pkt with
  | [] => false
  | code :: rest =>
      always_sent code
      || (N.testbit (event_mask d) (code - 1)
          && (if code =? 0x3E then
                match rest with
                | _ :: sub :: _ => N.testbit (le_event_mask d) (sub - 1)
                | _ => false
                end
              else true))
  end.

(** ** The host

    The masks given by the last successful calls since the last reset.  By
    default the events with codes 1 to 45 are enabled, which leaves out the LE
    events, and the LE events with subevent codes 1 to 5. *)
Section Calls.
Context {V : vendor}.
Definition first_bits (n : N) : N := 2 ^ n - 1.
Definition wanted_mask : list (command V) -> N :=
  latest (fun c => match c with
                   | CReset => Some (first_bits 45)
                   | CSetEventMask mask => Some mask
                   | _ => None
                   end) (first_bits 45).
Definition wanted_le_mask : list (command V) -> N :=
  latest (fun c => match c with
                   | CReset => Some (first_bits 5)
                   | CLeSetEventMask mask => Some mask
                   | _ => None
                   end) (first_bits 5).

(** The mask contains the named flag. *)
Definition has_flag (constant : option N) (mask : N) : bool :=
  match constant with Some c => bf_contains mask c | None => false end.
Definition wants_event (F : features) (cs : list (command V)) {W} (ev : event W) : bool :=
  match event_flag ev with
  | Some name => has_flag (event_constant F name) (wanted_mask cs)
  | None => true
  end
  && match le_event_flag ev with
     | Some name => has_flag (le_event_constant F name) (wanted_le_mask cs)
     | None => true
     end.
Definition is_le_event {W} (ev : event W) : bool :=
  match le_event_flag ev with Some _ => true | None => false end.
End Calls.
