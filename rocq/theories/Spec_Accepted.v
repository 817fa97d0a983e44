(** * What the crate takes for an event (specification).

    The formats of Spec_Conform, with what the crate does not check left open. *)
From Verif Require Import Base Model_Types Model_EventBase Model_Event Spec_Wire Spec_Errors
  Spec_Core Spec_Versions Spec_Conform.
Open Scope list_scope.
Open Scope N_scope.

Section Accepted.
Context (F : features) (V : vendor).

(** An assigned error code, or a code of the vendor's. *)
Definition status_taken (b : N) : Prop :=
  b <= last_status F \/ exists v, vstatus_try_from V b = Ok v.

(** A field.  The ranges of handles and of other numbers of two octets are not
    checked; the PHYs have other codes. *)
Definition field_taken (f : field) (bs : list N) : Prop :=
  match f with
  | Status => exists b, status_taken b /\ bs = [b]
  | Word _ _ => length bs = 2%nat
  | Octet 1 3 => field_matches F (Octet 0 2) bs
  | _ => field_matches F f bs
  end.
Fixpoint taken (fs : list field) (bs : list N) : Prop :=
  match fs with
  | [] => bs = []
  | f :: fs => exists b bs', bs = b ++ bs' /\ field_taken f b /\ taken fs bs'
  end.

(** Return parameters after which anything may follow. *)
Definition open_ended (op : N) : Prop := In op status_only_opcodes \/ op = white_list_size_opcode.

(** [taken_event code p]: an event [code] with the parameters [p] is taken. *)
Inductive taken_event : N -> list N -> Prop :=
| taken_layout code fs p : In (code, fs) event_layouts -> taken fs p -> taken_event code p
| taken_return n op fs ret more : In (op, fs) return_layouts -> taken fs ret ->
    more = [] \/ open_ended op ->
    (op = hci_opcode 0x04 0x002 -> array_bit (tl ret) (31 * 8 + 4) = false /\ array_bit (tl ret) (31 * 8 + 5) = false) ->
    taken_event 0x0E ([n] ++ le 2 op ++ ret ++ more)
| taken_flow n more : taken_event 0x0E ([n] ++ le 2 0 ++ more)
| taken_completed l : Forall pair_ok l -> taken_event 0x13 (N.of_nat (length l) :: flat_map pair_bytes l)
| taken_reports count l : Forall advertisement_ok l ->
    taken_event 0x3E ([0x02; count] ++ flat_map advertisement_bytes l)
| taken_connection sb body : status_taken sb -> length body = 17%nat -> connection_fields_ok body ->
    taken_event 0x3E ([0x01; sb] ++ body)
| taken_update sb body : status_taken sb -> length body = 8%nat -> update_fields_ok body ->
    taken_event 0x3E ([0x03; sb] ++ body)
  (* the vendor's *)
| taken_vendor_return n op ret v : u16 op -> op / 1024 = 0x3F -> vreturn_new V ([n] ++ le 2 op ++ ret) = Ok v ->
    taken_event 0x0E ([n] ++ le 2 op ++ ret)
| taken_vendor_event p v : vevent_new V p = Ok v -> taken_event 0xFF p.
End Accepted.
