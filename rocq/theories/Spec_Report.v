(** * Repeated events: iteration and advertising report entries (specification). *)
From Verif Require Import Base Model_Types Model_EventBase Model_Event Spec_Wire Spec_Errors.

(** The results of [n] successive calls of an iterator's [next]. *)
Fixpoint calls {E St A} (next : St -> outcome E (option A * St)) (n : nat) (s : St)
    : outcome E (list (option A)) :=
  match n with
  | O => Ok []
  | S n => let! r := next s in
           let! rest := calls next n (snd r) in
           Ok (fst r :: rest)
  end.

(** What [n] calls give when the elements are [l]: the elements, then [None]. *)
Definition expected_calls {A} (n : nat) (l : list A) : list (option A) :=
  firstn n (map Some l ++ repeat None n).

(** The checks of an entry of an advertising report that has at least its fixed
    fields (event type, address type, address, data length: 9 bytes): it must
    not run past the end of the report (its data, and one byte of RSSI), then
    the event type, then the address type. *)
Definition entry_checks (V : vendor) (e : list N) : list (option (event_error (VError V))) :=
  [ if Nat.ltb (length e) (9 + N.to_nat (at_ e 8) + 1)
    then Some ELeAdvertisementReportIncomplete else None;
    code_is V 4 EBadLeAdvertisementType (at_ e 0);
    code_is V 1 EBadLeAddressType (at_ e 1) ].

(** A report [data] that is some complete entries and then [tail]. *)
Definition entries_then (l : list le_advertisement) (tail data : list N) : Prop :=
  Forall advertisement_ok l /\ data = flat_map advertisement_bytes l ++ tail.

(** ** The packets on which decoding panics *)
Inductive panics (F : features) (V : vendor) : list N -> Prop :=
| panics_without_status n op :
    (* Command Complete without return parameters, for a command that returns
       a status alone or for LE Read White List Size *)
    In op status_only_opcodes \/ op = white_list_size_opcode ->
    panics F V (framed 0x0E ([n] ++ le 2 op))
| panics_without_size n sb :
    (* Command Complete of LE Read White List Size with a good status only *)
    status_is F V EBadStatus sb = None ->
    panics F V (framed 0x0E ([n] ++ le 2 white_list_size_opcode ++ [sb]))
| panics_without_count :
    (* LE Advertising Report without the number of reports *)
    panics F V (framed 0x3E [0x02])
| panics_fragment count l tail :
    (* LE Advertising Report that ends in 1 to 8 bytes of an entry *)
    Forall advertisement_ok l -> (1 <= length tail <= 8)%nat ->
    panics F V (framed 0x3E ([0x02; count] ++ flat_map advertisement_bytes l ++ tail)).

(** The event codes and LE meta subevent codes that the crate knows. *)
Definition known_events : list N :=
  [0x03; 0x05; 0x08; 0x0C; 0x0E; 0x0F; 0x10; 0x13; 0x1A; 0x30; 0x3E; 0xFF].
Definition known_subevents : list N := [0x01; 0x02; 0x03; 0x04; 0x05; 0x07; 0x0C].

(** The vendor's decoders do not use the error [UnknownEvent] for themselves. *)
Definition vendor_no_unknown_event (V : vendor) : Prop :=
  (forall p x, vevent_new V p <> Err (EUnknownEvent x))
  /\ (forall p x, vreturn_new V p <> Err (EUnknownEvent x)).

(** The code, and the LE meta subevent code, of each kind of event. *)
Definition event_code {V} (ev : event V) : N :=
  match ev with
  | EvConnectionComplete _ => 0x03
  | EvDisconnectionComplete _ => 0x05
  | EvEncryptionChange _ => 0x08
  | EvReadRemoteVersionInformationComplete _ => 0x0C
  | EvCommandComplete _ => 0x0E
  | EvCommandStatus _ => 0x0F
  | EvHardwareError _ => 0x10
  | EvNumberOfCompletedPackets _ => 0x13
  | EvDataBufferOverflow _ => 0x1A
  | EvEncryptionKeyRefreshComplete _ => 0x30
  | EvLeConnectionComplete _ | EvLeAdvertisingReport _ | EvLeConnectionUpdateComplete _
  | EvLeReadRemoteUsedFeaturesComplete _ | EvLeLongTermKeyRequest _
  | EvLeDataLengthChangeEvent _ | EvLePhyUpdateComplete _ => 0x3E
  | EvVendor _ => 0xFF
  end.
Definition event_subcode {V} (ev : event V) : option N :=
  match ev with
  | EvLeConnectionComplete _ => Some 0x01
  | EvLeAdvertisingReport _ => Some 0x02
  | EvLeConnectionUpdateComplete _ => Some 0x03
  | EvLeReadRemoteUsedFeaturesComplete _ => Some 0x04
  | EvLeLongTermKeyRequest _ => Some 0x05
  | EvLeDataLengthChangeEvent _ => Some 0x07
  | EvLePhyUpdateComplete _ => Some 0x0C
  | _ => None
  end.
