(** * What an error says about the packet (specification).

    [blames F V pkt e]: what the error [e] says about the packet [pkt] is true:
    the value it carries is in the packet, at the place of the field it names,
    and is not allowed there.  A packet starts with event code and length; LE
    events go on with the subevent code, Command Complete with a count and the
    opcode. *)
From Verif Require Import Base Model_Types Model_Intervals Model_EventBase Model_Event
  Spec_Wire Spec_Interval Spec_Errors Spec_Report Spec_Pass.
Open Scope list_scope.
Open Scope N_scope.

Definition is_event (code : N) (pkt : list N) : Prop := at_ pkt 0 = code.
Definition is_le_event (sub : N) (pkt : list N) : Prop := at_ pkt 0 = 0x3E /\ at_ pkt 2 = sub.
Definition is_return (op : N) (pkt : list N) : Prop := at_ pkt 0 = 0x0E /\ u16_le pkt 3 = op.

(** Packets that the vendor's code decodes. *)
Definition vendor_packet (pkt : list N) : Prop :=
  is_event 0xFF pkt \/ (at_ pkt 0 = 0x0E /\ (5 <= length pkt)%nat /\ u16_le pkt 3 / 1024 = 0x3F).

(** A vendor that says of a bad status which it is. *)
Definition vendor_names_status (V : vendor) : Prop :=
  forall b e, vstatus_try_from V b = Err e -> e = b.

(** The length of the parameters of an event of fixed length. *)
Definition parameters_length (pkt : list N) : option nat :=
  match at_ pkt 0 with
  | 0x03 => Some 11%nat | 0x05 => Some 4%nat | 0x08 => Some 4%nat | 0x0C => Some 8%nat
  | 0x0F => Some 4%nat | 0x10 => Some 1%nat | 0x1A => Some 1%nat | 0x30 => Some 3%nat
  | 0x3E => match at_ pkt 2 with
            | 0x01 => Some 19%nat | 0x03 => Some 10%nat | 0x04 => Some 12%nat
            | 0x05 => Some 13%nat | 0x07 => Some 11%nat | 0x0C => Some 6%nat
            | _ => None
            end
  | _ => None
  end.

(** The length of the return parameters, status included, of the commands that
    return more than a status. *)
Definition return_lengths : list (N * nat) :=
  [ (hci_opcode 0x03 0x02D, 4%nat); (hci_opcode 0x04 0x001, 9%nat); (hci_opcode 0x04 0x002, 65%nat);
    (hci_opcode 0x04 0x003, 9%nat); (hci_opcode 0x04 0x009, 7%nat); (hci_opcode 0x05 0x005, 4%nat);
    (hci_opcode 0x08 0x002, 4%nat); (hci_opcode 0x08 0x003, 9%nat); (hci_opcode 0x08 0x007, 2%nat);
    (hci_opcode 0x08 0x015, 8%nat); (hci_opcode 0x08 0x017, 17%nat); (hci_opcode 0x08 0x018, 9%nat);
    (hci_opcode 0x08 0x01A, 3%nat); (hci_opcode 0x08 0x01B, 3%nat); (hci_opcode 0x08 0x01C, 9%nat);
    (hci_opcode 0x08 0x01F, 3%nat) ].

Inductive blames_length (pkt : list N) : nat -> nat -> Prop :=
| no_header : (length pkt < 2)%nat -> blames_length pkt (length pkt) 2
| not_as_announced : (2 <= length pkt)%nat -> length pkt <> (2 + N.to_nat (at_ pkt 1))%nat ->
    blames_length pkt (length pkt) (2 + N.to_nat (at_ pkt 1))
| not_of_event n m : length pkt = (2 + n)%nat -> parameters_length pkt = Some m -> n <> m ->
    blames_length pkt n m
| no_subevent : is_event 0x3E pkt -> length pkt = 2%nat -> blames_length pkt 0 1
| no_opcode n : is_event 0x0E pkt -> length pkt = (2 + n)%nat -> (n < 3)%nat -> blames_length pkt n 3
| not_of_return op n m : is_return op pkt -> length pkt = (5 + n)%nat -> In (op, m) return_lengths ->
    n <> m -> blames_length pkt n m
| no_pairs : is_event 0x13 pkt -> length pkt = 2%nat -> blames_length pkt 0 1
| not_of_pairs n : is_event 0x13 pkt -> length pkt = (2 + n)%nat -> (1 <= n)%nat ->
    n <> (1 + 4 * N.to_nat (at_ pkt 2))%nat ->
    blames_length pkt n (1 + 4 * N.to_nat (at_ pkt 2)).

(** A byte that is no status. *)
Definition no_status (F : features) (V : vendor) (b : N) : Prop :=
  nth_error (@assigned_statuses (VStatus V) F) (N.to_nat b) = None /\ exists e, vstatus_try_from V b = Err e.
Definition status_place (pkt : list N) : nat :=
  if at_ pkt 0 =? 0x3E then 3%nat else if at_ pkt 0 =? 0x0E then 5%nat else 2%nat.

Definition undefined_bit (defined bit : N -> bool) : Prop := exists i, bit i = true /\ defined i = false.

(** Interval, latency and timeout from position [i] on. *)
Definition blames_interval (pkt : list N) (i : nat) (e : conn_interval_error) : Prop :=
  let interval := u16_le pkt i * interval_unit in
  let latency := u16_le pkt (i + 2) in
  let timeout := u16_le pkt (i + 4) * timeout_unit in
  let needed := 2 * (1 + latency) * interval in
  match e with
  | Incomplete | IntervalInverted _ _ => False
  | IntervalTooShort d => d = interval /\ d < us 7500
  | IntervalTooLong d => d = interval /\ ms 4000 < d
  | BadConnectionLatency l => l = latency /\ 499 < l
  | ImpossibleSupervisionTimeout d => d = needed /\ ms 32000 <= d
  | SupervisionTimeoutTooShort t d => t = timeout /\ t <= d /\ (d = needed \/ d = ms 100)
  | SupervisionTimeoutTooLong t => t = timeout /\ ms 32000 < t
  end.

(** The entry that starts at byte [i] of the packet, after whole entries. *)
Definition entry_at (pkt : list N) (i : nat) : Prop :=
  is_le_event 0x02 pkt /\ (i < length pkt)%nat
  /\ exists l, Forall advertisement_ok l /\ slice 4 (i - 4) pkt = flat_map advertisement_bytes l
               /\ (4 <= i)%nat.

Definition blames (F : features) (V : vendor) (pkt : list N) (e : event_error (VError V)) : Prop :=
  match e with
  | EUnknownEvent x =>
      (is_event x pkt /\ ~ In x known_events) \/ (is_le_event x pkt /\ ~ In x known_subevents)
  | EBadLength n m => blames_length pkt n m
  | EBadStatus b => b = at_ pkt (status_place pkt) /\ no_status F V b
  | EBadLinkType b =>
      1 < b /\ ((is_event 0x03 pkt /\ b = at_ pkt 11) \/ (is_event 0x1A pkt /\ b = at_ pkt 2))
  | EBadEncryptionEnabledValue b => is_event 0x03 pkt /\ b = at_ pkt 12 /\ 1 < b
  | EBadReason b => is_event 0x05 pkt /\ b = at_ pkt 5 /\ no_status F V b
  | EBadEncryptionType b => is_event 0x08 pkt /\ b = at_ pkt 5 /\ 2 < b
  | EUnknownOpcode op => is_return op pkt /\ ~ In op known_opcodes /\ op / 1024 <> 0x3F
  | EBadCommandFlag =>
      is_return (hci_opcode 0x04 0x002) pkt
      /\ undefined_bit (command_bit_defined F) (array_bit (slice 6 64 pkt))
  | EInvalidChannelMap map =>
      is_return (hci_opcode 0x08 0x015) pkt /\ map = slice 8 5 pkt
      /\ undefined_bit channel_defined (array_bit map)
  | EInvalidLeStates v =>
      is_return (hci_opcode 0x08 0x01C) pkt /\ v = number_le (slice 6 8 pkt)
      /\ undefined_bit le_state_defined (N.testbit v)
  | EBadLeConnectionRole b => is_le_event 0x01 pkt /\ b = at_ pkt 6 /\ 1 < b
  | EBadLeAddressType b =>
      1 < b /\ ((is_le_event 0x01 pkt /\ b = at_ pkt 7) \/ exists i, entry_at pkt i /\ b = at_ pkt (i + 1))
  | EBadConnectionInterval e =>
      (is_le_event 0x01 pkt /\ blames_interval pkt 14 e) \/ (is_le_event 0x03 pkt /\ blames_interval pkt 6 e)
  | EBadLeCentralClockAccuracy b => is_le_event 0x01 pkt /\ b = at_ pkt 20 /\ 7 < b
  | ELeAdvertisementReportIncomplete =>
      exists i, entry_at pkt i /\ (length pkt < i + 9 + N.to_nat (at_ pkt (i + 8)) + 1)%nat
  | EBadLeAdvertisementType b => exists i, entry_at pkt i /\ b = at_ pkt i /\ 4 < b
  | EBadRemoteUsedFeatureFlag v =>
      is_le_event 0x04 pkt /\ v = number_le (slice 6 8 pkt)
      /\ undefined_bit (le_feature_defined F) (N.testbit v)
  | EBadPhy b => is_le_event 0x0C pkt /\ 2 < b /\ (b = at_ pkt 6 \/ b = at_ pkt 7)
  | EVendor _ => False
  end.

(** What the vendor's decoder says of the parameters. *)
Definition vendor_says (V : vendor) (pkt : list N) (e : event_error (VError V)) : Prop :=
  (is_event 0xFF pkt /\ vevent_new V (skipn 2 pkt) = Err e)
  \/ (is_event 0x0E pkt /\ vreturn_new V (skipn 2 pkt) = Err e).
