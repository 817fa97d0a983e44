(** * Which error is reported (specification).

    Each event, and each block of return parameters, comes with the list of its
    checks in order: the length first, then the fields in declaration order.
    A check is [None] if it holds and [Some e] if it fails with the error [e]. *)
From Verif Require Import Base Model_Types Model_Bitflags Model_Intervals
  Model_EventBase Spec_Wire Spec_Interval.

Fixpoint first_error {E} (l : list (option E)) : option E :=
  match l with
  | [] => None
  | Some e :: _ => Some e
  | None :: l => first_error l
  end.

(** The vendor's own code returns. *)
Definition vendor_total (V : vendor) : Prop :=
  (forall b, vstatus_try_from V b <> Panic)
  /\ (forall p, vevent_new V p <> Panic)
  /\ (forall p, vreturn_new V p <> Panic).

(** Byte [i] of a payload, and little-endian numbers at [i]. *)
Definition at_ (p : list N) (i : nat) : N := nth i p 0.
Definition u16_le (p : list N) (i : nat) : N := at_ p i + 256 * at_ p (i + 1).
Definition number_le (p : list N) : N := fold_right (fun b acc => b + 256 * acc) 0 p.

Section Checks.
Context (F : features) (V : vendor).
Local Notation check := (option (event_error (VError V))).

Definition length_is (p : list N) (n : nat) : check :=
  if Nat.eqb (length p) n then None else Some (EBadLength (length p) n).

(** A status byte: bad if no assigned code and refused by the vendor. *)
Definition status_is (mk : N -> event_error (VError V)) (b : N) : check :=
  match nth_error (@assigned_statuses (VStatus V) F) (N.to_nat b) with
  | Some _ => None
  | None => match vstatus_try_from V b with Err e => Some (mk e) | _ => None end
  end.

(** A byte at most [m]. *)
Definition code_is (m : N) (mk : N -> event_error (VError V)) (b : N) : check :=
  if b <=? m then None else Some (mk b).

(** Interval, latency, timeout at [i]. *)
Definition interval_is (p : list N) (i : nat) : check :=
  let d := u16_le p i * interval_unit in
  option_map EBadConnectionInterval
    (first_failure (interval_checks d d (u16_le p (i + 2)) (u16_le p (i + 4) * timeout_unit))).

(** No undefined bit in the first [n] bits. *)
Definition bits_are (n : nat) (defined bit : N -> bool) (e : event_error (VError V)) : check :=
  if forallb (fun i => implb (bit i) (defined i)) (map N.of_nat (seq 0 n))
  then None else Some e.

(** The checks of the fixed-size events, by event code; [None] for the others. *)
Definition event_checks (code : N) (p : list N) : option (list check) :=
  match code with
  | 0x03 => Some [ length_is p 11; status_is EBadStatus (at_ p 0);
                   code_is 1 EBadLinkType (at_ p 9);
                   code_is 1 EBadEncryptionEnabledValue (at_ p 10) ]
  | 0x05 => Some [ length_is p 4; status_is EBadStatus (at_ p 0);
                   status_is EBadReason (at_ p 3) ]
  | 0x08 => Some [ length_is p 4; status_is EBadStatus (at_ p 0);
                   code_is 2 EBadEncryptionType (at_ p 3) ]
  | 0x0C => Some [ length_is p 8; status_is EBadStatus (at_ p 0) ]
  | 0x0F => Some [ length_is p 4; status_is EBadStatus (at_ p 0) ]
  | 0x10 => Some [ length_is p 1 ]
  | 0x1A => Some [ length_is p 1; code_is 1 EBadLinkType (at_ p 0) ]
  | 0x30 => Some [ length_is p 3; status_is EBadStatus (at_ p 0) ]
  | 0x3E =>
      match p with
      | 0x01 :: _ => Some [ length_is p 19; status_is EBadStatus (at_ p 1);
                            code_is 1 EBadLeConnectionRole (at_ p 4);
                            code_is 1 EBadLeAddressType (at_ p 5);
                            interval_is p 12;
                            code_is 7 EBadLeCentralClockAccuracy (at_ p 18) ]
      | 0x03 :: _ => Some [ length_is p 10; status_is EBadStatus (at_ p 1);
                            interval_is p 4 ]
      | 0x04 :: _ => let features := number_le (skipn 4 p) in
                     Some [ length_is p 12; status_is EBadStatus (at_ p 1);
                            bits_are 64 (le_feature_defined F) (N.testbit features)
                              (EBadRemoteUsedFeatureFlag features) ]
      | 0x05 :: _ => Some [ length_is p 13 ]
      | 0x07 :: _ => Some [ length_is p 11 ]
      | 0x0C :: _ => Some [ length_is p 6; status_is EBadStatus (at_ p 1);
                            code_is 2 EBadPhy (at_ p 4); code_is 2 EBadPhy (at_ p 5) ]
      | _ => None
      end
  | _ => None
  end.

(** The checks of return parameters [r] by opcode, for the commands with more
    than a status. *)
Definition return_checks (op : N) (r : list N) : option (list check) :=
  let with_status n rest := Some (length_is r n :: status_is EBadStatus (at_ r 0) :: rest) in
  if op =? hci_opcode 0x03 0x02D then with_status 4%nat [] else
  if op =? hci_opcode 0x04 0x001 then with_status 9%nat [] else
  if op =? hci_opcode 0x04 0x002 then
    with_status 65%nat [ bits_are 512 (command_bit_defined F) (array_bit (skipn 1 r)) EBadCommandFlag ] else
  if op =? hci_opcode 0x04 0x003 then with_status 9%nat [] else
  if op =? hci_opcode 0x04 0x009 then with_status 7%nat [] else
  if op =? hci_opcode 0x05 0x005 then with_status 4%nat [] else
  if op =? hci_opcode 0x08 0x002 then with_status 4%nat [] else
  if op =? hci_opcode 0x08 0x003 then with_status 9%nat [] else
  if op =? hci_opcode 0x08 0x007 then with_status 2%nat [] else
  if op =? hci_opcode 0x08 0x015 then
    with_status 8%nat [ bits_are 40 channel_defined (array_bit (skipn 3 r))
                          (EInvalidChannelMap (skipn 3 r)) ] else
  if op =? hci_opcode 0x08 0x017 then with_status 17%nat [] else
  if op =? hci_opcode 0x08 0x018 then with_status 9%nat [] else
  if op =? hci_opcode 0x08 0x01A then with_status 3%nat [] else
  if op =? hci_opcode 0x08 0x01B then with_status 3%nat [] else
  if op =? hci_opcode 0x08 0x01C then
    with_status 9%nat [ bits_are 64 le_state_defined (N.testbit (number_le (skipn 1 r)))
                          (EInvalidLeStates (number_le (skipn 1 r))) ] else
  if op =? hci_opcode 0x08 0x01F then with_status 3%nat [] else
  None.

End Checks.

(** The commands whose return parameters are a status alone (the crate does not
    look at what follows). *)
Definition status_only_opcodes : list N :=
  [ hci_opcode 0x03 0x001 (* Set Event Mask *);
    hci_opcode 0x03 0x003 (* Reset *);
    hci_opcode 0x08 0x001 (* LE Set Event Mask *);
    hci_opcode 0x08 0x005 (* LE Set Random Address *);
    hci_opcode 0x08 0x006 (* LE Set Advertising Parameters *);
    hci_opcode 0x08 0x008 (* LE Set Advertising Data *);
    hci_opcode 0x08 0x009 (* LE Set Scan Response Data *);
    hci_opcode 0x08 0x00A (* LE Set Advertising Enable *);
    hci_opcode 0x08 0x00B (* LE Set Scan Parameters *);
    hci_opcode 0x08 0x00C (* LE Set Scan Enable *);
    hci_opcode 0x08 0x00E (* LE Create Connection Cancel *);
    hci_opcode 0x08 0x010 (* LE Clear White List *);
    hci_opcode 0x08 0x011 (* LE Add Device To White List *);
    hci_opcode 0x08 0x012 (* LE Remove Device From White List *);
    hci_opcode 0x08 0x014 (* LE Set Host Channel Classification *);
    hci_opcode 0x08 0x01D (* LE Receiver Test *);
    hci_opcode 0x08 0x01E (* LE Transmitter Test *) ].

(** LE Read White List Size. *)
Definition white_list_size_opcode : N := hci_opcode 0x08 0x00F.

(** The opcodes that Command Complete decoding knows; 0 is for a spontaneous
    Command Complete. *)
Definition known_opcodes : list N :=
  0 :: map (hci_opcode 0x03) [0x001; 0x003; 0x02D]
  ++ map (hci_opcode 0x04) [0x001; 0x002; 0x003; 0x009]
  ++ map (hci_opcode 0x05) [0x005]
  ++ map (hci_opcode 0x08)
       [0x001; 0x002; 0x003; 0x005; 0x006; 0x007; 0x008; 0x009; 0x00A; 0x00B; 0x00C;
        0x00E; 0x00F; 0x010; 0x011; 0x012; 0x014; 0x015; 0x017; 0x018; 0x01A; 0x01B;
        0x01C; 0x01D; 0x01E; 0x01F].

(** A packet with the given event code and payload. *)
Definition framed (code : N) (payload : list N) : list N :=
  code :: N.of_nat (length payload) :: payload.
