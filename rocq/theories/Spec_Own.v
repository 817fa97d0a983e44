(** * Several commands at a time (specification). *)
From Verif Require Import Base Model_Types Model_Intervals Model_EventBase Model_Command Model_Event Model_Host
  Spec_Wire Spec_Errors Spec_Host Spec_Link Spec_Conform Spec_Follow Spec_Credit Spec_Facts Spec_Data Spec_Window Spec_Turns.
Open Scope list_scope.
Open Scope N_scope.

(** ** Packets with the opcode [op]: commands, and events that answer them *)
Definition command_with (op : N) (w : N * list N) : bool := (fst w =? 0x01) && (u16_le (snd w) 0 =? op).
Definition reply_with (op : N) (w : N * list N) : bool :=
  (fst w =? 0x04)
  && (((at_ (snd w) 0 =? 0x0E) && (u16_le (snd w) 3 =? op)) || ((at_ (snd w) 0 =? 0x0F) && (u16_le (snd w) 4 =? op))).

(** ** The controller

    It conforms to the specification.  It may do commands in any order, but of two
    with the same opcode it answers the first one first; it answers each at most
    once and after it has it. *)
Definition orderly (F : features) (d : list device_step) : Prop :=
  Forall outgoing_packet (taken d)
  /\ forall before w after, d = before ++ Sends w :: after ->
     incoming_packet w
     /\ (fst w = 0x04 -> conforming_packet F (snd w))
     /\ forall op, op <> 0 -> reply_with op w = true ->
        how_many (reply_with op) (sent_by before) < how_many (command_with op) (taken before).

(** ** The host

    The command that an event answers, by the variant of the return parameters
    or the opcode in Command Status. *)
Definition return_opcode {V} (r : return_parameters V) : option N :=
  match r with
  | RetSpontaneous => None
  | RetSetEventMask _ => Some (hci_opcode 0x03 0x001)
  | RetReset _ => Some (hci_opcode 0x03 0x003)
  | RetReadTxPowerLevel _ => Some (hci_opcode 0x03 0x02D)
  | RetReadLocalVersionInformation _ => Some (hci_opcode 0x04 0x001)
  | RetReadLocalSupportedCommands _ => Some (hci_opcode 0x04 0x002)
  | RetReadLocalSupportedFeatures _ => Some (hci_opcode 0x04 0x003)
  | RetReadBdAddr _ => Some (hci_opcode 0x04 0x009)
  | RetReadRssi _ => Some (hci_opcode 0x05 0x005)
  | RetLeSetEventMask _ => Some (hci_opcode 0x08 0x001)
  | RetLeReadBufferSize _ => Some (hci_opcode 0x08 0x002)
  | RetLeReadLocalSupportedFeatures _ => Some (hci_opcode 0x08 0x003)
  | RetLeSetRandomAddress _ => Some (hci_opcode 0x08 0x005)
  | RetLeSetAdvertisingParameters _ => Some (hci_opcode 0x08 0x006)
  | RetLeReadAdvertisingChannelTxPower _ => Some (hci_opcode 0x08 0x007)
  | RetLeSetAdvertisingData _ => Some (hci_opcode 0x08 0x008)
  | RetLeSetScanResponseData _ => Some (hci_opcode 0x08 0x009)
  | RetLeSetAdvertiseEnable _ => Some (hci_opcode 0x08 0x00A)
  | RetLeSetAdvertisingEnable _ => Some (hci_opcode 0x08 0x00A)
  | RetLeSetScanParameters _ => Some (hci_opcode 0x08 0x00B)
  | RetLeSetScanEnable _ => Some (hci_opcode 0x08 0x00C)
  | RetLeCreateConnectionCancel _ => Some (hci_opcode 0x08 0x00E)
  | RetLeReadWhiteListSize _ _ => Some (hci_opcode 0x08 0x00F)
  | RetLeClearWhiteList _ => Some (hci_opcode 0x08 0x010)
  | RetLeAddDeviceToWhiteList _ => Some (hci_opcode 0x08 0x011)
  | RetLeRemoveDeviceFromWhiteList _ => Some (hci_opcode 0x08 0x012)
  | RetLeSetHostChannelClassification _ => Some (hci_opcode 0x08 0x014)
  | RetLeReadChannelMap _ => Some (hci_opcode 0x08 0x015)
  | RetLeEncrypt _ => Some (hci_opcode 0x08 0x017)
  | RetLeRand _ => Some (hci_opcode 0x08 0x018)
  | RetLeLongTermKeyRequestReply _ => Some (hci_opcode 0x08 0x01A)
  | RetLeLongTermKeyRequestNegativeReply _ => Some (hci_opcode 0x08 0x01B)
  | RetLeReadSupportedStates _ => Some (hci_opcode 0x08 0x01C)
  | RetLeReceiverTest _ => Some (hci_opcode 0x08 0x01D)
  | RetLeTransmitterTest _ => Some (hci_opcode 0x08 0x01E)
  | RetLeTestEnd _ => Some (hci_opcode 0x08 0x01F)
  | RetVendor _ => None
  end.
Definition answer_to {V} (op : N) (ev : event V) : bool :=
  match ev with
  | EvCommandComplete e => match return_opcode (cc_return_params e) with Some o => o =? op | None => false end
  | EvCommandStatus e => cst_opcode e =? op
  | _ => false
  end.
