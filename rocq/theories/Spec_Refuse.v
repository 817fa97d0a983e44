(** * A controller that refuses some commands (specification).

    As in Spec_Device.v, but the controller may refuse any command, for instance because
    the white list is full or because it is advertising already. *)
From Verif Require Import Base Model_Types Model_EventBase Model_Command Model_Event Model_Host
  Spec_Wire Spec_Errors Spec_Host Spec_Link Spec_Retry Spec_Dialogue Spec_Device.
Open Scope list_scope.
Open Scope N_scope.

(** ** The controller

    [accepts before packet]: it carries out the command [packet] after the commands
    [before].  A command that it refuses changes nothing. *)
Fixpoint decide (accepts : list (N * list N) -> N * list N -> bool) (before packets : list (N * list N))
    (d : settings) : settings :=
  match packets with
  | [] => d
  | packet :: packets =>
      decide accepts (before ++ [packet]) packets (if accepts before packet then carry_out d packet else d)
  end.

(** The status in an answer: the fourth byte of Command Complete (after the number of
    packets and the opcode), and the first of Command Status. *)
Definition status_in (p : list N) : N := if at_ p 0 =? 0x0E then at_ p 5 else at_ p 2.

Section Answers.
Context (F : features) (V : vendor).

(** The device of C65, which gives each of the commands [cs] its answer; the status in it
    is zero if the command has been carried out, and only then. *)
Inductive honest (accepts : list (N * list N) -> N * list N -> bool) (respond : list N -> list N -> list (list N))
    : list N -> list (N * list N) -> list (command V) -> list (answer V) -> Prop :=
| honest_none w b : honest accepts respond w b [] []
| honest_one w b c cs a rest before p after :
    Forall bytes (respond w (command_bytes c)) ->
    concat (respond w (command_bytes c)) = flat_map uart_frame (before ++ [p] ++ after) ->
    Forall (unrelated F V) before -> Forall (unrelated F V) after ->
    answered F V (command_opcode c) a p ->
    (status_in p = 0 <-> accepts b (command_opcode c, command_params c) = true) ->
    honest accepts respond (w ++ command_bytes c) (b ++ [(command_opcode c, command_params c)]) cs rest ->
    honest accepts respond w b (c :: cs) (a :: rest).

(** ** The host

    It looks at the status in the answers. *)
Definition status_returned (r : return_parameters V) : option (status (VStatus V)) :=
  match r with
  | RetSpontaneous | RetVendor _ => None
  | RetSetEventMask s | RetReset s | RetLeSetEventMask s | RetLeSetRandomAddress s | RetLeSetAdvertisingParameters s
  | RetLeSetAdvertisingData s | RetLeSetScanResponseData s | RetLeSetAdvertiseEnable s | RetLeSetAdvertisingEnable s
  | RetLeSetScanParameters s | RetLeSetScanEnable s | RetLeCreateConnectionCancel s | RetLeReadWhiteListSize s _
  | RetLeClearWhiteList s | RetLeAddDeviceToWhiteList s | RetLeRemoveDeviceFromWhiteList s
  | RetLeSetHostChannelClassification s | RetLeReceiverTest s | RetLeTransmitterTest s => Some s
  | RetReadTxPowerLevel p => Some (txp_status p)
  | RetReadLocalVersionInformation p => Some (lvi_status p)
  | RetReadLocalSupportedCommands p => Some (lsc_status p)
  | RetReadLocalSupportedFeatures p => Some (lsf_status p)
  | RetReadBdAddr p => Some (rba_status p)
  | RetReadRssi p => Some (rssi_status p)
  | RetLeReadBufferSize p => Some (lbs_status p)
  | RetLeReadLocalSupportedFeatures p => Some (lef_status p)
  | RetLeReadAdvertisingChannelTxPower p => Some (lat_status p)
  | RetLeReadChannelMap p => Some (cmp_status p)
  | RetLeEncrypt p => Some (enc_status p)
  | RetLeRand p => Some (rnd_status p)
  | RetLeLongTermKeyRequestReply p | RetLeLongTermKeyRequestNegativeReply p => Some (ltkr_status p)
  | RetLeReadSupportedStates p => Some (lrs_status p)
  | RetLeTestEnd p => Some (lte_status p)
  end.
Definition confirms (a : answer V) : bool :=
  match (match a with Completed r => status_returned r | Accepted s => Some s end) with
  | Some Success => true
  | _ => false
  end.
(** The commands for which it has an answer that says so. *)
Definition confirmed (cs : list (command V)) (answers : list (option (answer V))) : list (command V) :=
  flat_map (fun x => match snd x with Some a => if confirms a then [fst x] else [] | None => [] end) (combine cs answers).
End Answers.
Arguments confirms {V}.
Arguments confirmed {V}.
