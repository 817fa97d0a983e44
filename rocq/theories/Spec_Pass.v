(** * Values passed on from events to commands (specification). *)
From Verif Require Import Base Model_Types Model_EventBase Model_Command Model_Event Model_Host
  Spec_Wire Spec_Errors Spec_Host.
Open Scope list_scope.
Open Scope N_scope.

(** [n] bytes of [p] from position [i] on. *)
Definition slice (i n : nat) (p : list N) : list N := firstn n (skipn i p).

(** ** Connection handles *)

(** The handle in an event, if there is just one. *)
Definition return_handle {V} (r : return_parameters V) : option N :=
  match r with
  | RetReadTxPowerLevel p => Some (txp_conn_handle p)
  | RetReadRssi p => Some (rssi_conn_handle p)
  | RetLeReadChannelMap p => Some (cmp_conn_handle p)
  | RetLeLongTermKeyRequestReply p | RetLeLongTermKeyRequestNegativeReply p =>
      Some (ltkr_conn_handle p)
  | _ => None
  end.
Definition event_handle {V} (ev : event V) : option N :=
  match ev with
  | EvConnectionComplete e => Some (cnc_conn_handle e)
  | EvDisconnectionComplete e => Some (dsc_conn_handle e)
  | EvEncryptionChange e => Some (ech_conn_handle e)
  | EvReadRemoteVersionInformationComplete e => Some (rvi_conn_handle e)
  | EvCommandComplete e => return_handle (cc_return_params e)
  | EvEncryptionKeyRefreshComplete e => Some (ekr_conn_handle e)
  | EvLeConnectionComplete e => Some (lcc_conn_handle e)
  | EvLeConnectionUpdateComplete e => Some (lcu_conn_handle e)
  | EvLeReadRemoteUsedFeaturesComplete e => Some (lrf_conn_handle e)
  | EvLeLongTermKeyRequest e => Some (ltk_conn_handle e)
  | EvLeDataLengthChangeEvent e => Some (dlc_conn_handle e)
  | EvLePhyUpdateComplete e => Some (lpu_conn_handle e)
  | _ => None
  end.

(** Where the specification puts it: after the status, where there is one.  The
    packet starts with code and length; LE events go on with the subevent code,
    Command Complete with a count and the opcode. *)
Definition handle_place (pkt : list N) : nat :=
  match at_ pkt 0 with
  | 0x3E => match at_ pkt 2 with 0x05 | 0x07 => 3%nat | _ => 4%nat end
  | 0x0E => 6%nat
  | _ => 3%nat
  end.

(** The handle given to a command; the parameters start with it. *)
Definition command_handle {V} (c : command V) : option N :=
  match c with
  | CDisconnect h _ | CReadRemoteVersionInformation h | CReadTxPowerLevel h _ | CReadRssi h
  | CLeReadChannelMap h | CLeReadRemoteUsedFeatures h | CLeLongTermKeyRequestReply h _
  | CLeLongTermKeyRequestNegativeReply h => Some h
  | CLeConnectionUpdate p => Some (cu_conn_handle p)
  | CLeStartEncryption p => Some (enc_conn_handle p)
  | _ => None
  end.

(** ** Device addresses *)

(** The commands that name a device by its kind of address and address, with the
    position of the two in the parameters. *)
Definition command_device {V} (c : command V) : option (bd_addr_type * nat) :=
  match c with
  | CLeAddDeviceToWhiteList a | CLeRemoveDeviceFromWhiteList a => Some (a, 0%nat)
  | CLeSetAdvertisingParameters p => Some (ap_peer_address p, 6%nat)
  | CLeCreateConnection p =>
      match cp_initiator_filter_policy p, cp_peer_address p with
      | UseAddress, PublicDeviceAddress x => Some (BdPublic x, 5%nat)
      | UseAddress, RandomDeviceAddress x => Some (BdRandom x, 5%nat)
      | _, _ => None
      end
  | _ => None
  end.

(** ** Keys and blocks of 16 bytes given to a command, with their position *)
Definition command_blocks {V} (c : command V) : list (list N * nat) :=
  match c with
  | CLeEncrypt p => [(aes_key p, 0%nat); (aes_plaintext_data p, 16%nat)]
  | CLeStartEncryption p => [(enc_long_term_key p, 12%nat)]
  | CLeLongTermKeyRequestReply _ key => [(key, 2%nat)]
  | _ => []
  end.

(** ** Encryption

    What the controller of a peripheral tells its host when the central starts
    encryption with the parameters [started] (Vol 6, Part B, 5.1.3.1: random
    number and diversifier go over the air): its own handle for the connection,
    then the random number and the diversifier. *)
Definition key_request (own_handle : N) (started : list N) : list N :=
  [0x3E; 13; 0x05] ++ le 2 own_handle ++ slice 2 8 started ++ slice 10 2 started.

(** ** Disconnection

    What the other side is told about a disconnection with the parameters
    [asked]: its own handle for the connection and the reason. *)
Definition disconnected (own_handle : N) (asked : list N) : list N :=
  [0x05; 4; 0x00] ++ le 2 own_handle ++ slice 2 1 asked.
