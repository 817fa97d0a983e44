(** * What a host learns about controllers and peers (specification). *)
From Coq Require Import ZArith.
From Verif Require Import Base Model_Types Model_Intervals Model_EventBase Model_Command Model_Event Model_Host
  Spec_Wire Spec_Errors Spec_Conform Spec_Pass Spec_Follow.
Open Scope list_scope.
Open Scope N_scope.

(** What can be learnt, in numbers. *)
Inductive fact :=
  (* about a connection, by its handle *)
| PeerVersion (h version manufacturer subversion : N)
| PeerFeatures (h : N) (features : list N)
| DataLength (h max_tx_octets max_tx_time max_rx_octets max_rx_time : N)
| TransmitPower (h : N) (dbm : Z)
| SignalStrength (h : N) (dbm : Z)
| ChannelsUsed (h : N) (channels : list N)
| ConnectionGone (h : N)
  (* about the controller *)
| Version (hci_version hci_revision lmp_version manufacturer lmp_subversion : N)
| Features (features : list N)
| LeFeatures (features : list N)
| LeStates (states : list N)
| Address (a : list N)
| Buffers (length count : N)
| AdvertisingPower (dbm : Z)
| WhiteListSize (n : N)
| AllGone
  (* results of computations *)
| Ciphertext (data : list N)
| Random (n : N)
| TestedPackets (n : N).

(** The numbers below [n] with the property. *)
Definition which (n : nat) (p : N -> bool) : list N := filter p (map N.of_nat (seq 0 n)).
(** An octet as a signed number. *)
Definition signed_value (b : N) : Z := if b <? 128 then Z.of_N b else (Z.of_N b - 256)%Z.

(** ** The controller

    What a packet tells, from its octets (Vol 2, Part E, 7.7 and the commands).
    Return parameters begin with the status at octet 5.  A feature bit that the
    enabled versions do not define has no meaning. *)
Definition answer (ogf ocf : N) (pkt : list N) : bool :=
  (at_ pkt 0 =? 0x0E) && (u16_le pkt 3 =? hci_opcode ogf ocf) && (at_ pkt 5 =? 0x00).
Definition bits_at (i n : nat) (defined : N -> bool) (pkt : list N) : list N :=
  which (8 * n) (fun k => array_bit (slice i n pkt) k && defined k).
Definition told (F : features) (pkt : list N) : list fact :=
  if (at_ pkt 0 =? 0x05) && (at_ pkt 2 =? 0x00) then [ConnectionGone (u16_le pkt 3)]
  else if (at_ pkt 0 =? 0x0C) && (at_ pkt 2 =? 0x00) then
    [PeerVersion (u16_le pkt 3) (at_ pkt 5) (u16_le pkt 6) (u16_le pkt 8)]
  else if le_success 0x04 pkt then [PeerFeatures (u16_le pkt 4) (bits_at 6 8 (le_feature_defined F) pkt)]
  else if (at_ pkt 0 =? 0x3E) && (at_ pkt 2 =? 0x07) then
    [DataLength (u16_le pkt 3) (u16_le pkt 5) (u16_le pkt 7) (u16_le pkt 9) (u16_le pkt 11)]
  else if answer 0x03 0x003 pkt then [AllGone]
  else if answer 0x03 0x02D pkt then [TransmitPower (u16_le pkt 6) (signed_value (at_ pkt 8))]
  else if answer 0x04 0x001 pkt then
    [Version (at_ pkt 6) (u16_le pkt 7) (at_ pkt 9) (u16_le pkt 10) (u16_le pkt 12)]
  else if answer 0x04 0x003 pkt then [Features (bits_at 6 8 lmp_feature_defined pkt)]
  else if answer 0x04 0x009 pkt then [Address (slice 6 6 pkt)]
  else if answer 0x05 0x005 pkt then [SignalStrength (u16_le pkt 6) (signed_value (at_ pkt 8))]
  else if answer 0x08 0x002 pkt then [Buffers (u16_le pkt 6) (at_ pkt 8)]
  else if answer 0x08 0x003 pkt then [LeFeatures (bits_at 6 8 (le_feature_defined F) pkt)]
  else if answer 0x08 0x007 pkt then [AdvertisingPower (signed_value (at_ pkt 6))]
  else if answer 0x08 0x00F pkt then [WhiteListSize (at_ pkt 6)]
  else if answer 0x08 0x015 pkt then [ChannelsUsed (u16_le pkt 6) (bits_at 8 5 channel_defined pkt)]
  else if answer 0x08 0x017 pkt then [Ciphertext (slice 6 16 pkt)]
  else if answer 0x08 0x018 pkt then [Random (number_le (slice 6 8 pkt))]
  else if answer 0x08 0x01C pkt then [LeStates (bits_at 6 8 le_state_defined pkt)]
  else if answer 0x08 0x01F pkt then [TestedPackets (u16_le pkt 6)]
  else [].

(** ** The host

    What an application notes down from an event it reads. *)
Definition if_success {VS} (s : status VS) (f : fact) : list fact :=
  match s with Success => [f] | _ => [] end.
Definition set_bits (n : nat) (v : N) : list N := which n (N.testbit v).
Definition noted_return {V} (r : return_parameters V) : list fact :=
  match r with
  | RetReset s => if_success s AllGone
  | RetReadTxPowerLevel p => if_success (txp_status p) (TransmitPower (txp_conn_handle p) (txp_dbm p))
  | RetReadLocalVersionInformation p =>
      if_success (lvi_status p)
        (Version (lvi_hci_version p) (lvi_hci_revision p) (lvi_lmp_version p) (lvi_manufacturer_name p)
           (lvi_lmp_subversion p))
  | RetReadLocalSupportedFeatures p => if_success (lsf_status p) (Features (set_bits 64 (lsf_features p)))
  | RetReadBdAddr p => if_success (rba_status p) (Address (rba_bd_addr p))
  | RetReadRssi p => if_success (rssi_status p) (SignalStrength (rssi_conn_handle p) (rssi_rssi p))
  | RetLeReadBufferSize p =>
      if_success (lbs_status p) (Buffers (lbs_data_packet_length p) (lbs_data_packet_count p))
  | RetLeReadLocalSupportedFeatures p => if_success (lef_status p) (LeFeatures (set_bits 64 (lef_features p)))
  | RetLeReadAdvertisingChannelTxPower p => if_success (lat_status p) (AdvertisingPower (lat_power p))
  | RetLeReadWhiteListSize s n => if_success s (WhiteListSize n)
  | RetLeReadChannelMap p =>
      if_success (cmp_status p) (ChannelsUsed (cmp_conn_handle p) (which 40 (array_bit (cmp_channel_map p))))
  | RetLeEncrypt p => if_success (enc_status p) (Ciphertext (enc_data p))
  | RetLeRand p => if_success (rnd_status p) (Random (rnd_number p))
  | RetLeReadSupportedStates p => if_success (lrs_status p) (LeStates (set_bits 64 (lrs_states p)))
  | RetLeTestEnd p => if_success (lte_status p) (TestedPackets (lte_number_of_packets p))
  | _ => []
  end.
Definition noted {V} (ev : event V) : list fact :=
  match ev with
  | EvDisconnectionComplete e => if_success (dsc_status e) (ConnectionGone (dsc_conn_handle e))
  | EvReadRemoteVersionInformationComplete e =>
      if_success (rvi_status e)
        (PeerVersion (rvi_conn_handle e) (rvi_version e) (rvi_mfgr_name e) (rvi_subversion e))
  | EvLeReadRemoteUsedFeaturesComplete e =>
      if_success (lrf_status e) (PeerFeatures (lrf_conn_handle e) (set_bits 64 (lrf_features e)))
  | EvLeDataLengthChangeEvent e =>
      [DataLength (dlc_conn_handle e) (dlc_max_tx_octets e) (dlc_max_tx_time e) (dlc_max_rx_octets e)
         (dlc_max_rx_time e)]
  | EvCommandComplete e => noted_return (cc_return_params e)
  | _ => []
  end.

(** A record that an application keeps: what it noted, but for what is gone. *)
Definition about_connection (f : fact) : option N :=
  match f with
  | PeerVersion h _ _ _ | PeerFeatures h _ | DataLength h _ _ _ _ | TransmitPower h _ | SignalStrength h _
  | ChannelsUsed h _ => Some h
  | _ => None
  end.
Definition keep (fs : list fact) (f : fact) : list fact :=
  match f with
  | ConnectionGone h =>
      filter (fun g => match about_connection g with Some h' => negb (h' =? h) | None => true end) fs
  | AllGone => []
  | _ => f :: fs
  end.

(** A fact proper, and the packets that end it. *)
Definition lasting (f : fact) : Prop :=
  match f with ConnectionGone _ | AllGone => False | _ => True end.
Definition ended_by (F : features) (f : fact) (pkt : list N) : Prop :=
  In AllGone (told F pkt) \/ exists h, about_connection f = Some h /\ In (ConnectionGone h) (told F pkt).
