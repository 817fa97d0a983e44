(** * Derived [Debug] texts can be read back: events, return parameters and errors. *)
From Verif Require Import Base Model_Types Model_Bitflags Model_FlagNames Model_Intervals Model_EventBase
  Model_Command Model_Event Model_Host Model_Debug Model_Log Spec_Wire Spec_Flags Spec_Debug Spec_Log
  Proofs_Base Proofs_Bits Proofs_FlagNames Proofs_Debug Proofs_LogText Proofs_LogFlags Proofs_LogTypes.
From Coq Require Import String Ascii.
Open Scope list_scope.
Open Scope N_scope.
Open Scope string_scope.

Definition plain_statuses {VS} : list (status VS) :=
  [Success; UnknownCommand; UnknownConnectionId; HardwareFailure; PageTimeout; AuthFailure;
   PinOrKeyMissing; OutOfMemory; ConnectionTimeout; ConnectionLimitExceeeded;
   SyncConnectionLimitExceeded; ConnectionAlreadyExists; CommandDisallowed; LimitedResources;
   ConnectionRejectedSecurity; UnacceptableBdAddr; AcceptTimeoutExceeded; UnsupportedFeature;
   InvalidParameters; RemoteTerminationByUser; RemoteTerminationLowResources; RemoteTerminationPowerOff;
   ConnectionTerminatedByHost; RepeatedAttempts; PairingNotAllowed; UnknownLmpPdu;
   UnsupportedRemoteFeature; ScoOffsetRejected; ScoIntervalRejected; ScoAirModeRejected;
   InvalidLmpParameters; UnspecifiedError; UnsupportedLmpParameterValue; RoleChangeNotAllowed;
   LmpResponseTimeout; LmpTransactionCollision; LmpPduNotAllowed; EncryptionModeNotAcceptable;
   LinkKeyCannotBeChanged; RequestedQosNotSupported; InstantPassed; PairingWithUnitKeyNotSupported;
   DifferentTransactionCollision; ReservedforFutureUse; QosUnacceptableParameter; QosRejected;
   ChannelClassificationNotSupported; InsufficientSecurity; ParameterOutOfMandatoryRange;
   ReservedForFutureUse49; RoleSwitchPending; ReservedForFutureUse51; ReservedSlotViolation;
   RoleSwitchFailed; ExtendedInquiryResponseTooLarge; SecureSimplePairingNotSupportedByHost;
   HostBusyPairing; ConnectionRejectedNoSuitableChannel; ControllerBusy;
   UnacceptableConnectionParameters; AdvertisingTimeout; ConnectionTerminatedMicFailure;
   ConnectionFailedToEstablish; MacConnectionFailed; CoarseClockAdjustmentRejectedDraggingAttempted;
   Type0SubmapNotDefined; UnknownAdvertisingId; LimitReached; OperationCancelledByHost].
Definition status_named {VS} (show : VS -> string) (n : string) : option (status VS) :=
  find (fun s => String.eqb n (fst (status_variant show s))) plain_statuses.
Lemma status_name {VS} (show : VS -> string) x :
  status_named show (fst (status_variant show x)) = match x with Vendor _ => None | x => Some x end.
Proof. destruct x; reflexivity. Qed.
Lemma status_names {VS} (show : VS -> string) x y :
  fst (status_variant show x) = fst (status_variant show y) ->
  x = y \/ exists a b, x = Vendor a /\ y = Vendor b.
Proof.
  intros H. assert (K := status_name show y). rewrite <- H, status_name in K. clear H.
  destruct x; destruct y; try discriminate K; try (left; congruence); right; eauto.
Qed.
Lemma status_word {VS} (show : VS -> string) x : wordy (fst (status_variant show x)) = true.
Proof. destruct x; reflexivity. Qed.
Lemma status_legible {VS} (show : VS -> string) : legible any show -> legible any (debug_status show).
Proof.
  intros L x y r r' _ _ C C' H. unfold debug_status in H.
  apply variant_split in H; [|apply status_word|apply status_word|exact C|exact C'].
  destruct H as [K H]. apply status_names in K. destruct K as [->|(a & b & -> & ->)].
  - apply sapp_inv in H. auto.
  - cbn [status_variant snd args_text concat] in H. rewrite !sapp_assoc in H. repeat peel H.
    split; congruence.
Qed.
Global Hint Resolve status_legible : legible.

Section Vendor.
Context (F : features) {V : vendor} (D : vendor_debug V) (HD : vendor_legible D).
Lemma legible_status : legible any (show_status D). Proof. apply HD. Qed.
Lemma legible_event : legible any (show_event D). Proof. apply HD. Qed.
Lemma legible_return : legible any (show_return D). Proof. apply HD. Qed.
Lemma legible_error : legible any (show_error D). Proof. apply HD. Qed.
Local Hint Resolve legible_status legible_event legible_return legible_error : legible.

Lemma connection_complete_legible : legible any (debug_connection_complete D).
Proof. unfold debug_connection_complete. struct_legible. Qed.
Lemma disconnection_complete_legible : legible any (debug_disconnection_complete D).
Proof. unfold debug_disconnection_complete. struct_legible. Qed.
Lemma encryption_change_legible : legible any (debug_encryption_change D).
Proof. unfold debug_encryption_change. struct_legible. Qed.
Lemma remote_version_legible : legible any (debug_remote_version_information D).
Proof. unfold debug_remote_version_information. struct_legible. Qed.
Lemma command_status_legible : legible any (debug_command_status D).
Proof. unfold debug_command_status. struct_legible. Qed.
Lemma hardware_error_legible : legible any debug_hardware_error.
Proof. unfold debug_hardware_error. struct_legible. Qed.
Lemma overflow_legible : legible any debug_data_buffer_overflow.
Proof. unfold debug_data_buffer_overflow. struct_legible. Qed.
Lemma key_refresh_legible : legible any (debug_encryption_key_refresh_complete D).
Proof. unfold debug_encryption_key_refresh_complete. struct_legible. Qed.
Lemma le_connection_complete_legible : legible any (debug_le_connection_complete D).
Proof. unfold debug_le_connection_complete. struct_legible. Qed.
Lemma update_complete_legible : legible any (debug_le_connection_update_complete D).
Proof. unfold debug_le_connection_update_complete. struct_legible. Qed.
Lemma used_features_legible :
  legible (fun e => within F LinkLayerFeature (lrf_features e)) (debug_le_read_remote_used_features_complete F D).
Proof.
  unfold debug_le_read_remote_used_features_complete. generalize (bitflags_legible F _ _ link_layer_names).
  generalize (debug_bitflags F LinkLayerFeature_names LinkLayerFeature) (within F LinkLayerFeature). intros show P L.
  struct_legible.
Qed.
Lemma key_request_legible : legible any debug_le_long_term_key_request.
Proof. unfold debug_le_long_term_key_request. struct_legible. Qed.
Lemma length_change_legible : legible any debug_le_data_length_change_event.
Proof. unfold debug_le_data_length_change_event. struct_legible. Qed.
Lemma phy_update_legible : legible any (debug_le_phy_update_complete D).
Proof. unfold debug_le_phy_update_complete. struct_legible. Qed.

Lemma tx_power_legible : legible any (debug_tx_power_level D).
Proof. unfold debug_tx_power_level. struct_legible. Qed.
Lemma version_info_legible : legible any (debug_local_version_info D).
Proof. unfold debug_local_version_info. struct_legible. Qed.
Lemma local_features_legible :
  legible (fun p => within F LmpFeatures (lsf_features p)) (debug_local_supported_features F D).
Proof.
  unfold debug_local_supported_features. generalize (bitflags_legible F _ _ lmp_names).
  generalize (debug_bitflags F LmpFeatures_names LmpFeatures) (within F LmpFeatures). intros show P L.
  struct_legible.
Qed.
Lemma read_bd_addr_legible : legible any (debug_read_bd_addr D).
Proof. unfold debug_read_bd_addr. struct_legible. Qed.
Lemma read_rssi_legible : legible any (debug_read_rssi D).
Proof. unfold debug_read_rssi. struct_legible. Qed.
Lemma buffer_size_legible : legible any (debug_le_read_buffer_size D).
Proof. unfold debug_le_read_buffer_size. struct_legible. Qed.
Lemma le_features_legible :
  legible (fun p => within F LeFeatures (lef_features p)) (debug_le_supported_features F D).
Proof.
  unfold debug_le_supported_features. generalize (bitflags_legible F _ _ le_names).
  generalize (debug_bitflags F LeFeatures_names LeFeatures) (within F LeFeatures). intros show P L.
  struct_legible.
Qed.
Lemma advertising_power_legible : legible any (debug_le_advertising_channel_tx_power D).
Proof. unfold debug_le_advertising_channel_tx_power. struct_legible. Qed.
Lemma channel_map_legible : legible any (debug_channel_map_parameters D).
Proof. unfold debug_channel_map_parameters, debug_tuple. struct_legible. Qed.
Lemma encrypted_block_legible : legible bytes debug_encrypted_block.
Proof.
  intros x y r r' Hx Hy C C' H. unfold debug_encrypted_block in H. rewrite !sapp_assoc in H.
  apply sapp_inv in H. apply hex_list_unambiguous in H; [|assumption|assumption].
  destruct H as [-> H]. apply sapp_inv, sapp_inv in H. auto.
Qed.
Local Hint Resolve encrypted_block_legible : legible.
Lemma encrypted_legible : legible (fun p => bytes (enc_data p)) (debug_encrypted_return_parameters D).
Proof. unfold debug_encrypted_return_parameters. struct_legible. Qed.
Lemma random_legible : legible any (debug_le_random D).
Proof. unfold debug_le_random. struct_legible. Qed.
Lemma key_reply_legible : legible any (debug_le_ltk_request_reply D).
Proof. unfold debug_le_ltk_request_reply. struct_legible. Qed.
Lemma states_legible :
  legible (fun p => within F LeStates (lrs_states p)) (debug_le_read_supported_states F D).
Proof.
  unfold debug_le_read_supported_states. generalize (bitflags_legible F _ _ states_names).
  generalize (debug_bitflags F LeStates_names LeStates) (within F LeStates). intros show P L.
  struct_legible.
Qed.
Lemma test_end_legible : legible any (debug_le_test_end D).
Proof. unfold debug_le_test_end. struct_legible. Qed.
Local Hint Resolve connection_complete_legible disconnection_complete_legible encryption_change_legible
  remote_version_legible command_status_legible hardware_error_legible overflow_legible key_refresh_legible
  le_connection_complete_legible update_complete_legible used_features_legible key_request_legible
  length_change_legible phy_update_legible tx_power_legible version_info_legible local_features_legible
  read_bd_addr_legible read_rssi_legible buffer_size_legible le_features_legible advertising_power_legible
  channel_map_legible encrypted_legible random_legible key_reply_legible states_legible test_end_legible : legible.

(** ** Errors *)
Lemma event_error_legible : legible any (debug_event_error D).
Proof. unfold debug_event_error. variant_legible. split; [f_equal; lia|reflexivity]. Qed.
Local Hint Resolve event_error_legible : legible.
Lemma uart_error_legible {E} (show : E -> string) : legible any show -> legible any (debug_uart_error D show).
Proof. intros L. unfold debug_uart_error. variant_legible. Qed.
Lemma link_error_legible {E} (show : E -> string) : legible any show -> legible any (debug_link_error D show).
Proof. intros L. unfold debug_link_error. variant_legible. Qed.
Lemma host_error_legible {E} (show : E -> string) : legible any show ->
  legible (fun e => forall c, e = HBadChannelMap c -> within F Channels c) (debug_host_error F D show).
Proof.
  intros L. unfold debug_host_error. generalize (channels_legible F).
  generalize (debug_channels F) (within F Channels). intros sh P Lc.
  variant_legible.
  - apply Lc in H; [|now apply H0|now apply H1|auto with closing|auto with closing].
    destruct H as [-> H]. apply sapp_inv in H. auto.
  - split; [f_equal; lia|reflexivity].
Qed.
End Vendor.
Global Hint Resolve legible_status legible_event legible_return legible_error connection_complete_legible disconnection_complete_legible encryption_change_legible
  remote_version_legible command_status_legible hardware_error_legible overflow_legible key_refresh_legible
  le_connection_complete_legible update_complete_legible used_features_legible key_request_legible
  length_change_legible phy_update_legible tx_power_legible version_info_legible local_features_legible
  read_bd_addr_legible read_rssi_legible buffer_size_legible le_features_legible advertising_power_legible
  channel_map_legible encrypted_legible random_legible key_reply_legible states_legible test_end_legible
  event_error_legible : legible.
