(** * Enabled versions. *)
From Verif Require Import Base Model_Types Model_Bitflags Model_Intervals Model_EventBase Model_Command
  Model_Event Spec_Wire Spec_Errors Spec_Report Spec_Versions
  Proofs_Base Proofs_Bits Proofs_Event Proofs_Errors Proofs_Report Proofs_Command Proofs_Complete Proofs_Panic.

Section Newer.
Context (F F' : features) (V : vendor) (HN : newer F F').

Lemma assigned_newer b (s : status (VStatus V)) :
  nth_error (assigned_statuses F) b = Some s -> nth_error (assigned_statuses F') b = Some s.
Proof using HN.
  destruct HN as [_ H5]. unfold assigned_statuses.
  destruct (version_5_0 F); [now rewrite (H5 eq_refl)|].
  intros H. rewrite app_nil_r in H. rewrite nth_error_app1; [exact H|].
  apply nth_error_Some. congruence.
Qed.

Lemma status_rereads b s : byte b -> status_byte F V b s ->
  exists s', status_byte F' V b s' /\ status_reread F F' V s s'.
Proof using HN.
  intros Hb H. enough (exists s', status_byte F' V b s') as (s' & H') by (exists s'; split; [|exists b]; auto).
  unfold status_byte in *. destruct (nth_error (assigned_statuses F) (N.to_nat b)) as [s0|] eqn:E.
  - apply assigned_newer in E. rewrite E. eauto.
  - destruct H as (v & Hv & ->). destruct (nth_error (assigned_statuses F') (N.to_nat b)); eauto.
Qed.

(** The status changes at most for 41-44, from the vendor's. *)
Lemma reread_same s s' : status_reread F F' V s s' ->
  s' = s
  \/ version_5_0 F = false /\ version_5_0 F' = true
     /\ exists b v, vstatus_try_from V b = Ok v /\ s = Vendor v
          /\ In (b, s') [(0x41, Type0SubmapNotDefined); (0x42, UnknownAdvertisingId);
                         (0x43, LimitReached); (0x44, OperationCancelledByHost)].
Proof using HN.
  intros (b & Hb & H & H'). unfold status_byte in *.
  destruct (nth_error (assigned_statuses F) (N.to_nat b)) as [s0|] eqn:E.
  - apply assigned_newer in E. rewrite E in H'. left. congruence.
  - destruct H as (v & Hv & ->). destruct (nth_error (assigned_statuses F') (N.to_nat b)) as [s1|] eqn:E'.
    + subst s1. right. destruct HN as [_ H5]. unfold assigned_statuses in E, E'.
      destruct (version_5_0 F), (version_5_0 F'); try specialize (H5 eq_refl); try congruence.
      split; [reflexivity|]. split; [reflexivity|]. exists b, v. split; [exact Hv|]. split; [reflexivity|].
      rewrite app_nil_r in E. apply nth_error_None in E. cbn [length] in E.
      assert (Hlt : (N.to_nat b < 69)%nat)
        by (change 69%nat with (length (A := status (VStatus V))
              (@assigned_statuses (VStatus V) {| version_4_2 := true; version_5_0 := true |}));
            apply nth_error_Some; unfold assigned_statuses; cbn [version_5_0];
            intros K; rewrite K in E'; discriminate).
      assert (Hc : b = 0x41 \/ b = 0x42 \/ b = 0x43 \/ b = 0x44) by lia.
      destruct Hc as [-> |[-> |[-> | ->]]]; vm_compute in E'; injection E' as <-; cbn; tauto.
    + destruct H' as (v' & Hv' & ->). left. congruence.
Qed.

Lemma only_defined_newer (d d' : N -> bool) bit : (forall i, d i = true -> d' i = true) ->
  only_defined d bit -> only_defined d' bit.
Proof. unfold only_defined. auto. Qed.

Lemma le_feature_newer i : le_feature_defined F i = true -> le_feature_defined F' i = true.
Proof using HN.
  destruct HN as [H4 H5]. unfold le_feature_defined.
  destruct (version_4_2 F), (version_5_0 F), (version_4_2 F'), (version_5_0 F'); cbn in *;
    try specialize (H4 eq_refl); try specialize (H5 eq_refl); try discriminate;
    rewrite ?Bool.orb_true_iff, ?N.leb_le; intuition (try discriminate); lia.
Qed.

Lemma command_bit_newer i : command_bit_defined F i = true -> command_bit_defined F' i = true.
Proof using HN.
  destruct HN as [H4 H5]. unfold command_bit_defined.
  set (k := N.to_nat (i / 8)).
  assert (K : forall m m', nth_error (command_octets F) k = Some m -> nth_error (command_octets F') k = Some m' ->
             N.land m m' = m).
  { assert (A : forallb (fun x => N.eqb (N.land (fst x) (snd x)) (fst x))
               (combine (command_octets F) (command_octets F')) = true).
    { unfold command_octets.
      destruct (version_4_2 F), (version_5_0 F), (version_4_2 F'), (version_5_0 F'); cbn in *;
        try specialize (H4 eq_refl); try specialize (H5 eq_refl); try discriminate; reflexivity. }
    intros m m' E E'. rewrite forallb_forall in A.
    assert (I : In (m, m') (combine (command_octets F) (command_octets F'))).
    { apply nth_error_In with k. rewrite nth_error_combine, E, E'. reflexivity. }
    apply A in I. now apply N.eqb_eq in I. }
  destruct (nth_error (command_octets F) k) as [m|] eqn:E; [|discriminate].
  destruct (nth_error (command_octets F') k) as [m'|] eqn:E'.
  - specialize (K m m' eq_refl eq_refl). rewrite <- K, N.land_spec.
    now intros [_ H]%andb_prop.
  - apply nth_error_None in E'. rewrite command_octets_length in E'.
    assert (nth_error (command_octets F) k <> None) by congruence.
    apply nth_error_Some in H. rewrite command_octets_length in H. lia.
Qed.

Ltac reread H :=
  lazymatch type of H with
  | status_first _ _ _ ?ret =>
      let sb := fresh "sb" in let rest := fresh "rest" in let Hs := fresh "Hs" in
      destruct H as (sb & rest & Hs & ->)
  | status_then _ _ _ _ ?ret =>
      let sb := fresh "sb" in let Hs := fresh "Hs" in
      destruct H as (sb & Hs & ->)
  end; bytes_inv;
  match goal with
  | Hb : byte ?b, Hs : status_byte F V ?b _ |- _ =>
      let s' := fresh "s'" in let Hs' := fresh "Hs'" in let Hr := fresh "Hr" in
      destruct (status_rereads _ _ Hb Hs) as (s' & Hs' & Hr)
  end.

Ltac closes sb :=
  cbn; repeat first [eassumption | exists sb; split; [eassumption|reflexivity] | split].

Ltac closes2 sb rest :=
  cbn; repeat first [eassumption | exists sb, rest; split; [eassumption|reflexivity] | split].

Lemma return_rereads r op ret : bytes ret -> wire_return F V r op ret ->
  exists r', wire_return F' V r' op ret /\ return_reread F F' V r r'.
Proof using HN.
  intros Hb H. destruct r; cbn [wire_return] in H;
    try (destruct H as [Ho H]; reread H;
         (let c := lazymatch goal with |- exists _, _ /\ return_reread _ _ _ (?c _) _ => c end in
          exists (c s'));
         split; [split; [assumption|]; exists sb, rest; auto|exact Hr]).
  - exists RetSpontaneous. split; [exact H|exact I].
  - destruct p. destruct H as (Ho & H1 & H2 & H). cbn in *. reread H.
    exists (RetReadTxPowerLevel (Build_tx_power_level s' txp_conn_handle txp_dbm)).
    split; [|cbn; auto]. closes sb.
  - destruct p. destruct H as (Ho & H1 & H2 & H3 & H). cbn in *. reread H.
    exists (RetReadLocalVersionInformation (Build_local_version_info s' lvi_hci_version lvi_hci_revision
              lvi_lmp_version lvi_manufacturer_name lvi_lmp_subversion)).
    split; [|cbn; auto 10]. closes sb.
  - destruct p. destruct H as (Ho & H1 & H2 & H). cbn in *. reread H.
    exists (RetReadLocalSupportedCommands (Build_local_supported_commands s' lsc_commands)).
    split; [|cbn; auto 10]. cbn. split; [exact Ho|]. split; [exact H1|]. split.
    + eapply only_defined_newer; [apply command_bit_newer|exact H2].
    + exists sb; auto.
  - destruct p. destruct H as (Ho & v & H1 & H2 & H). cbn in *. reread H.
    exists (RetReadLocalSupportedFeatures (Build_local_supported_features s' lsf_features)).
    split; [|cbn; auto 10]. cbn. split; [exact Ho|]. exists v. closes sb.
  - destruct p. destruct H as (Ho & H1 & H). cbn in *. reread H.
    exists (RetReadBdAddr (Build_read_bd_addr_params s' rba_bd_addr)).
    split; [|cbn; auto 10]. closes sb.
  - destruct p. destruct H as (Ho & H1 & H2 & H). cbn in *. reread H.
    exists (RetReadRssi (Build_read_rssi_params s' rssi_conn_handle rssi_rssi)).
    split; [|cbn; auto 10]. closes sb.
  - destruct p. destruct H as (Ho & H1 & H). cbn in *. reread H.
    exists (RetLeReadBufferSize (Build_le_read_buffer_size_params s' lbs_data_packet_length lbs_data_packet_count)).
    split; [|cbn; auto 10]. closes sb.
  - destruct p. destruct H as (Ho & v & H1 & H2 & H). cbn in *. reread H.
    destruct (masked_exists v (le_feature_defined F') H1) as (w & Hw).
    exists (RetLeReadLocalSupportedFeatures (Build_le_supported_features s' w)).
    split.
    + cbn. split; [exact Ho|]. exists v. closes sb.
    + cbn. split; [exact Hr|]. intros i. rewrite H2, Hw.
      pose proof (le_feature_newer i).
      destruct (N.testbit v i), (le_feature_defined F i), (le_feature_defined F' i); cbn; auto; symmetry; auto.
  - destruct p. destruct H as (Ho & H1 & H). cbn in *. reread H.
    exists (RetLeReadAdvertisingChannelTxPower (Build_le_advertising_channel_tx_power s' lat_power)).
    split; [|cbn; auto 10]. closes sb.
  - destruct H as (Hv & Ho & H). reread H. destruct (version_5_0 F') eqn:E5.
    + exists (RetLeSetAdvertisingEnable s'). 
      split; [|cbn; auto]. closes2 sb rest.
    + exists (RetLeSetAdvertiseEnable s'). split; [|exact Hr]. closes2 sb rest.
  - destruct H as (Hv & Ho & H). reread H. destruct HN as [_ H5].
    exists (RetLeSetAdvertisingEnable s'). split; [|exact Hr]. specialize (H5 Hv). closes2 sb rest.
  - destruct H as (Ho & sb & rest & Hs & ->). bytes_inv.
    destruct (status_rereads sb s ltac:(assumption) Hs) as (s' & Hs' & Hr).
    exists (RetLeReadWhiteListSize s' size). split; [|cbn; auto]. closes2 sb rest.
  - destruct p. destruct H as (Ho & H1 & H2 & H3 & H). cbn in *. reread H.
    exists (RetLeReadChannelMap (Build_channel_map_parameters s' cmp_conn_handle cmp_channel_map)).
    split; [|cbn; auto 10]. closes sb.
  - destruct p. destruct H as (Ho & H1 & H). cbn in *. reread H.
    exists (RetLeEncrypt (Build_encrypted_return_parameters s' enc_data)).
    split; [|cbn; auto 10]. closes sb.
  - destruct p. destruct H as (Ho & H1 & H). cbn in *. reread H.
    exists (RetLeRand (Build_le_random s' rnd_number)).
    split; [|cbn; auto 10]. closes sb.
  - destruct p. destruct H as (Ho & H1 & H). cbn in *. reread H.
    exists (RetLeLongTermKeyRequestReply (Build_le_ltk_request_reply s' ltkr_conn_handle)).
    split; [|cbn; auto 10]. closes sb.
  - destruct p. destruct H as (Ho & H1 & H). cbn in *. reread H.
    exists (RetLeLongTermKeyRequestNegativeReply (Build_le_ltk_request_reply s' ltkr_conn_handle)).
    split; [|cbn; auto 10]. closes sb.
  - destruct p. destruct H as (Ho & H1 & H2 & H). cbn in *. reread H.
    exists (RetLeReadSupportedStates (Build_le_read_supported_states_params s' lrs_states)).
    split; [|cbn; auto 10]. closes sb.
  - destruct p. destruct H as (Ho & H1 & H). cbn in *. reread H.
    exists (RetLeTestEnd (Build_le_test_end_params s' lte_number_of_packets)).
    split; [|cbn; auto 10]. closes sb.
  - destruct H.
Qed.

Ltac status_of_packet :=
  match goal with
  | Hs : status_byte F V ?b _ |- _ =>
      let s' := fresh "s'" in let Hs' := fresh "Hs'" in let Hr := fresh "Hr" in
      destruct (status_rereads b _ ltac:(assumption) Hs) as (s' & Hs' & Hr); clear Hs
  end.

Lemma event_rereads pkt ev : bytes pkt -> event_new F V pkt = Ok ev ->
  exists ev', event_new F' V pkt = Ok ev' /\ event_reread F F' V ev ev'.
Proof using HN.
  intros Hb H. destruct ev.
  - destruct e as [s h a lt en]. apply (connection_complete_packet F V) in H; [|exact Hb].
    destruct H as (sb & Hs & H1 & H2 & ->). assert (byte sb) by (cbn [app] in Hb; bytes_inv; assumption).
    status_of_packet. eexists. split.
    + apply (connection_complete_packet F' V); [exact Hb|]. exists sb. repeat split; eassumption.
    + exists s'. auto.
  - destruct e as [s h r]. apply (disconnection_complete_packet F V) in H; [|exact Hb].
    destruct H as (sb & rb & Hs & H1 & Hrs & ->).
    assert (byte sb /\ byte rb) as [Hsb Hrb] by (rewrite le_2 in Hb; cbn [app] in Hb; bytes_inv; auto).
    status_of_packet. status_of_packet. eexists. split.
    + apply (disconnection_complete_packet F' V); [exact Hb|]. exists sb, rb. repeat split; eassumption.
    + eexists _, _. split; [|split; [|reflexivity]]; assumption.
  - destruct e as [s h en]. apply (encryption_change_packet F V) in H; [|exact Hb].
    destruct H as (sb & Hs & H1 & ->). assert (byte sb) by (cbn [app] in Hb; bytes_inv; assumption).
    status_of_packet. eexists. split.
    + apply (encryption_change_packet F' V); [exact Hb|]. exists sb. repeat split; eassumption.
    + exists s'. auto.
  - destruct e as [s h v m sv]. apply (remote_version_packet F V) in H; [|exact Hb].
    destruct H as (sb & Hs & H1 & H2 & H3 & ->). assert (byte sb) by (cbn [app] in Hb; bytes_inv; assumption).
    status_of_packet. eexists. split.
    + apply (remote_version_packet F' V); [exact Hb|]. exists sb. repeat split; eassumption.
    + exists s'. auto.
  - destruct e as [n r]. apply (command_complete_dispatch_iff F V) in H; [|exact Hb].
    destruct H as (op & ret & Hop & -> & [Hw|(v & H1 & H2 & ->)]).
    + destruct (return_rereads r op ret) as (r' & Hw' & Hr').
      { cbn [app] in Hb. rewrite le_2 in Hb. cbn [app] in Hb. bytes_inv. assumption. }
      { exact Hw. }
      exists (EvCommandComplete (Build_command_complete n r')). split; [|cbn; auto].
      apply (command_complete_dispatch_iff F' V); [exact Hb|]. eauto 6.
    + exists (EvCommandComplete (Build_command_complete n (RetVendor v))). split; [|cbn; auto].
      apply (command_complete_dispatch_iff F' V); [exact Hb|]. eauto 10.
  - destruct e as [s n o]. apply (command_status_packet F V) in H; [|exact Hb].
    destruct H as (sb & Hs & H1 & ->). assert (byte sb) by (cbn [app] in Hb; bytes_inv; assumption).
    status_of_packet. eexists. split.
    + apply (command_status_packet F' V); [exact Hb|]. exists sb. repeat split; eassumption.
    + exists s'. auto.
  - exists (EvHardwareError e). split; [|reflexivity]. apply event_new_ok in H.
    destruct H as (c & p & -> & H). apply dispatch_ok in H. destruct H as [-> H].
    apply event_new_ok. exists 0x10, p. split; [reflexivity|]. apply wrap_ok. eauto.
  - exists (EvNumberOfCompletedPackets e). split; [|reflexivity]. apply event_new_ok in H.
    destruct H as (c & p & -> & H). apply dispatch_ok in H. destruct H as [-> H].
    apply event_new_ok. exists 0x13, p. split; [reflexivity|]. apply wrap_ok. eauto.
  - exists (EvDataBufferOverflow e). split; [|reflexivity]. apply event_new_ok in H.
    destruct H as (c & p & -> & H). apply dispatch_ok in H. destruct H as [-> H].
    apply event_new_ok. exists 0x1A, p. split; [reflexivity|]. apply wrap_ok. eauto.
  - destruct e as [s h]. apply (encryption_key_refresh_packet F V) in H; [|exact Hb].
    destruct H as (sb & Hs & H1 & ->). assert (byte sb) by (cbn [app] in Hb; bytes_inv; assumption).
    status_of_packet. eexists. split.
    + apply (encryption_key_refresh_packet F' V); [exact Hb|]. exists sb. repeat split; eassumption.
    + exists s'. auto.
  - destruct e as [s h role peer ci acc]. apply (le_connection_complete_packet F V) in H; [|exact Hb].
    destruct H as (sb & iv & Hs & H1 & H2 & H3 & ->).
    assert (byte sb) by (cbn [app] in Hb; bytes_inv; assumption).
    status_of_packet. eexists. split.
    + apply (le_connection_complete_packet F' V); [exact Hb|]. exists sb, iv. repeat split; eassumption.
    + exists s'. auto.
  - exists (EvLeAdvertisingReport e). split; [|reflexivity]. apply event_new_ok in H.
    destruct H as (c & p & -> & H). apply dispatch_ok in H. destruct H as [-> H].
    apply meta_ok in H. destruct H as (c & rest & -> & -> & H).
    apply event_new_ok. exists 0x3E, (0x02 :: rest). split; [reflexivity|].
    change (to_le_meta_event F' V (0x02 :: rest) = Ok (EvLeAdvertisingReport e)).
    rewrite meta_cons. apply wrap_ok. eauto.
  - destruct e as [s h ci]. apply (le_connection_update_packet F V) in H; [|exact Hb].
    destruct H as (sb & iv & Hs & H1 & H2 & ->).
    assert (byte sb) by (cbn [app] in Hb; bytes_inv; assumption).
    status_of_packet. eexists. split.
    + apply (le_connection_update_packet F' V); [exact Hb|]. exists sb, iv. repeat split; eassumption.
    + exists s'. auto.
  - destruct e as [s h fe]. apply (le_used_features_packet F V) in H; [|exact Hb].
    destruct H as (sb & Hs & H1 & H2 & H3 & ->).
    assert (byte sb) by (cbn [app] in Hb; bytes_inv; assumption).
    status_of_packet. eexists. split.
    + apply (le_used_features_packet F' V); [exact Hb|]. exists sb. repeat split; try eassumption.
      eapply only_defined_newer; [apply le_feature_newer|exact H3].
    + exists s'. auto.
  - exists (EvLeLongTermKeyRequest e). split; [|reflexivity]. apply event_new_ok in H.
    destruct H as (c & p & -> & H). apply dispatch_ok in H. destruct H as [-> H].
    apply meta_ok in H. destruct H as (c & rest & -> & -> & H).
    apply event_new_ok. exists 0x3E, (0x05 :: rest). split; [reflexivity|].
    change (to_le_meta_event F' V (0x05 :: rest) = Ok (EvLeLongTermKeyRequest e)).
    rewrite meta_cons. apply wrap_ok. eauto.
  - exists (EvLeDataLengthChangeEvent e). split; [|reflexivity]. apply event_new_ok in H.
    destruct H as (c & p & -> & H). apply dispatch_ok in H. destruct H as [-> H].
    apply meta_ok in H. destruct H as (c & rest & -> & -> & H).
    apply event_new_ok. exists 0x3E, (0x07 :: rest). split; [reflexivity|].
    change (to_le_meta_event F' V (0x07 :: rest) = Ok (EvLeDataLengthChangeEvent e)).
    rewrite meta_cons. apply wrap_ok. eauto.
  - destruct e as [s h tx rx]. apply (le_phy_update_packet F V) in H; [|exact Hb].
    destruct H as (sb & Hs & H1 & ->).
    assert (byte sb) by (cbn [app] in Hb; bytes_inv; assumption).
    status_of_packet. eexists. split.
    + apply (le_phy_update_packet F' V); [exact Hb|]. exists sb. repeat split; eassumption.
    + exists s'. auto.
  - exists (EvVendor e). split; [|reflexivity]. apply event_new_ok in H.
    destruct H as (c & p & -> & H). apply dispatch_ok in H. destruct H as [-> H].
    apply event_new_ok. exists 0xFF, p. split; [reflexivity|]. apply wrap_ok. eauto.
Qed.

(** Panics are not cured either. *)
Lemma panic_rereads pkt : vendor_total V -> bytes pkt ->
  event_new F V pkt = Panic -> event_new F' V pkt = Panic.
Proof using HN.
  intros HV Hb H. apply (event_new_panic F V HV) in H; [|exact Hb].
  apply (event_new_panic F' V HV); [exact Hb|].
  destruct H as [n op Ho|n sb Hs| |count l tail Hl Ht].
  - now constructor.
  - constructor 2. unfold status_is in *.
    destruct (nth_error (@assigned_statuses (VStatus V) F) (N.to_nat sb)) eqn:E.
    + apply assigned_newer in E. now rewrite E.
    + destruct (nth_error (@assigned_statuses (VStatus V) F') (N.to_nat sb)); [reflexivity|exact Hs].
  - constructor.
  - now constructor.
Qed.

End Newer.

Lemma version_same F F' V pkt : same_version F F' -> event_new F V pkt = event_new F' V pkt.
Proof.
  intros [[H1 H2] [H3 H4]]. destruct F as [a b], F' as [a' b']. cbn in *.
  destruct a, b, a', b'; cbn in *;
    try (specialize (H1 eq_refl); discriminate); try (specialize (H2 eq_refl); discriminate);
    try (specialize (H3 eq_refl); discriminate); try (specialize (H4 eq_refl); discriminate);
    reflexivity.
Qed.
