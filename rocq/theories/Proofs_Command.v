(** * Command Complete. *)
From Verif Require Import Base Model_Types Model_Bitflags Model_Intervals
  Model_EventBase Model_Command Model_Event Spec_Wire Spec_Interval Spec_Errors
  Proofs_Base Proofs_Bits Proofs_Interval Proofs_Event Proofs_Errors.

Section Command.
Context (F : features) (V : vendor).
Local Notation VE := (VError V).
Local Notation res := (outcome (event_error VE)).

Lemma command_complete_cons n o0 o1 ret :
  command_complete_new F V (n :: o0 :: o1 :: ret)
  = let! r := return_params_of F V (o0 + 256 * o1) (n :: o0 :: o1 :: ret) in
    Ok (Build_command_complete n r).
Proof. reflexivity. Qed.

Lemma command_complete_short p : (length p < 3)%nat ->
  command_complete_new F V p = Err (EBadLength (length p) 3).
Proof.
  intros H. unfold command_complete_new, require_len_at_least.
  destruct (Nat.ltb_spec (length p) 3); [reflexivity|lia].
Qed.

Lemma command_complete_ok p cc :
  command_complete_new F V p = Ok cc <->
  exists n o0 o1 ret, p = n :: o0 :: o1 :: ret
    /\ cc_num_hci_command_packets cc = n
    /\ return_params_of F V (o0 + 256 * o1) p = Ok (cc_return_params cc).
Proof.
  split.
  - intros H. destruct p as [|n [|o0 [|o1 ret]]];
      try (rewrite command_complete_short in H by (cbn; lia); discriminate).
    rewrite command_complete_cons in H. apply bind_ok in H. destruct H as (r & Hr & H).
    injection H as <-. exists n, o0, o1, ret. auto.
  - intros (n & o0 & o1 & ret & -> & Hn & Hr). rewrite command_complete_cons, Hr. cbn [bind].
    destruct cc; cbn in *; subst; reflexivity.
Qed.

(** ** Dispatch on the opcode *)
Lemma arm_cons {A} (decode : list N -> res A) mk n o0 o1 ret :
  arm V decode mk (n :: o0 :: o1 :: ret) = let! a := decode ret in Ok (mk a).
Proof. reflexivity. Qed.

Lemma arm_ok {A} (decode : list N -> res A) mk n o0 o1 ret r :
  arm V decode mk (n :: o0 :: o1 :: ret) = Ok r <-> exists a, decode ret = Ok a /\ r = mk a.
Proof.
  rewrite arm_cons, bind_ok. split; intros (a & H & K); exists a; (split; [exact H|]).
  - now injection K.
  - now rewrite K.
Qed.

(** The opcode and the decoder of each variant. *)
Definition decoded_as (r : return_parameters V) (op : N) (ret : list N) : Prop :=
  match r with
  | RetSpontaneous => op = 0
  | RetSetEventMask s => op = hci_opcode 0x03 0x001 /\ to_status F V ret = Ok s
  | RetReset s => op = hci_opcode 0x03 0x003 /\ to_status F V ret = Ok s
  | RetReadTxPowerLevel p => op = hci_opcode 0x03 0x02D /\ to_tx_power_level F V ret = Ok p
  | RetReadLocalVersionInformation p => op = hci_opcode 0x04 0x001 /\ to_local_version_info F V ret = Ok p
  | RetReadLocalSupportedCommands p => op = hci_opcode 0x04 0x002 /\ to_supported_commands F V ret = Ok p
  | RetReadLocalSupportedFeatures p => op = hci_opcode 0x04 0x003 /\ to_supported_features F V ret = Ok p
  | RetReadBdAddr p => op = hci_opcode 0x04 0x009 /\ to_bd_addr F V ret = Ok p
  | RetReadRssi p => op = hci_opcode 0x05 0x005 /\ to_read_rssi F V ret = Ok p
  | RetLeSetEventMask s => op = hci_opcode 0x08 0x001 /\ to_status F V ret = Ok s
  | RetLeReadBufferSize p => op = hci_opcode 0x08 0x002 /\ to_le_read_buffer_status F V ret = Ok p
  | RetLeReadLocalSupportedFeatures p =>
      op = hci_opcode 0x08 0x003 /\ to_le_local_supported_features F V ret = Ok p
  | RetLeSetRandomAddress s => op = hci_opcode 0x08 0x005 /\ to_status F V ret = Ok s
  | RetLeSetAdvertisingParameters s => op = hci_opcode 0x08 0x006 /\ to_status F V ret = Ok s
  | RetLeReadAdvertisingChannelTxPower p =>
      op = hci_opcode 0x08 0x007 /\ to_le_advertising_channel_tx_power F V ret = Ok p
  | RetLeSetAdvertisingData s => op = hci_opcode 0x08 0x008 /\ to_status F V ret = Ok s
  | RetLeSetScanResponseData s => op = hci_opcode 0x08 0x009 /\ to_status F V ret = Ok s
  | RetLeSetAdvertiseEnable s =>
      version_5_0 F = false /\ op = hci_opcode 0x08 0x00A /\ to_status F V ret = Ok s
  | RetLeSetAdvertisingEnable s =>
      version_5_0 F = true /\ op = hci_opcode 0x08 0x00A /\ to_status F V ret = Ok s
  | RetLeSetScanParameters s => op = hci_opcode 0x08 0x00B /\ to_status F V ret = Ok s
  | RetLeSetScanEnable s => op = hci_opcode 0x08 0x00C /\ to_status F V ret = Ok s
  | RetLeCreateConnectionCancel s => op = hci_opcode 0x08 0x00E /\ to_status F V ret = Ok s
  | RetLeReadWhiteListSize s size =>
      op = hci_opcode 0x08 0x00F /\ to_status F V ret = Ok s
      /\ nth_error ret 1 = Some size
  | RetLeClearWhiteList s => op = hci_opcode 0x08 0x010 /\ to_status F V ret = Ok s
  | RetLeAddDeviceToWhiteList s => op = hci_opcode 0x08 0x011 /\ to_status F V ret = Ok s
  | RetLeRemoveDeviceFromWhiteList s => op = hci_opcode 0x08 0x012 /\ to_status F V ret = Ok s
  | RetLeSetHostChannelClassification s => op = hci_opcode 0x08 0x014 /\ to_status F V ret = Ok s
  | RetLeReadChannelMap p => op = hci_opcode 0x08 0x015 /\ to_le_channel_map_parameters F V ret = Ok p
  | RetLeEncrypt p => op = hci_opcode 0x08 0x017 /\ to_le_encrypted_data F V ret = Ok p
  | RetLeRand p => op = hci_opcode 0x08 0x018 /\ to_random_number F V ret = Ok p
  | RetLeLongTermKeyRequestReply p => op = hci_opcode 0x08 0x01A /\ to_le_ltk_request_reply F V ret = Ok p
  | RetLeLongTermKeyRequestNegativeReply p =>
      op = hci_opcode 0x08 0x01B /\ to_le_ltk_request_reply F V ret = Ok p
  | RetLeReadSupportedStates p => op = hci_opcode 0x08 0x01C /\ to_le_read_states F V ret = Ok p
  | RetLeReceiverTest s => op = hci_opcode 0x08 0x01D /\ to_status F V ret = Ok s
  | RetLeTransmitterTest s => op = hci_opcode 0x08 0x01E /\ to_status F V ret = Ok s
  | RetLeTestEnd p => op = hci_opcode 0x08 0x01F /\ to_le_test_end F V ret = Ok p
  | RetVendor r => False
  end.

Lemma return_unknown op bs : ~ In op known_opcodes ->
  return_params_of F V op bs =
  if negb (opcode_ogf op =? 0x3F) then Err (EUnknownOpcode op)
  else let! r := vreturn_new V bs in Ok (RetVendor r).
Proof.
  intros H. unfold return_params_of.
  repeat match goal with
  | |- (if ?b =? ?c then _ else _) = (if negb _ then _ else _) =>
      lazymatch b with
      | op => let e := fresh in destruct (N.eqb_spec op c) as [e|_];
              [exfalso; apply H; rewrite e; vm_compute; tauto|]
      end
  end.
  reflexivity.
Qed.

Lemma white_list_ok n o0 o1 ret (r : return_parameters V) :
  (let! rest := slice_from (n :: o0 :: o1 :: ret) 3 in
   let! s := to_status F V rest in
   let! size := idx (n :: o0 :: o1 :: ret) 4 in
   Ok (RetLeReadWhiteListSize s size)) = Ok r <->
  exists s size, to_status F V ret = Ok s /\ nth_error ret 1 = Some size
    /\ r = RetLeReadWhiteListSize s size.
Proof.
  cbn [slice_from length Nat.leb skipn bind]. unfold slice_from.
  cbn [length Nat.leb skipn bind]. rewrite bind_ok.
  unfold idx. cbn [nth_error]. split.
  - intros (s & Hs & H). destruct ret as [|b0 [|b1 rest]]; cbn in *; try discriminate.
    injection H as <-. eauto.
  - intros (s & size & Hs & Hn & ->). exists s. split; [exact Hs|].
    destruct ret as [|b0 [|b1 rest]]; cbn in *; try discriminate. now injection Hn as ->.
Qed.

Lemma return_ok n o0 o1 op ret r :
  return_params_of F V op (n :: o0 :: o1 :: ret) = Ok r <->
  decoded_as r op ret
  \/ (exists v, ~ In op known_opcodes /\ opcode_ogf op = 0x3F
      /\ vreturn_new V (n :: o0 :: o1 :: ret) = Ok v /\ r = RetVendor v).
Proof.
  split.
  - intros H. destruct (in_dec N.eq_dec op known_opcodes) as [Hin|Hin].
    + left. unfold return_params_of in H.
      repeat match type of H with
      | (if op =? ?c then Ok _ else _) = _ =>
          destruct (N.eqb_spec op c) as [->|?]; [injection H as <-; reflexivity|]
      | (if op =? ?c then arm V _ (to_le_set_advertise_enable F V) _ else _) = _ =>
          destruct (N.eqb_spec op c) as [->|?];
          [apply arm_ok in H; destruct H as (a & H & ->);
           unfold to_le_set_advertise_enable; destruct (version_5_0 F) eqn:E5;
           (split; [exact E5|split; [reflexivity|exact H]]) |]
      | (if op =? ?c then arm V _ _ _ else _) = _ =>
          destruct (N.eqb_spec op c) as [->|?];
          [apply arm_ok in H; destruct H as (a & H & ->); split; [reflexivity|exact H]|]
      | (if op =? ?c then bind _ _ else _) = _ =>
          destruct (N.eqb_spec op c) as [->|?];
          [apply white_list_ok in H; destruct H as (s & size & H1 & H2 & ->);
           split; [reflexivity|split; [exact H1|exact H2]]|]
      end.
      exfalso. clear H. vm_compute in Hin.
      repeat (destruct Hin as [<-|Hin];
        [match goal with K : _ <> _ |- _ => apply K; reflexivity end|]). destruct Hin.
    + right. rewrite return_unknown in H by exact Hin.
      destruct (N.eqb_spec (opcode_ogf op) 0x3F) as [e|e]; [|discriminate]. cbn [negb] in H.
      apply bind_ok in H. destruct H as (v & Hv & H). injection H as <-. eauto 6.
  - intros [H|(v & Hin & Hogf & Hv & ->)].
    + destruct r; cbn [decoded_as] in H; try (destruct H; fail).
      all: try (match type of H with @eq N _ _ /\ _ => destruct H as [-> H] end).
      all: try (apply (proj2 (arm_ok _ _ n o0 o1 _ _)); eexists; split; [exact H|reflexivity]).
      * subst op. reflexivity.
      * destruct H as [E5 H]. revert H. intros [-> H].
        assert (K : to_le_set_advertise_enable F V s = RetLeSetAdvertiseEnable s)
          by (unfold to_le_set_advertise_enable; now rewrite E5).
        rewrite <- K.
        apply (proj2 (arm_ok _ _ n o0 o1 _ _)). eexists. split; [exact H|reflexivity].
      * destruct H as [E5 H]. revert H. intros [-> H].
        assert (K : to_le_set_advertise_enable F V s = RetLeSetAdvertisingEnable s)
          by (unfold to_le_set_advertise_enable; now rewrite E5).
        rewrite <- K.
        apply (proj2 (arm_ok _ _ n o0 o1 _ _)). eexists. split; [exact H|reflexivity].
      * destruct H as [H1 H2]. apply (proj2 (white_list_ok n o0 o1 ret _)). eauto.
    + rewrite return_unknown by exact Hin. rewrite Hogf. cbn. now rewrite Hv.
Qed.

(** ** Layouts *)
Lemma to_status_ok ret s : to_status F V ret = Ok s <-> status_first F V s ret.
Proof.
  unfold to_status, status_first. destruct ret as [|sb rest]; cbn.
  - split; [discriminate|]. intros (? & ? & _ & ?). discriminate.
  - rewrite status_of_ok. split.
    + intros H. eauto.
    + intros (b & r & H & K). injection K as -> ->. exact H.
Qed.

Ltac fwd n := forward n; eexists; split; [eassumption|].

Lemma tx_power_ok ret p : bytes ret ->
  (to_tx_power_level F V ret = Ok p <->
   u16 (txp_conn_handle p) /\ is_i8 (txp_dbm p)
   /\ status_then F V (txp_status p) (le 2 (txp_conn_handle p) ++ [signed (txp_dbm p)]) ret).
Proof.
  intros Hb. unfold to_tx_power_level, to_status. split.
  - forward 4%nat. cbn [txp_conn_handle txp_dbm txp_status].
    match goal with K : byte ?x |- context [u8_as_i8 ?x] => destruct (signed_of_byte x K) as [K1 K2] end.
    split; [now apply u16_of_bytes|]. split; [exact K1|].
    eexists. split; [eassumption|]. rewrite K2. finish.
  - destruct p as [s h d]; cbn [txp_conn_handle txp_dbm txp_status].
    intros (Hh & Hd & sb & Hs & ->). rewrite le_2. reads. use_status.
    rewrite read_le_2 by assumption. now rewrite (proj1 (byte_of_signed _ Hd)).
Qed.

Lemma rssi_ok ret p : bytes ret ->
  (to_read_rssi F V ret = Ok p <->
   u16 (rssi_conn_handle p) /\ is_i8 (rssi_rssi p)
   /\ status_then F V (rssi_status p) (le 2 (rssi_conn_handle p) ++ [signed (rssi_rssi p)]) ret).
Proof.
  intros Hb. unfold to_read_rssi, to_status. split.
  - forward 4%nat. cbn [rssi_conn_handle rssi_rssi rssi_status].
    match goal with K : byte ?x |- context [u8_as_i8 ?x] => destruct (signed_of_byte x K) as [K1 K2] end.
    split; [now apply u16_of_bytes|]. split; [exact K1|].
    eexists. split; [eassumption|]. rewrite K2. finish.
  - destruct p as [s h d]; cbn [rssi_conn_handle rssi_rssi rssi_status].
    intros (Hh & Hd & sb & Hs & ->). rewrite le_2. reads. use_status.
    rewrite read_le_2 by assumption. now rewrite (proj1 (byte_of_signed _ Hd)).
Qed.

Lemma adv_tx_power_ok ret p : bytes ret ->
  (to_le_advertising_channel_tx_power F V ret = Ok p <->
   is_i8 (lat_power p) /\ status_then F V (lat_status p) [signed (lat_power p)] ret).
Proof.
  intros Hb. unfold to_le_advertising_channel_tx_power, to_status. split.
  - forward 2%nat. cbn [lat_power lat_status].
    match goal with K : byte ?x |- context [u8_as_i8 ?x] => destruct (signed_of_byte x K) as [K1 K2] end.
    split; [exact K1|]. eexists. split; [eassumption|]. rewrite K2. finish.
  - destruct p as [s d]; cbn [lat_power lat_status].
    intros (Hd & sb & Hs & ->). reads. use_status. now rewrite (proj1 (byte_of_signed _ Hd)).
Qed.

Lemma local_version_ok ret p : bytes ret ->
  (to_local_version_info F V ret = Ok p <->
   u16 (lvi_hci_revision p) /\ u16 (lvi_manufacturer_name p) /\ u16 (lvi_lmp_subversion p)
   /\ status_then F V (lvi_status p)
        ([lvi_hci_version p] ++ le 2 (lvi_hci_revision p) ++ [lvi_lmp_version p]
         ++ le 2 (lvi_manufacturer_name p) ++ le 2 (lvi_lmp_subversion p)) ret).
Proof.
  intros Hb. unfold to_local_version_info. split.
  - forward 9%nat.
    cbn [lvi_hci_revision lvi_manufacturer_name lvi_lmp_subversion lvi_hci_version lvi_lmp_version lvi_status].
    do 3 (split; [now apply u16_of_bytes|]). eexists. split; [eassumption|]. finish.
  - destruct p as [s a b c d e];
    cbn [lvi_hci_revision lvi_manufacturer_name lvi_lmp_subversion lvi_hci_version lvi_lmp_version lvi_status].
    intros (H1 & H2 & H3 & sb & Hs & ->). rewrite !le_2. reads. use_status.
    now rewrite !read_le_2 by assumption.
Qed.

Lemma supported_features_ok ret p : bytes ret ->
  (to_supported_features F V ret = Ok p <->
   exists v, u64 v
     /\ (forall i, N.testbit (lsf_features p) i = (N.testbit v i && lmp_feature_defined i)%bool)
     /\ status_then F V (lsf_status p) (le 8 v) ret).
Proof.
  intros Hb. unfold to_supported_features, to_status. split.
  - forward 9%nat. cbn [lsf_features lsf_status].
    eexists. split; [|split; [apply bf_truncate_spec, lmp_feature_bits|]].
    + now apply u64_of_bytes.
    + eexists. split; [eassumption|]. finish.
  - destruct p as [s fe]; cbn [lsf_features lsf_status].
    intros (v & Hv & Hf & sb & Hs & ->). rewrite le_8. reads. use_status.
    rewrite read_le_8 by assumption. do 2 f_equal. apply N.bits_inj. intros i.
    rewrite Hf. apply bf_truncate_spec, lmp_feature_bits.
Qed.

Lemma le_supported_features_ok ret p : bytes ret ->
  (to_le_local_supported_features F V ret = Ok p <->
   exists v, u64 v
     /\ (forall i, N.testbit (lef_features p) i = (N.testbit v i && le_feature_defined F i)%bool)
     /\ status_then F V (lef_status p) (le 8 v) ret).
Proof.
  intros Hb. unfold to_le_local_supported_features, to_status. split.
  - forward 9%nat. cbn [lef_features lef_status].
    eexists. split; [|split; [apply bf_truncate_spec, le_local_feature_bits|]].
    + now apply u64_of_bytes.
    + eexists. split; [eassumption|]. finish.
  - destruct p as [s fe]; cbn [lef_features lef_status].
    intros (v & Hv & Hf & sb & Hs & ->). rewrite le_8. reads. use_status.
    rewrite read_le_8 by assumption. do 2 f_equal. apply N.bits_inj. intros i.
    rewrite Hf. apply bf_truncate_spec, le_local_feature_bits.
Qed.

Lemma bd_addr_ok_iff ret p : bytes ret ->
  (to_bd_addr F V ret = Ok p <->
   length (rba_bd_addr p) = 6%nat /\ status_then F V (rba_status p) (rba_bd_addr p) ret).
Proof.
  intros Hb. unfold to_bd_addr, to_status. split.
  - forward 7%nat. cbn [rba_bd_addr rba_status]. split; [reflexivity|].
    eexists. split; [eassumption|]. reflexivity.
  - destruct p as [s a]; cbn [rba_bd_addr rba_status].
    intros (Ha & sb & Hs & ->). destruct_len Ha. reads. use_status. reflexivity.
Qed.

Lemma buffer_size_ok ret p : bytes ret ->
  (to_le_read_buffer_status F V ret = Ok p <->
   u16 (lbs_data_packet_length p)
   /\ status_then F V (lbs_status p)
        (le 2 (lbs_data_packet_length p) ++ [lbs_data_packet_count p]) ret).
Proof.
  intros Hb. unfold to_le_read_buffer_status, to_status. split.
  - forward 4%nat. cbn [lbs_data_packet_length lbs_data_packet_count lbs_status].
    split; [now apply u16_of_bytes|]. eexists. split; [eassumption|]. finish.
  - destruct p as [s l c]; cbn [lbs_data_packet_length lbs_data_packet_count lbs_status].
    intros (Hl & sb & Hs & ->). rewrite le_2. reads. use_status.
    now rewrite read_le_2 by assumption.
Qed.

Lemma encrypted_ok ret p : bytes ret ->
  (to_le_encrypted_data F V ret = Ok p <->
   length (enc_data p) = 16%nat /\ status_then F V (enc_status p) (enc_data p) ret).
Proof.
  intros Hb. unfold to_le_encrypted_data, to_status. split.
  - forward 17%nat. cbn [enc_data enc_status]. split; [reflexivity|].
    eexists. split; [eassumption|]. reflexivity.
  - destruct p as [s a]; cbn [enc_data enc_status].
    intros (Ha & sb & Hs & ->). destruct_len Ha. reads. use_status. reflexivity.
Qed.

Lemma random_ok ret p : bytes ret ->
  (to_random_number F V ret = Ok p <->
   u64 (rnd_number p) /\ status_then F V (rnd_status p) (le 8 (rnd_number p)) ret).
Proof.
  intros Hb. unfold to_random_number, to_status. split.
  - forward 9%nat. cbn [rnd_number rnd_status]. split; [now apply u64_of_bytes|].
    eexists. split; [eassumption|]. finish.
  - destruct p as [s v]; cbn [rnd_number rnd_status].
    intros (Hv & sb & Hs & ->). rewrite le_8. reads. use_status.
    now rewrite read_le_8 by assumption.
Qed.

Lemma ltk_reply_ok ret p : bytes ret ->
  (to_le_ltk_request_reply F V ret = Ok p <->
   u16 (ltkr_conn_handle p) /\ status_then F V (ltkr_status p) (le 2 (ltkr_conn_handle p)) ret).
Proof.
  intros Hb. unfold to_le_ltk_request_reply, to_status. split.
  - forward 3%nat. cbn [ltkr_conn_handle ltkr_status]. split; [now apply u16_of_bytes|].
    eexists. split; [eassumption|]. finish.
  - destruct p as [s v]; cbn [ltkr_conn_handle ltkr_status].
    intros (Hv & sb & Hs & ->). rewrite le_2. reads. use_status.
    now rewrite read_le_2 by assumption.
Qed.

Lemma test_end_ok ret p : bytes ret ->
  (to_le_test_end F V ret = Ok p <->
   u16 (lte_number_of_packets p)
   /\ status_then F V (lte_status p) (le 2 (lte_number_of_packets p)) ret).
Proof.
  intros Hb. unfold to_le_test_end, to_status. split.
  - forward 3%nat. cbn [lte_number_of_packets lte_status]. split; [now apply u16_of_bytes|].
    eexists. split; [eassumption|]. finish.
  - destruct p as [s v]; cbn [lte_number_of_packets lte_status].
    intros (Hv & sb & Hs & ->). rewrite le_2. reads. use_status.
    now rewrite read_le_2 by assumption.
Qed.

Lemma states_ok ret p : bytes ret ->
  (to_le_read_states F V ret = Ok p <->
   u64 (lrs_states p) /\ only_defined le_state_defined (N.testbit (lrs_states p))
   /\ status_then F V (lrs_status p) (le 8 (lrs_states p)) ret).
Proof.
  intros Hb. unfold to_le_read_states, to_status. split.
  - forward 9%nat.
    match type of HH with context [bf_from_bits F LeStates ?v] =>
      destruct (bf_from_bits_spec F LeStates le_state_defined v (le_state_bits F))
        as [[E D]|[E D]]; rewrite E in HH; [|discriminate HH] end.
    injection HH as <-. cbn [lrs_states lrs_status].
    split; [now apply u64_of_bytes|]. split; [exact D|].
    eexists. split; [eassumption|]. finish.
  - destruct p as [s v]; cbn [lrs_states lrs_status].
    intros (Hv & D & sb & Hs & ->). rewrite le_8. reads. use_status.
    rewrite read_le_8 by assumption.
    destruct (bf_from_bits_spec F LeStates le_state_defined v (le_state_bits F))
      as [[E _]|[_ E]]; [rewrite E; reflexivity|contradiction].
Qed.

Lemma channel_map_ok ret p : bytes ret ->
  (to_le_channel_map_parameters F V ret = Ok p <->
   u16 (cmp_conn_handle p) /\ length (cmp_channel_map p) = 5%nat
   /\ only_defined channel_defined (array_bit (cmp_channel_map p))
   /\ status_then F V (cmp_status p) (le 2 (cmp_conn_handle p) ++ cmp_channel_map p) ret).
Proof.
  intros Hb. unfold to_le_channel_map_parameters, to_status. split.
  - intros HH. unfold require_len in HH.
    destruct (Nat.eqb_spec (length ret) 8) as [Hl|]; [|discriminate]. destruct_len Hl. bytes_inv.
    cbn -[status_of ba_from_bits ChannelClassification_size ChannelClassification_decl] in HH.
    apply bind_ok in HH. destruct HH as (s & Hs & HH). apply status_of_ok in Hs.
    match type of HH with context [ba_from_bits F _ _ ?b] =>
      destruct (@channel_map_from_bits (event_error VE) F b) as [[E D]|[E D]];
      [repeat (constructor; [assumption|]); constructor|reflexivity| |];
      rewrite E in HH; cbn [bind] in HH; [|discriminate HH] end.
    injection HH as <-. cbn [cmp_conn_handle cmp_channel_map cmp_status].
    split; [now apply u16_of_bytes|]. split; [reflexivity|]. split; [exact D|].
    eexists. split; [eassumption|]. finish.
  - destruct p as [s h m]; cbn [cmp_conn_handle cmp_channel_map cmp_status].
    intros (Hh & Hm & D & sb & Hs & ->).
    assert (Hbm : bytes m) by (bytes_inv; assumption).
    destruct (@channel_map_from_bits (event_error VE) F m Hbm Hm) as [[E _]|[_ E]];
      [|contradiction].
    destruct_len Hm. rewrite le_2.
    cbn -[status_of ba_from_bits ChannelClassification_size ChannelClassification_decl].
    use_status. rewrite E. cbn [bind]. now rewrite read_le_2 by assumption.
Qed.

Lemma supported_commands_ok ret p : bytes ret ->
  (to_supported_commands F V ret = Ok p <->
   length (lsc_commands p) = 64%nat
   /\ only_defined (command_bit_defined F) (array_bit (lsc_commands p))
   /\ status_then F V (lsc_status p) (lsc_commands p) ret).
Proof.
  intros Hb. unfold to_supported_commands. split.
  - intros HH. unfold require_len in HH. change (1 + COMMAND_FLAGS_SIZE)%nat with 65%nat in HH.
    destruct (Nat.eqb_spec (length ret) 65) as [Hl|]; [|discriminate]. cbn [bind] in HH.
    destruct ret as [|sb cmds]; [discriminate|]. injection Hl as Hl. bytes_inv.
    change (idx (sb :: cmds) 0) with (@Ok (event_error VE) N sb) in HH. cbn [bind] in HH.
    apply bind_ok in HH. destruct HH as (s & Hs & HH). apply status_of_ok in Hs.
    assert (K : @slice (event_error VE) (sb :: cmds) 1 (COMMAND_FLAGS_SIZE + 1) = Ok cmds).
    { unfold slice. cbn [length]. rewrite Hl. change (COMMAND_FLAGS_SIZE + 1)%nat with 65%nat.
      cbn [Nat.leb andb Nat.sub skipn]. rewrite firstn_all2 by (rewrite Hl; apply le_n); reflexivity. }
    rewrite K in HH. cbn [bind] in HH.
    unfold command_flags_try_from, require_len in HH.
    rewrite Hl, Nat.eqb_refl in HH. cbn [bind] in HH.
    destruct (@command_flags_from_bits (event_error VE) F cmds) as [[E D]|[E D]]; [assumption..| |];
      rewrite E in HH; cbn [bind] in HH; [|discriminate HH].
    injection HH as <-. cbn [lsc_commands lsc_status]. split; [exact Hl|]. split; [exact D|].
    eexists. split; [eassumption|]. reflexivity.
  - destruct p as [s cmds]; cbn [lsc_commands lsc_status].
    intros (Hl & D & sb & Hs & ->). bytes_inv.
    unfold require_len. cbn [length]. rewrite Hl. cbn [Nat.eqb bind COMMAND_FLAGS_SIZE Nat.add].
    change (idx (sb :: cmds) 0) with (@Ok (event_error VE) N sb). cbn [bind]. use_status.
    assert (K : @slice (event_error VE) (sb :: cmds) 1 (COMMAND_FLAGS_SIZE + 1) = Ok cmds).
    { unfold slice. cbn [length]. rewrite Hl. change (COMMAND_FLAGS_SIZE + 1)%nat with 65%nat.
      cbn [Nat.leb andb Nat.sub skipn]. rewrite firstn_all2 by (rewrite Hl; apply le_n); reflexivity. }
    change (65)%nat with (COMMAND_FLAGS_SIZE + 1)%nat. rewrite K. cbn [bind].
    unfold command_flags_try_from, require_len.
    rewrite Hl, Nat.eqb_refl. cbn [bind].
    destruct (@command_flags_from_bits (event_error VE) F cmds) as [[E _]|[_ E]]; [assumption..| |];
      [|contradiction].
    rewrite E. reflexivity.
Qed.

Lemma white_list_wire ret s size :
  to_status F V ret = Ok s /\ nth_error ret 1 = Some size <->
  exists sb rest, status_byte F V sb s /\ ret = sb :: size :: rest.
Proof.
  rewrite to_status_ok. unfold status_first. split.
  - intros [(sb & rest & Hs & ->) Hn]. destruct rest as [|b rest]; [discriminate|].
    injection Hn as ->. eauto.
  - intros (sb & rest & Hs & ->). split; [eauto|reflexivity].
Qed.

(** Decoding into a variant is the wire format of that variant. *)
Lemma decoded_as_wire r op ret : bytes ret ->
  (decoded_as r op ret <-> wire_return F V r op ret).
Proof.
  intros Hb. destruct r; cbn [decoded_as wire_return]; try reflexivity;
  try (rewrite to_status_ok; reflexivity).
  - now rewrite tx_power_ok.
  - now rewrite local_version_ok.
  - now rewrite supported_commands_ok.
  - now rewrite supported_features_ok.
  - now rewrite bd_addr_ok_iff.
  - now rewrite rssi_ok.
  - now rewrite buffer_size_ok.
  - now rewrite le_supported_features_ok.
  - now rewrite adv_tx_power_ok.
  - now rewrite white_list_wire.
  - now rewrite channel_map_ok.
  - now rewrite encrypted_ok.
  - now rewrite random_ok.
  - now rewrite ltk_reply_ok.
  - now rewrite ltk_reply_ok.
  - now rewrite states_ok.
  - now rewrite test_end_ok.
Qed.

Lemma known_opcode_of r op ret : decoded_as r op ret -> In op known_opcodes.
Proof.
  destruct r; cbn [decoded_as]; intros H;
    repeat match goal with H : _ /\ _ |- _ => destruct H end;
    first [contradiction | subst op; vm_compute; tauto].
Qed.

Lemma vendor_opcode op : op / 1024 = 0x3F <-> opcode_ogf op = 0x3F /\ ~ In op known_opcodes.
Proof.
  unfold opcode_ogf. rewrite N.shiftr_div_pow2. change (2 ^ 10) with 1024.
  split; [|tauto]. intros H. split; [exact H|]. intros Hin. vm_compute in Hin.
  repeat (destruct Hin as [<-|Hin]; [vm_compute in H; discriminate|]). destruct Hin.
Qed.

Lemma command_complete_dispatch_iff pkt n r : bytes pkt ->
  (event_new F V pkt = Ok (EvCommandComplete (Build_command_complete n r)) <->
   exists op ret, u16 op /\ pkt = [0x0E; N.of_nat (3 + length ret); n] ++ le 2 op ++ ret
     /\ (wire_return F V r op ret
         \/ exists v, op / 1024 = 0x3F
             /\ vreturn_new V ([n] ++ le 2 op ++ ret) = Ok v /\ r = RetVendor v)).
Proof.
  intros Hb. rewrite event_new_ok. split.
  - intros (c & p & -> & H). apply dispatch_ok in H. cbn beta iota in H. destruct H as [-> H].
    apply command_complete_ok in H. cbn [cc_num_hci_command_packets cc_return_params] in H.
    destruct H as (n' & o0 & o1 & ret & -> & <- & H).
    unfold framed in Hb. bytes_inv.
    exists (o0 + 256 * o1), ret. split; [now apply u16_of_bytes|].
    rewrite le_2_of_bytes by assumption. split; [reflexivity|].
    apply return_ok in H. rewrite <- decoded_as_wire by assumption.
    destruct H as [H|(v & K1 & K2 & K3 & K4)]; [now left|right].
    exists v. rewrite vendor_opcode. auto.
  - intros (op & ret & Hop & -> & H). exists 0x0E, ([n] ++ le 2 op ++ ret).
    split; [reflexivity|]. unfold event_dispatch. cbn [N.eqb].
    change (wrap V (command_complete_new F V ([n] ++ le 2 op ++ ret)) EvCommandComplete
            = Ok (EvCommandComplete (Build_command_complete n r))).
    apply wrap_ok. eexists. split; [|reflexivity].
    apply command_complete_ok. rewrite le_2. cbn [app].
    exists n, (op mod 256), (op / 256 mod 256), ret.
    split; [reflexivity|]. split; [reflexivity|]. cbn [cc_return_params].
    rewrite read_le_2 by assumption. apply return_ok.
    bytes_inv. rewrite decoded_as_wire by assumption.
    rewrite le_2 in H. destruct H as [H|(v & K1 & K2 & K3)]; [now left|right].
    exists v. apply vendor_opcode in K1. tauto.
Qed.

(** ** Errors and panics *)
Lemma arm_agrees {A} (decode : list N -> res A) mk n o0 o1 ret c :
  agrees (decode ret) c -> agrees (arm V decode mk (n :: o0 :: o1 :: ret)) c.
Proof.
  rewrite arm_cons. destruct c; cbn.
  - now intros ->.
  - intros [a ->]. cbn. eauto.
Qed.

Lemma arm_panic {A} (decode : list N -> res A) mk n o0 o1 ret :
  decode ret = Panic -> arm V decode mk (n :: o0 :: o1 :: ret) = Panic.
Proof. rewrite arm_cons. now intros ->. Qed.

Section Total.
Context (HV : vendor_total V).

Ltac reads :=
  cbn -[status_of u8_as_i8 first_error agrees bf_from_bits bf_from_bits_truncate
        status_is code_is bits_are number_le ba_from_bits command_flags_try_from array_bit
        ChannelClassification_size ChannelClassification_decl].
Ltac start n :=
  unfold to_status;
  apply agrees_bind; [apply require_len_agrees|];
  let a := fresh in let H := fresh "Hlen" in
  intros a H; apply require_len_ok in H; clear a;
  destruct_len H; bytes_inv; reads.
Ltac step L := apply agrees_bind; [apply L; exact HV|intros ? _; reads].
Ltac done := apply agrees_ok.

Lemma states_agrees ret : bytes ret ->
  agrees (to_le_read_states F V ret)
    (first_error [ length_is V ret 9; status_is F V EBadStatus (at_ ret 0);
       bits_are V 64 le_state_defined (N.testbit (number_le (skipn 1 ret)))
         (EInvalidLeStates (number_le (skipn 1 ret))) ]).
Proof.
  intros Hb. unfold to_le_read_states. start 9%nat. step status_of_agrees.
  apply agrees_one. rewrite number_le_8.
  match goal with |- context [bf_from_bits F LeStates ?v] =>
    assert (Hv : u64 v) by (now apply u64_of_bytes);
    destruct (bits_are_spec V 64 le_state_defined (N.testbit v)
                (EInvalidLeStates v) (fun i => u64_bits v i Hv)) as [D1 D2];
    destruct (bf_from_bits_spec F LeStates le_state_defined v (le_state_bits F))
      as [[-> D]|[-> D]] end.
  - rewrite D1 by exact D. cbn. eauto.
  - rewrite D2 by exact D. reflexivity.
Qed.

Lemma channel_map_agrees ret : bytes ret ->
  agrees (to_le_channel_map_parameters F V ret)
    (first_error [ length_is V ret 8; status_is F V EBadStatus (at_ ret 0);
       bits_are V 40 channel_defined (array_bit (skipn 3 ret)) (EInvalidChannelMap (skipn 3 ret)) ]).
Proof.
  intros Hb. unfold to_le_channel_map_parameters. start 8%nat. step status_of_agrees.
  apply agrees_one.
  match goal with |- context [ba_from_bits F _ _ ?b] =>
    destruct (bits_are_spec V 40 channel_defined (array_bit b)
                (EInvalidChannelMap b) (array_bits b)) as [D1 D2];
    destruct (@channel_map_from_bits (event_error VE) F b) as [[-> D]|[-> D]];
    [repeat (constructor; [assumption|]); constructor|reflexivity| |]
  end; cbn [bind].
  - rewrite D1 by exact D. cbn. eauto.
  - rewrite D2 by exact D. reflexivity.
Qed.

Lemma supported_commands_agrees ret : bytes ret ->
  agrees (to_supported_commands F V ret)
    (first_error [ length_is V ret 65; status_is F V EBadStatus (at_ ret 0);
       bits_are V 512 (command_bit_defined F) (array_bit (skipn 1 ret)) EBadCommandFlag ]).
Proof.
  intros Hb. unfold to_supported_commands.
  apply agrees_bind; [apply require_len_agrees|]. intros a Hl. apply require_len_ok in Hl. clear a.
  destruct ret as [|sb cmds]; [discriminate|]. injection Hl as Hl. bytes_inv.
  change (idx (sb :: cmds) 0) with (@Ok (event_error VE) N sb). cbn [bind at_ nth skipn].
  apply agrees_bind; [apply status_of_agrees; exact HV|]. intros s _.
  assert (K : @slice (event_error VE) (sb :: cmds) 1 (COMMAND_FLAGS_SIZE + 1) = Ok cmds).
  { unfold slice. cbn [length]. rewrite Hl. change (COMMAND_FLAGS_SIZE + 1)%nat with 65%nat.
    cbn [Nat.leb andb Nat.sub skipn]. rewrite firstn_all2 by (rewrite Hl; apply le_n); reflexivity. }
  rewrite K. cbn [bind]. unfold command_flags_try_from, require_len.
  rewrite Hl, Nat.eqb_refl. cbn [bind]. apply agrees_one.
  destruct (bits_are_spec V 512 (command_bit_defined F) (array_bit cmds) EBadCommandFlag) as [D1 D2].
  { intros i Hi. apply array_bits. rewrite Hl. exact Hi. }
  destruct (@command_flags_from_bits (event_error VE) F cmds) as [[-> D]|[-> D]]; [assumption..| |];
    cbn [bind].
  - rewrite D1 by exact D. cbn. eauto.
  - rewrite D2 by exact D. reflexivity.
Qed.

(** All commands that return more than a status. *)
Lemma return_agrees n o0 o1 op ret cs : bytes ret -> return_checks F V op ret = Some cs ->
  agrees (return_params_of F V op (n :: o0 :: o1 :: ret)) (first_error cs).
Proof.
  intros Hb H. unfold return_checks in H.
  repeat match type of H with
  | (if op =? ?c then _ else _) = _ =>
      destruct (N.eqb_spec op c) as [->|?]; [injection H as <-|]
  end; [..|discriminate].
  - refine (arm_agrees (to_tx_power_level F V) (@RetReadTxPowerLevel V) n o0 o1 ret _ _).
    unfold to_tx_power_level. start 4%nat. step status_of_agrees. done.
  - refine (arm_agrees (to_local_version_info F V) (@RetReadLocalVersionInformation V) n o0 o1 ret _ _).
    unfold to_local_version_info. start 9%nat. step status_of_agrees. done.
  - refine (arm_agrees (to_supported_commands F V) (@RetReadLocalSupportedCommands V) n o0 o1 ret _ _).
    now apply supported_commands_agrees.
  - refine (arm_agrees (to_supported_features F V) (@RetReadLocalSupportedFeatures V) n o0 o1 ret _ _).
    unfold to_supported_features. start 9%nat. step status_of_agrees. done.
  - refine (arm_agrees (to_bd_addr F V) (@RetReadBdAddr V) n o0 o1 ret _ _).
    unfold to_bd_addr. start 7%nat. step status_of_agrees. done.
  - refine (arm_agrees (to_read_rssi F V) (@RetReadRssi V) n o0 o1 ret _ _).
    unfold to_read_rssi. start 4%nat. step status_of_agrees. done.
  - refine (arm_agrees (to_le_read_buffer_status F V) (@RetLeReadBufferSize V) n o0 o1 ret _ _).
    unfold to_le_read_buffer_status. start 4%nat. step status_of_agrees. done.
  - refine (arm_agrees (to_le_local_supported_features F V) (@RetLeReadLocalSupportedFeatures V) n o0 o1 ret _ _).
    unfold to_le_local_supported_features. start 9%nat. step status_of_agrees. done.
  - refine (arm_agrees (to_le_advertising_channel_tx_power F V) (@RetLeReadAdvertisingChannelTxPower V) n o0 o1 ret _ _).
    unfold to_le_advertising_channel_tx_power. start 2%nat. step status_of_agrees. done.
  - refine (arm_agrees (to_le_channel_map_parameters F V) (@RetLeReadChannelMap V) n o0 o1 ret _ _).
    now apply channel_map_agrees.
  - refine (arm_agrees (to_le_encrypted_data F V) (@RetLeEncrypt V) n o0 o1 ret _ _).
    unfold to_le_encrypted_data. start 17%nat. step status_of_agrees. done.
  - refine (arm_agrees (to_random_number F V) (@RetLeRand V) n o0 o1 ret _ _).
    unfold to_random_number. start 9%nat. step status_of_agrees. done.
  - refine (arm_agrees (to_le_ltk_request_reply F V) (@RetLeLongTermKeyRequestReply V) n o0 o1 ret _ _).
    unfold to_le_ltk_request_reply. start 3%nat. step status_of_agrees. done.
  - refine (arm_agrees (to_le_ltk_request_reply F V) (@RetLeLongTermKeyRequestNegativeReply V) n o0 o1 ret _ _).
    unfold to_le_ltk_request_reply. start 3%nat. step status_of_agrees. done.
  - refine (arm_agrees (to_le_read_states F V) (@RetLeReadSupportedStates V) n o0 o1 ret _ _).
    now apply states_agrees.
  - refine (arm_agrees (to_le_test_end F V) (@RetLeTestEnd V) n o0 o1 ret _ _).
    unfold to_le_test_end. start 3%nat. step status_of_agrees. done.
Qed.

(** Status-only commands. *)
Lemma status_only_arm op : In op status_only_opcodes ->
  exists mk, forall bs, return_params_of F V op bs = arm V (to_status F V) mk bs.
Proof.
  intros H. cbn [status_only_opcodes In] in H.
  repeat (destruct H as [<-|H]; [eexists; intros bs; reflexivity|]). destruct H.
Qed.

Lemma status_only_agrees n o0 o1 op sb rest : In op status_only_opcodes ->
  agrees (return_params_of F V op (n :: o0 :: o1 :: sb :: rest)) (status_is F V EBadStatus sb).
Proof.
  intros H. destruct (status_only_arm op H) as [mk ->]. apply arm_agrees.
  apply status_of_agrees. exact HV.
Qed.

Lemma status_only_panic n o0 o1 op : In op status_only_opcodes ->
  return_params_of F V op [n; o0; o1] = Panic.
Proof.
  intros H. destruct (status_only_arm op H) as [mk ->]. now apply arm_panic.
Qed.

Lemma white_list_agrees n o0 o1 sb size rest :
  agrees (return_params_of F V white_list_size_opcode (n :: o0 :: o1 :: sb :: size :: rest))
         (status_is F V EBadStatus sb).
Proof.
  change (return_params_of F V white_list_size_opcode (n :: o0 :: o1 :: sb :: size :: rest))
    with (let! s := @status_of VE F V sb in Ok (@RetLeReadWhiteListSize V s size)).
  assert (K := status_of_agrees F V HV sb).
  destruct (status_is F V EBadStatus sb); cbn in *.
  - now rewrite K.
  - destruct K as [s ->]. cbn. eauto.
Qed.

Lemma white_list_panic n o0 o1 ret :
  return_params_of F V white_list_size_opcode (n :: o0 :: o1 :: ret) = Panic <->
  ret = [] \/ exists sb, ret = [sb] /\ status_is F V EBadStatus sb = None.
Proof.
  destruct ret as [|sb [|size rest]].
  - split; [auto|reflexivity].
  - change (return_params_of F V white_list_size_opcode [n; o0; o1; sb])
      with (let! s := @status_of VE F V sb in @Panic (event_error VE) (return_parameters V)).
    assert (K := status_of_agrees F V HV sb). split.
    + intros H. right. exists sb. split; [reflexivity|].
      destruct (status_is F V EBadStatus sb) as [e|]; [|reflexivity].
      cbn in K. rewrite K in H. discriminate.
    + intros [H|(b & H & E)]; [discriminate|]. injection H as <-. rewrite E in K.
      destruct K as [s ->]. reflexivity.
  - assert (K := white_list_agrees n o0 o1 sb size rest).
    apply agrees_err in K. destruct K as (_ & _ & K). split; [contradiction|].
    intros [H|(b & H & E)]; discriminate.
Qed.

(** Every opcode is of one of these kinds. *)
Lemma opcode_kinds op ret :
  op = 0 \/ In op status_only_opcodes \/ op = white_list_size_opcode
  \/ (exists cs, return_checks F V op ret = Some cs) \/ ~ In op known_opcodes.
Proof.
  destruct (in_dec N.eq_dec op known_opcodes) as [H|H]; [|tauto].
  vm_compute in H.
  repeat (destruct H as [<-|H];
    [first [ left; reflexivity
           | right; left; vm_compute; tauto
           | right; right; left; reflexivity
           | right; right; right; left; eexists; reflexivity ]|]).
  destruct H.
Qed.

(** The Command Complete payloads on which decoding panics. *)
Lemma command_complete_panic n op ret : u16 op -> bytes ret ->
  (command_complete_new F V ([n] ++ le 2 op ++ ret) = Panic <->
   (ret = [] /\ (In op status_only_opcodes \/ op = white_list_size_opcode))
   \/ (op = white_list_size_opcode /\ exists sb, ret = [sb] /\ status_is F V EBadStatus sb = None)).
Proof.
  intros Hop Hb. rewrite le_2. cbn [app]. rewrite command_complete_cons.
  rewrite read_le_2 by assumption.
  set (bs := n :: op mod 256 :: op / 256 mod 256 :: ret).
  assert (E : (let! r := return_params_of F V op bs in Ok (Build_command_complete n r)) = Panic
              <-> return_params_of F V op bs = Panic)
    by (destruct (return_params_of F V op bs); cbn; split; congruence).
  rewrite E. clear E. subst bs.
  assert (Hws : ~ In white_list_size_opcode status_only_opcodes).
  { vm_compute. intros H. repeat (destruct H as [H|H]; [discriminate|]). destruct H. }
  destruct (opcode_kinds op ret) as [->|[H|[->|[[cs H]|H]]]].
  - split; [discriminate|]. intros [[_ [H|H]]|[H _]]; try discriminate.
    vm_compute in H. repeat (destruct H as [H|H]; [discriminate|]). destruct H.
  - destruct ret as [|sb rest].
    + rewrite status_only_panic by exact H. tauto.
    + assert (K := status_only_agrees n (op mod 256) (op / 256 mod 256) op sb rest H).
      apply agrees_err in K. destruct K as (_ & _ & K). split; [contradiction|].
      intros [[? _]|[-> _]]; [discriminate|contradiction].
  - rewrite white_list_panic. split.
    + intros [->|H]; [left; auto|right; auto].
    + intros [[-> _]|[_ H]]; auto.
  - assert (K := return_agrees n (op mod 256) (op / 256 mod 256) op ret cs Hb H).
    apply agrees_err in K. destruct K as (_ & _ & K). split; [contradiction|].
    assert (N1 : ~ In op status_only_opcodes).
    { intros Hin. vm_compute in Hin.
      repeat (destruct Hin as [<-|Hin]; [vm_compute in H; discriminate|]). destruct Hin. }
    assert (N2 : op <> white_list_size_opcode) by (intros ->; vm_compute in H; discriminate).
    intros [[_ [?|?]]|[? _]]; contradiction.
  - rewrite return_unknown by exact H.
    assert (K : (if negb (opcode_ogf op =? 0x3F) then Err (EUnknownOpcode op)
                 else let! r := vreturn_new V (n :: op mod 256 :: op / 256 mod 256 :: ret) in
                      Ok (@RetVendor V r)) <> Panic).
    { destruct HV as (_ & _ & Hr).
      specialize (Hr (n :: op mod 256 :: op / 256 mod 256 :: ret)).
      destruct (negb _); [discriminate|]. destruct (vreturn_new V _); cbn; congruence. }
    split; [contradiction|]. intros K'. exfalso. apply H.
    destruct K' as [[_ [Hin| ->]]|[-> _]].
    + vm_compute in Hin. repeat (destruct Hin as [<-|Hin]; [vm_compute; tauto|]). destruct Hin.
    + vm_compute; tauto.
    + vm_compute; tauto.
Qed.

End Total.
End Command.
