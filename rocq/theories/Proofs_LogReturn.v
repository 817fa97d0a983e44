(** * Derived [Debug] texts can be read back: return parameters and events. *)
From Verif Require Import Base Model_Types Model_Bitflags Model_FlagNames Model_Intervals Model_EventBase
  Model_Command Model_Event Model_Host Model_Debug Model_Log Spec_Wire Spec_Flags Spec_Debug Spec_Log
  Proofs_Base Proofs_Bits Proofs_FlagNames Proofs_Debug Proofs_LogText Proofs_LogFlags Proofs_LogTypes
  Proofs_LogEvent.
From Coq Require Import String Ascii.
Open Scope list_scope.
Open Scope N_scope.
Open Scope string_scope.

Ltac settle Hv :=
  first [ injection Hv as <-
        | unfold debug_local_supported_commands in Hv;
          match type of Hv with context [debug_command_flags ?f] =>
            let E := fresh "Text" in destruct (debug_command_flags f) eqn:E
          end;
          cbn [bind] in Hv; try discriminate Hv; injection Hv as <- ].

(** Values first: comparing the texts of two flag sets by computation is slow. *)
Ltac peel_values H :=
  repeat first
    [ eapply use_legible in H;
      [ let S := fresh "Same" in destruct H as [S H]; cbn in S
      | solve [eauto 3 with legible]
      | first [exact I | assumption] | first [exact I | assumption]
      | solve [auto with closing] | solve [auto with closing] ]
    | apply sapp_inv in H ].

Section Vendor.
Context (F : features) {V : vendor} (D : vendor_debug V) (HD : vendor_legible D).
Definition return_good (r : return_parameters V) : Prop :=
  match r with
  | RetReadLocalSupportedCommands p => List.length (lsc_commands p) = 64%nat /\ bytes (lsc_commands p)
  | RetReadLocalSupportedFeatures p => within F LmpFeatures (lsf_features p)
  | RetLeReadLocalSupportedFeatures p => within F LeFeatures (lef_features p)
  | RetLeEncrypt p => bytes (enc_data p)
  | RetLeReadSupportedStates p => within F LeStates (lrs_states p)
  | _ => True
  end.
Definition same_return (r r' : return_parameters V) : Prop :=
  r = r' \/ exists s f g, firstn 39 f = firstn 39 g
    /\ List.length f = 64%nat /\ List.length g = 64%nat /\ bytes f /\ bytes g
    /\ r = RetReadLocalSupportedCommands (Build_local_supported_commands s f)
    /\ r' = RetReadLocalSupportedCommands (Build_local_supported_commands s g).

Lemma flags_legible {E} f g t u r r' : List.length f = 64%nat -> List.length g = 64%nat ->
  @debug_command_flags E f = Ok t -> @debug_command_flags E g = Ok u ->
  t ++ r = u ++ r' -> firstn 39 f = firstn 39 g /\ r = r'.
Proof.
  intros Hf Hg Ht Hu H.
  assert (S : t = u /\ r = r').
  { unfold debug_command_flags, slice in Ht, Hu. rewrite Hf in Ht. rewrite Hg in Hu.
    cbn [Nat.leb andb bind Nat.sub] in Ht, Hu.
    assert (T := f_equal (fun o => match o with Ok t => t | _ => "" end) Ht). cbn beta iota in T.
    assert (U := f_equal (fun o => match o with Ok t => t | _ => "" end) Hu). cbn beta iota in U.
    rewrite <- T, <- U in H |- *. rewrite !sapp_assoc in H.
    apply list_unambiguous in H. destruct H as [-> H]. apply sapp_inv in H.
    apply list_unambiguous in H. destruct H as [-> H]. apply sapp_inv in H.
    apply list_unambiguous in H. destruct H as [-> H]. apply sapp_inv in H. auto. }
  destruct S as [<- ->]. split; [|reflexivity].
  apply (debug_flags_iff (E := E)); [assumption|assumption|congruence].
Qed.
Lemma return_text {E} r : return_good r -> exists v, @return_variant F V D E r = Ok v.
Proof.
  destruct r; cbn [return_variant]; intros G; eauto.
  unfold debug_local_supported_commands. destruct (debug_flags_text (E := E) _ (proj1 G)) as [t ->].
  cbn [bind]. eauto.
Qed.
Lemma return_word {E} r v : @return_variant F V D E r = Ok v -> wordy (fst v) = true.
Proof.
  destruct r; cbn [return_variant]; intros [= <-] || intros H; try reflexivity.
  unfold debug_local_supported_commands in H. destruct (debug_command_flags _); try discriminate H.
  now injection H as <-.
Qed.
Lemma return_legible {E} r r' v v' R R' : return_good r -> return_good r' ->
  @return_variant F V D E r = Ok v -> @return_variant F V D E r' = Ok v' -> closes R -> closes R' ->
  debug_variant v ++ R = debug_variant v' ++ R' -> same_return r r' /\ R = R'.
Proof.
  intros G G' Hv Hv' C C' H.
  apply variant_split in H; [|now apply (return_word (E := E) r)|now apply (return_word (E := E) r')|exact C|exact C'].
  destruct H as [K H].
  destruct r; cbn [return_variant] in Hv; settle Hv; cbn [fst snd] in K, H.
  all: destruct r'; cbn [return_variant] in Hv'; settle Hv'; cbn [fst snd] in K, H.
  all: try (apply String.eqb_eq in K; vm_compute in K; discriminate K); clear K.
  all: cbn [args_text concat List.app] in H; rewrite ?sapp_assoc in H.
  all: cbn [return_good] in G, G'.
  all: try solve [apply sapp_inv in H; peel_values H; subst; split; [left; congruence|congruence]].
  destruct p as [st f], p0 as [st' g]. cbn [lsc_commands lsc_status] in *.
  unfold debug_struct in H. cbn [map concat] in H. unfold debug_field in H. cbn [fst snd] in H.
  rewrite ?sapp_assoc in H. do 5 apply sapp_inv in H.
  apply (use_legible any) in H; [|eauto 3 with legible|exact I|exact I|auto with closing|auto with closing].
  destruct H as [<- H]. do 3 apply sapp_inv in H.
  destruct G as [G Gb], G' as [G' Gb']. apply (flags_legible (E := E) f g) in H; try assumption. destruct H as [S H]. do 2 apply sapp_inv in H.
  split; [|exact H]. right. exists st, f, g. auto 10.
Qed.

(** ** Events *)
Definition event_good (e : event V) : Prop :=
  match e with
  | EvLeReadRemoteUsedFeaturesComplete e => within F LinkLayerFeature (lrf_features e)
  | EvCommandComplete e => return_good (cc_return_params e)
  | EvNumberOfCompletedPackets e => exists l, iterates (@ncp_next Empty_set e) O l
  | EvLeAdvertisingReport e => exists l, iterates (@lar_next Empty_set e) O l /\ Forall advertisement_ok l
  | _ => True
  end.
Definition same_event (e e' : event V) : Prop :=
  e = e'
  \/ (exists a b l, iterates (@ncp_next Empty_set a) O l /\ iterates (@ncp_next Empty_set b) O l
        /\ e = EvNumberOfCompletedPackets a /\ e' = EvNumberOfCompletedPackets b)
  \/ (exists a b l, iterates (@lar_next Empty_set a) O l /\ iterates (@lar_next Empty_set b) O l
        /\ e = EvLeAdvertisingReport a /\ e' = EvLeAdvertisingReport b)
  \/ (exists n r r', same_return r r'
        /\ e = EvCommandComplete (Build_command_complete n r)
        /\ e' = EvCommandComplete (Build_command_complete n r')).

(** The name and the argument of the text. *)
Definition event_name (e : event V) : string :=
  match e with
  | EvConnectionComplete _ => "ConnectionComplete"
  | EvDisconnectionComplete _ => "DisconnectionComplete"
  | EvEncryptionChange _ => "EncryptionChange"
  | EvReadRemoteVersionInformationComplete _ => "ReadRemoteVersionInformationComplete"
  | EvCommandComplete _ => "CommandComplete"
  | EvCommandStatus _ => "CommandStatus"
  | EvHardwareError _ => "HardwareError"
  | EvNumberOfCompletedPackets _ => "NumberOfCompletedPackets"
  | EvDataBufferOverflow _ => "DataBufferOverflow"
  | EvEncryptionKeyRefreshComplete _ => "EncryptionKeyRefreshComplete"
  | EvLeConnectionComplete _ => "LeConnectionComplete"
  | EvLeAdvertisingReport _ => "LeAdvertisingReport"
  | EvLeConnectionUpdateComplete _ => "LeConnectionUpdateComplete"
  | EvLeReadRemoteUsedFeaturesComplete _ => "LeReadRemoteUsedFeaturesComplete"
  | EvLeLongTermKeyRequest _ => "LeLongTermKeyRequest"
  | EvLeDataLengthChangeEvent _ => "LeDataLengthChangeEvent"
  | EvLePhyUpdateComplete _ => "LePhyUpdateComplete"
  | EvVendor _ => "Vendor"
  end.
Definition event_body (e : event V) (t : string) : Prop :=
  match e with
  | EvConnectionComplete e => t = debug_connection_complete D e
  | EvDisconnectionComplete e => t = debug_disconnection_complete D e
  | EvEncryptionChange e => t = debug_encryption_change D e
  | EvReadRemoteVersionInformationComplete e => t = debug_remote_version_information D e
  | EvCommandComplete e => @debug_command_complete F V D Empty_set e = Ok t
  | EvCommandStatus e => t = debug_command_status D e
  | EvHardwareError e => t = debug_hardware_error e
  | EvNumberOfCompletedPackets e =>
      exists l, iterates (@ncp_next Empty_set e) O l /\ t = "{" ++ shown debug_completed_packets_pair l
  | EvDataBufferOverflow e => t = debug_data_buffer_overflow e
  | EvEncryptionKeyRefreshComplete e => t = debug_encryption_key_refresh_complete D e
  | EvLeConnectionComplete e => t = debug_le_connection_complete D e
  | EvLeAdvertisingReport e =>
      exists l, iterates (@lar_next Empty_set e) O l /\ Forall advertisement_ok l
        /\ t = "{" ++ shown debug_le_advertisement l
  | EvLeConnectionUpdateComplete e => t = debug_le_connection_update_complete D e
  | EvLeReadRemoteUsedFeaturesComplete e => t = debug_le_read_remote_used_features_complete F D e
  | EvLeLongTermKeyRequest e => t = debug_le_long_term_key_request e
  | EvLeDataLengthChangeEvent e => t = debug_le_data_length_change_event e
  | EvLePhyUpdateComplete e => t = debug_le_phy_update_complete D e
  | EvVendor x => t = show_event D x
  end.
Lemma event_text e : event_good e -> exists t, event_body e t
  /\ prints (fun fuel => @debug_event F V D Empty_set fuel e) (event_name e ++ "(" ++ t ++ ")").
Proof.
  destruct e; cbn [event_good event_body event_name]; intros G;
    try (eexists; split; [reflexivity|]; exists O; intros fuel _; reflexivity).
  - unfold debug_command_complete. destruct (return_text (E := Empty_set) _ G) as [v Hv]. 
    eexists. split; [rewrite Hv; reflexivity|]. exists O. intros fuel _. cbn [debug_event].
    unfold debug_command_complete. rewrite Hv. reflexivity.
  - destruct G as [l It]. eexists. split; [exists l; split; [exact It|reflexivity]|].
    destruct (completed_packets_printed _ _ It) as [n P]. exists n. intros fuel Hf. cbn [debug_event].
    now rewrite (P fuel Hf).
  - destruct G as (l & It & Ok). eexists. split; [exists l; split; [exact It|split; [exact Ok|reflexivity]]|].
    destruct (report_printed _ _ It) as [n P]. exists n. intros fuel Hf. cbn [debug_event].
    now rewrite (P fuel Hf).
Qed.
Lemma event_word e : wordy (event_name e) = true.
Proof. destruct e; reflexivity. Qed.

Lemma shown_legible {A} (P : A -> Prop) (show : A -> string) c :
  unambiguous P show -> (forall a, exists t, show a = String c t) -> c <> "}"%char ->
  forall l l' r r', Forall P l -> Forall P l' -> shown show l ++ r = shown show l' ++ r' -> l = l' /\ r = r'.
Proof.
  intros U Hc Hn. induction l as [|a l IH]; intros [|b l'] r r' H1 H2 H; cbn [shown fold_right] in H.
  - split; [reflexivity|]. cbn in H. congruence.
  - destruct (Hc b) as [t Ht]. rewrite Ht in H. cbn in H. congruence.
  - destruct (Hc a) as [t Ht]. rewrite Ht in H. cbn in H. congruence.
  - rewrite !sapp_assoc in H. apply U in H; [|now apply Forall_inv in H1|now apply Forall_inv in H2].
    destruct H as [-> H]. apply IH in H; [|now apply Forall_inv_tail in H1|now apply Forall_inv_tail in H2].
    destruct H as [-> ->]. auto.
Qed.
Lemma command_complete_split {E} e e' t t' R R' :
  return_good (cc_return_params e) -> return_good (cc_return_params e') ->
  @debug_command_complete F V D E e = Ok t -> @debug_command_complete F V D E e' = Ok t' ->
  closes R -> closes R' -> t ++ R = t' ++ R' ->
  same_return (cc_return_params e) (cc_return_params e')
  /\ cc_num_hci_command_packets e = cc_num_hci_command_packets e' /\ R = R'.
Proof.
  intros G G' Ht Ht' C C' H. unfold debug_command_complete in Ht, Ht'.
  destruct (return_variant F D (cc_return_params e)) as [v| |] eqn:Hv; cbn [bind] in Ht; try discriminate Ht.
  destruct (return_variant F D (cc_return_params e')) as [v'| |] eqn:Hv'; cbn [bind] in Ht'; try discriminate Ht'.
  injection Ht as <-. injection Ht' as <-.
  unfold debug_struct in H. cbn [map concat] in H. unfold debug_field in H. cbn [fst snd] in H.
  rewrite ?sapp_assoc in H. do 4 apply sapp_inv in H.
  apply uint_legible in H; [|exact I|exact I|auto with closing|auto with closing].
  destruct H as [S H]. do 3 apply sapp_inv in H.
  apply (return_legible _ _ _ _ _ _ G G' Hv Hv') in H; [|auto with closing|auto with closing].
  destruct H as [K H]. apply sapp_inv in H. auto.
Qed.
Lemma event_split e e' t t' R R' : event_good e -> event_good e' -> event_body e t -> event_body e' t' ->
  closes R -> closes R' ->
  (event_name e ++ "(" ++ t ++ ")") ++ R = (event_name e' ++ "(" ++ t' ++ ")") ++ R' ->
  same_event e e' /\ R = R'.
Proof.
  intros G G' B B' C C' H. rewrite !sapp_assoc in H.
  apply word_split in H; [|apply event_word|apply event_word|reflexivity|reflexivity].
  destruct H as [K H]. apply sapp_inv in H.
  destruct e, e'; cbn [event_name] in K; try (apply String.eqb_eq in K; vm_compute in K; discriminate K); clear K;
    cbn [event_good event_body] in G, G', B, B';
    try solve [subst t t'; peel_values H; subst; split; [left; congruence|congruence]].
  - apply (command_complete_split (E := Empty_set) e e0) in H; try assumption;
      [|auto with closing|auto with closing].
    destruct H as (S & Sn & H). apply sapp_inv in H. split; [|exact H].
    do 3 right. destruct e as [n r], e0 as [n' r']. cbn in Sn, S. subst n'. exists n, r, r'. auto.
  - destruct B as (l & It & ->), B' as (l' & It' & ->). rewrite !sapp_assoc in H. apply sapp_inv in H.
    apply (shown_legible _ _ "N"%char pair_unambiguous) in H.
    + destruct H as [<- H]. apply sapp_inv in H. split; [|exact H]. right. left. exists e, e0, l. auto.
    + intros a. eexists. reflexivity.
    + discriminate.
    + apply Forall_forall. intros x _. exact I.
    + apply Forall_forall. intros x _. exact I.
  - assert (K : forall l, Forall advertisement_ok l -> Forall advertisement_shown l).
    { intros l. apply Forall_impl. intros a [_ Ha]. unfold advertisement_shown, rssi_typed.
      destruct (la_rssi a); tauto. }
    destruct B as (l & It & Bo & ->), B' as (l' & It' & Bo' & ->). rewrite !sapp_assoc in H. apply sapp_inv in H.
    apply (shown_legible _ _ "L"%char advertisement_unambiguous) in H.
    + destruct H as [<- H]. apply sapp_inv in H. split; [|exact H]. do 2 right. left. exists e, e0, l. auto.
    + intros a. eexists. reflexivity.
    + discriminate.
    + now apply K.
    + now apply K.
Qed.
End Vendor.
