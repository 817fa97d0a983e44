(** * Command Complete events: results by kind of command. *)
From Verif Require Import Base Model_Types Model_Bitflags Model_Intervals
  Model_EventBase Model_Command Model_Event Spec_Wire Spec_Interval Spec_Errors
  Proofs_Base Proofs_Event Proofs_Errors Proofs_Command.

Section Complete.
Context (F : features) (V : vendor).
Local Notation VE := (VError V).

Lemma complete_short p : (length p < 3)%nat ->
  event_new F V (framed 0x0E p) = Err (EBadLength (length p) 3).
Proof.
  intros H. rewrite event_new_framed.
  change (event_dispatch F V 0x0E p) with (wrap V (command_complete_new F V p) EvCommandComplete).
  now rewrite command_complete_short.
Qed.

Lemma complete_event n op ret : u16 op ->
  event_new F V (framed 0x0E ([n] ++ le 2 op ++ ret))
  = let! r := return_params_of F V op ([n] ++ le 2 op ++ ret) in
    Ok (EvCommandComplete (Build_command_complete n r)).
Proof.
  intros Hop. rewrite event_new_framed.
  change (event_dispatch F V 0x0E ([n] ++ le 2 op ++ ret))
    with (wrap V (command_complete_new F V ([n] ++ le 2 op ++ ret)) EvCommandComplete).
  rewrite le_2. cbn [app]. rewrite command_complete_cons, read_le_2 by exact Hop.
  unfold wrap. destruct (return_params_of _ _ _ _); reflexivity.
Qed.

Lemma complete_unknown n op ret : u16 op -> ~ In op known_opcodes -> op / 1024 <> 0x3F ->
  event_new F V (framed 0x0E ([n] ++ le 2 op ++ ret)) = Err (EUnknownOpcode op).
Proof.
  intros Hop Hin Hogf. rewrite complete_event by exact Hop.
  rewrite return_unknown by exact Hin.
  destruct (N.eqb_spec (opcode_ogf op) 0x3F) as [e|_]; [|reflexivity].
  exfalso. apply Hogf. apply (vendor_opcode op). auto.
Qed.

Lemma complete_agrees n op ret c : u16 op ->
  agrees (return_params_of F V op ([n] ++ le 2 op ++ ret)) c ->
  agrees (event_new F V (framed 0x0E ([n] ++ le 2 op ++ ret))) c.
Proof.
  intros Hop H. rewrite complete_event by exact Hop. destruct c; cbn in *.
  - now rewrite H.
  - destruct H as [r ->]. cbn. eauto.
Qed.

Context (HV : vendor_total V).

Lemma complete_errors n op ret cs : u16 op -> bytes ret -> return_checks F V op ret = Some cs ->
  agrees (event_new F V (framed 0x0E ([n] ++ le 2 op ++ ret))) (first_error cs).
Proof.
  intros Hop Hb H. apply complete_agrees; [exact Hop|].
  rewrite le_2. cbn [app]. now apply return_agrees.
Qed.

Lemma complete_status_only n op sb rest : In op status_only_opcodes -> u16 op ->
  agrees (event_new F V (framed 0x0E ([n] ++ le 2 op ++ sb :: rest)))
         (status_is F V EBadStatus sb).
Proof.
  intros H Hop. apply complete_agrees; [exact Hop|].
  rewrite le_2. cbn [app]. now apply status_only_agrees.
Qed.

Lemma complete_status_only_rest n op sb rest rest' : In op status_only_opcodes -> u16 op ->
  event_new F V (framed 0x0E ([n] ++ le 2 op ++ sb :: rest))
  = event_new F V (framed 0x0E ([n] ++ le 2 op ++ sb :: rest')).
Proof.
  intros H Hop. rewrite !complete_event by exact Hop.
  destruct (status_only_arm F V op H) as [mk K]. rewrite !K, le_2. cbn [app].
  now rewrite !arm_cons.
Qed.

(** ** Status-only commands *)
Lemma status_only_variants_opcodes op mk : In (op, mk) (status_only_variants F V) ->
  In op status_only_opcodes /\ u16 op.
Proof.
  unfold status_only_variants. intros H.
  repeat (destruct H as [H|H]; [injection H as <- <-; split; [cbn; tauto|reflexivity]|]).
  destruct H.
Qed.

Lemma status_only_wire op mk s sb rest : In (op, mk) (status_only_variants F V) ->
  status_byte F V sb s -> wire_return F V (mk s) op (sb :: rest).
Proof.
  intros H Hs. unfold status_only_variants in H.
  assert (K : status_first F V s (sb :: rest)) by (exists sb, rest; auto).
  destruct (version_5_0 F) eqn:E;
  repeat (destruct H as [H|H];
    [injection H as <- <-; cbn [wire_return]; repeat (split; [first [reflexivity|exact E]|]); exact K|]);
  destruct H.
Qed.

(** ** Bit fields *)
Lemma status_byte_is mk sb s : status_byte F V sb s -> status_is F V mk sb = None.
Proof.
  unfold status_byte, status_is. destruct (nth_error _ _); [reflexivity|].
  intros (v & -> & _). reflexivity.
Qed.

Lemma number_le_le n v : v < 256 ^ N.of_nat n -> number_le (le n v) = v.
Proof.
  revert v. induction n as [|n IH]; intros v H.
  - change (256 ^ N.of_nat 0) with 1 in H. rewrite le_O. cbn. lia.
  - rewrite le_S. unfold number_le. cbn [fold_right]. fold (number_le (le n (v / 256))).
    rewrite Nat2N.inj_succ, N.pow_succ_r' in H. rewrite IH.
    + rewrite (N.div_mod v 256) at 3 by discriminate. lia.
    + apply N.div_lt_upper_bound; [discriminate|exact H].
Qed.

Lemma u64_number v : u64 v -> number_le (le 8 v) = v.
Proof. intros H. apply number_le_le. exact H. Qed.

Lemma complete_bytes n op ret : byte n -> bytes ret -> (3 + length ret < 256)%nat ->
  bytes (framed 0x0E ([n] ++ le 2 op ++ ret)).
Proof.
  intros Hn Hr Hl. unfold framed. apply bytes_cons. split; [reflexivity|].
  apply bytes_cons. split.
  - unfold byte. rewrite !app_length, le_length. cbn [length]. lia.
  - apply bytes_app. split; [apply bytes_cons; auto using bytes_nil|].
    apply bytes_app. split; [apply le_is_bytes|exact Hr].
Qed.

Lemma complete_accepted n op ret r : byte n -> u16 op -> bytes ret -> (3 + length ret < 256)%nat ->
  wire_return F V r op ret ->
  event_new F V (framed 0x0E ([n] ++ le 2 op ++ ret))
  = Ok (EvCommandComplete (Build_command_complete n r)).
Proof.
  intros Hn Hop Hr Hl H. apply command_complete_dispatch_iff; [now apply complete_bytes|].
  exists op, ret. split; [exact Hop|]. split; [|now left].
  unfold framed. rewrite !app_length, le_length. reflexivity.
Qed.

Lemma status_only_reported n op mk sb s rest : In (op, mk) (status_only_variants F V) ->
  byte n -> byte sb -> bytes rest -> (4 + length rest < 256)%nat -> status_byte F V sb s ->
  event_new F V (framed 0x0E ([n] ++ le 2 op ++ sb :: rest))
  = Ok (EvCommandComplete (Build_command_complete n (mk s))).
Proof.
  intros H Hn Hsb Hr Hl Hs. apply complete_accepted; try assumption.
  - exact (proj2 (status_only_variants_opcodes op mk H)).
  - apply bytes_cons. auto.
  - now apply status_only_wire.
Qed.

Lemma status_only_refused n op mk sb e rest : In (op, mk) (status_only_variants F V) ->
  status_byte_refused F V sb e ->
  event_new F V (framed 0x0E ([n] ++ le 2 op ++ sb :: rest)) = Err (EBadStatus e).
Proof.
  intros H [R1 R2]. destruct (status_only_variants_opcodes op mk H) as [I U].
  assert (K := complete_status_only n op sb rest I U). unfold status_is in K.
  rewrite R1, R2 in K. exact K.
Qed.

Lemma states_strict n sb s v : byte n -> byte sb -> status_byte F V sb s -> u64 v ->
  let pkt := framed 0x0E ([n] ++ le 2 (hci_opcode 0x08 0x01C) ++ [sb] ++ le 8 v) in
  (only_defined le_state_defined (N.testbit v) ->
     event_new F V pkt = Ok (EvCommandComplete (Build_command_complete n
       (RetLeReadSupportedStates (Build_le_read_supported_states_params s v)))))
  /\ (~ only_defined le_state_defined (N.testbit v) ->
     event_new F V pkt = Err (EInvalidLeStates v)).
Proof.
  intros Hn Hsb Hs Hv pkt.
  assert (Hret : bytes ([sb] ++ le 8 v))
    by (apply bytes_app; split; [apply bytes_cons; auto using bytes_nil|apply le_is_bytes]).
  assert (Hl : length ([sb] ++ le 8 v) = 9%nat) by (rewrite app_length, le_length; reflexivity).
  split.
  - intros H. apply complete_accepted; try assumption; [reflexivity|rewrite Hl; lia|].
    cbn [wire_return lrs_states lrs_status]. split; [reflexivity|].
    repeat (split; [assumption|]). exists sb. auto.
  - intros H. assert (K := complete_errors n (hci_opcode 0x08 0x01C) ([sb] ++ le 8 v) _ eq_refl Hret eq_refl).
    fold pkt in K. cbn [first_error] in K.
    unfold length_is in K. rewrite Hl, Nat.eqb_refl in K.
    unfold at_ in K. cbn [nth app skipn] in K.
    rewrite (status_byte_is _ _ _ Hs), u64_number in K by exact Hv.
    destruct (bits_are_spec V 64 le_state_defined (N.testbit v)
                (EInvalidLeStates v) (fun i => u64_bits v i Hv)) as [_ D].
    rewrite D in K by exact H. exact K.
Qed.

Lemma channel_map_strict n sb s h m : byte n -> byte sb -> status_byte F V sb s -> u16 h ->
  bytes m -> length m = 5%nat ->
  let pkt := framed 0x0E ([n] ++ le 2 (hci_opcode 0x08 0x015) ++ [sb] ++ le 2 h ++ m) in
  (only_defined channel_defined (array_bit m) ->
     event_new F V pkt = Ok (EvCommandComplete (Build_command_complete n
       (RetLeReadChannelMap (Build_channel_map_parameters s h m)))))
  /\ (~ only_defined channel_defined (array_bit m) ->
     event_new F V pkt = Err (EInvalidChannelMap m)).
Proof.
  intros Hn Hsb Hs Hh Hm Lm pkt.
  assert (Hret : bytes ([sb] ++ le 2 h ++ m)).
  { apply bytes_app; split; [apply bytes_cons; auto using bytes_nil|].
    apply bytes_app. split; [apply le_is_bytes|exact Hm]. }
  assert (Hl : length ([sb] ++ le 2 h ++ m) = 8%nat)
    by (rewrite !app_length, le_length, Lm; reflexivity).
  split.
  - intros H. apply complete_accepted; try assumption; [reflexivity|rewrite Hl; lia|].
    cbn [wire_return cmp_conn_handle cmp_channel_map cmp_status]. split; [reflexivity|].
    repeat (split; [assumption|]). exists sb. auto.
  - intros H. assert (K := complete_errors n (hci_opcode 0x08 0x015) ([sb] ++ le 2 h ++ m) _ eq_refl Hret eq_refl).
    fold pkt in K. cbn [first_error] in K.
    unfold length_is in K. rewrite Hl, Nat.eqb_refl in K.
    replace (skipn 3 ([sb] ++ le 2 h ++ m)) with m in K
      by (rewrite le_2; reflexivity).
    unfold at_ in K. cbn [nth app] in K. rewrite (status_byte_is _ _ _ Hs) in K.
    destruct (bits_are_spec V 40 channel_defined (array_bit m) (EInvalidChannelMap m)) as [_ D].
    { intros i Hi. apply array_bits. rewrite Lm. exact Hi. }
    rewrite D in K by exact H. exact K.
Qed.

Lemma commands_strict n sb s m : byte n -> byte sb -> status_byte F V sb s ->
  bytes m -> length m = 64%nat ->
  let pkt := framed 0x0E ([n] ++ le 2 (hci_opcode 0x04 0x002) ++ [sb] ++ m) in
  (only_defined (command_bit_defined F) (array_bit m) ->
     event_new F V pkt = Ok (EvCommandComplete (Build_command_complete n
       (RetReadLocalSupportedCommands (Build_local_supported_commands s m)))))
  /\ (~ only_defined (command_bit_defined F) (array_bit m) ->
     event_new F V pkt = Err EBadCommandFlag).
Proof.
  intros Hn Hsb Hs Hm Lm pkt.
  assert (Hret : bytes ([sb] ++ m))
    by (apply bytes_app; split; [apply bytes_cons; auto using bytes_nil|exact Hm]).
  assert (Hl : length ([sb] ++ m) = 65%nat) by (rewrite !app_length, Lm; reflexivity).
  split.
  - intros H. apply complete_accepted; try assumption; [reflexivity|rewrite Hl; lia|].
    cbn [wire_return lsc_commands lsc_status]. split; [reflexivity|].
    repeat (split; [assumption|]). exists sb. auto.
  - intros H. assert (K := complete_errors n (hci_opcode 0x04 0x002) ([sb] ++ m) _ eq_refl Hret eq_refl).
    fold pkt in K. cbn [first_error] in K.
    unfold length_is in K. rewrite Hl, Nat.eqb_refl in K.
    replace (skipn 1 ([sb] ++ m)) with m in K by reflexivity.
    unfold at_ in K. cbn [nth app] in K. rewrite (status_byte_is _ _ _ Hs) in K.
    destruct (bits_are_spec V 512 (command_bit_defined F) (array_bit m) EBadCommandFlag) as [_ D].
    { intros i Hi. apply array_bits. rewrite Lm. exact Hi. }
    rewrite D in K by exact H. exact K.
Qed.

Lemma used_features_strict sb s h v : byte sb -> status_byte F V sb s -> u16 h -> u64 v ->
  let pkt := framed 0x3E ([0x04; sb] ++ le 2 h ++ le 8 v) in
  (only_defined (le_feature_defined F) (N.testbit v) ->
     event_new F V pkt
     = Ok (EvLeReadRemoteUsedFeaturesComplete (Build_le_read_remote_used_features_complete s h v)))
  /\ (~ only_defined (le_feature_defined F) (N.testbit v) ->
     event_new F V pkt = Err (EBadRemoteUsedFeatureFlag v)).
Proof.
  intros Hsb Hs Hh Hv pkt.
  assert (Hp : bytes ([0x04; sb] ++ le 2 h ++ le 8 v)).
  { apply bytes_app; split; [repeat (apply bytes_cons; split; [assumption || reflexivity|]); apply bytes_nil|].
    apply bytes_app. split; apply le_is_bytes. }
  assert (Hl : length ([0x04; sb] ++ le 2 h ++ le 8 v) = 12%nat)
    by (rewrite !app_length, !le_length; reflexivity).
  split.
  - intros H. apply le_used_features_packet.
    + apply bytes_cons. split; [reflexivity|]. apply bytes_cons. split; [rewrite Hl; reflexivity|exact Hp].
    + exists sb. repeat (split; [assumption|]). unfold pkt, framed. rewrite Hl. reflexivity.
  - intros H. assert (K := event_agrees F V HV 0x3E ([0x04; sb] ++ le 2 h ++ le 8 v) _ Hp eq_refl).
    fold pkt in K. cbn [first_error] in K.
    unfold length_is in K. rewrite Hl, Nat.eqb_refl in K.
    replace (skipn 4 ([0x04; sb] ++ le 2 h ++ le 8 v)) with (le 8 v) in K
      by (rewrite le_2; reflexivity).
    unfold at_ in K. cbn [nth app] in K.
    rewrite (status_byte_is _ _ _ Hs), u64_number in K by exact Hv.
    destruct (bits_are_spec V 64 (le_feature_defined F) (N.testbit v)
                (EBadRemoteUsedFeatureFlag v) (fun i => u64_bits v i Hv)) as [_ D].
    rewrite D in K by exact H. exact K.
Qed.

(** Lenient fields. *)
Lemma masked_exists v (d : N -> bool) : u64 v ->
  exists w, forall i, N.testbit w i = (N.testbit v i && d i)%bool.
Proof.
  intros Hv.
  assert (G : forall n, exists w, forall i,
    N.testbit w i = ((i <? N.of_nat n) && N.testbit v i && d i)%bool).
  { induction n as [|n [w Hw]].
    - exists 0. intros i. rewrite N.bits_0. destruct (N.ltb_spec i (N.of_nat 0)); [lia|reflexivity].
    - exists (if (N.testbit v (N.of_nat n) && d (N.of_nat n))%bool then N.setbit w (N.of_nat n) else w).
      intros i. destruct (N.eq_dec i (N.of_nat n)) as [->|Hi].
      + replace (N.of_nat n <? N.of_nat (S n)) with true by (symmetry; apply N.ltb_lt; lia).
        cbn [andb].
        destruct (N.testbit v (N.of_nat n) && d (N.of_nat n))%bool.
        * apply N.setbit_eq.
        * rewrite Hw. now rewrite N.ltb_irrefl.
      + replace (i <? N.of_nat (S n)) with (i <? N.of_nat n)
          by (destruct (N.ltb_spec i (N.of_nat n)), (N.ltb_spec i (N.of_nat (S n))); try lia; reflexivity).
        destruct (_ && _)%bool; [|apply Hw].
        rewrite N.setbit_neq by (intros E; now apply Hi). apply Hw. }
  destruct (G 64%nat) as [w Hw]. exists w. intros i. rewrite Hw.
  destruct (N.ltb_spec i (N.of_nat 64)) as [H|H]; [reflexivity|].
  rewrite (u64_bits v i Hv H). reflexivity.
Qed.

Lemma lmp_features_lenient n sb s v : byte n -> byte sb -> status_byte F V sb s -> u64 v ->
  exists w, (forall i, N.testbit w i = (N.testbit v i && lmp_feature_defined i)%bool)
  /\ event_new F V (framed 0x0E ([n] ++ le 2 (hci_opcode 0x04 0x003) ++ [sb] ++ le 8 v))
     = Ok (EvCommandComplete (Build_command_complete n
         (RetReadLocalSupportedFeatures (Build_local_supported_features s w)))).
Proof.
  intros Hn Hsb Hs Hv. destruct (masked_exists v lmp_feature_defined Hv) as [w Hw].
  exists w. split; [exact Hw|].
  assert (Hret : bytes ([sb] ++ le 8 v))
    by (apply bytes_app; split; [apply bytes_cons; auto using bytes_nil|apply le_is_bytes]).
  assert (Hl : length ([sb] ++ le 8 v) = 9%nat) by (rewrite app_length, le_length; reflexivity).
  apply complete_accepted; try assumption; [reflexivity|rewrite Hl; lia|].
  cbn [wire_return lsf_features lsf_status]. split; [reflexivity|]. exists v.
  repeat (split; [assumption|]). exists sb. auto.
Qed.

Lemma le_features_lenient n sb s v : byte n -> byte sb -> status_byte F V sb s -> u64 v ->
  exists w, (forall i, N.testbit w i = (N.testbit v i && le_feature_defined F i)%bool)
  /\ event_new F V (framed 0x0E ([n] ++ le 2 (hci_opcode 0x08 0x003) ++ [sb] ++ le 8 v))
     = Ok (EvCommandComplete (Build_command_complete n
         (RetLeReadLocalSupportedFeatures (Build_le_supported_features s w)))).
Proof.
  intros Hn Hsb Hs Hv. destruct (masked_exists v (le_feature_defined F) Hv) as [w Hw].
  exists w. split; [exact Hw|].
  assert (Hret : bytes ([sb] ++ le 8 v))
    by (apply bytes_app; split; [apply bytes_cons; auto using bytes_nil|apply le_is_bytes]).
  assert (Hl : length ([sb] ++ le 8 v) = 9%nat) by (rewrite app_length, le_length; reflexivity).
  apply complete_accepted; try assumption; [reflexivity|rewrite Hl; lia|].
  cbn [wire_return lef_features lef_status]. split; [reflexivity|]. exists v.
  repeat (split; [assumption|]). exists sb. auto.
Qed.

End Complete.

Lemma command_complete_layout F V pkt n (r : return_parameters V) : bytes pkt ->
  (forall v, r <> RetVendor v) ->
  event_new F V pkt = Ok (EvCommandComplete (Build_command_complete n r)) <->
  exists op ret, u16 op /\ pkt = [0x0E; N.of_nat (3 + length ret); n] ++ le 2 op ++ ret
    /\ wire_return F V r op ret.
Proof.
  intros Hb Hv. rewrite (command_complete_dispatch_iff F V pkt n r Hb). split.
  - intros (op & ret & U & E & [W|(v & _ & _ & K)]); [now exists op, ret|]. now destruct (Hv v).
  - intros (op & ret & U & E & W). exists op, ret. auto.
Qed.
