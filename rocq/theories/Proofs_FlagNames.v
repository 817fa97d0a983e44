(** * The named flag constants. *)
From Verif Require Import Base Model_Types Model_Bitflags Model_FlagNames Model_EventBase
  Model_Command Model_Event Model_Host Spec_Wire Spec_Interval Spec_Errors Spec_Report Spec_Flags Spec_Adv Spec_Host
  Spec_FlagNames Proofs_Base Proofs_Bits Proofs_Event Proofs_Report Proofs_Errors Proofs_Panic Proofs_Complete Proofs_Flags
  Proofs_Address Proofs_Calls Proofs_Streams.
Open Scope list_scope.
Open Scope N_scope.

Lemma contains_bit m b : bf_contains m (N.shiftl 1 b) = N.testbit m b.
Proof.
  unfold bf_contains. rewrite N.shiftl_1_l.
  destruct (N.testbit m b) eqn:E.
  - apply N.eqb_eq. apply N.bits_inj. intros i. rewrite N.land_spec.
    destruct (N.eq_dec i b) as [->|H].
    + now rewrite E.
    + rewrite N.pow2_bits_false by (intros K; now apply H). apply Bool.andb_false_r.
  - apply N.eqb_neq. intros K. apply (f_equal (fun x => N.testbit x b)) in K.
    rewrite N.land_spec, E, N.pow2_bits_true in K. discriminate K.
Qed.

Lemma le8_bit v i : u64 v -> array_bit (le 8 v) i = N.testbit v i.
Proof.
  intros H. rewrite number_bit by apply le_is_bytes.
  change (number (le 8 v)) with (number_le (le 8 v)). now rewrite u64_number.
Qed.

(** A constant declared at a bit. *)
Lemma constant_at F names decl name b : declared F names decl name = Some b ->
  bf_constant F names decl name = Some (N.shiftl 1 b).
Proof. unfold bf_constant. intros ->. reflexivity. Qed.

(** ** Event masks *)
Section Masks.
Context (F : features) (V : vendor).

Lemma event_mask_named pkt ev name : event_new F V pkt = Ok ev -> event_flag ev = Some name ->
  exists c, event_constant F name = Some c
  /\ forall mask, u64 mask -> exists header params,
       sent F V uart_header (CSetEventMask mask) = [(header, params)]
       /\ event_enabled params pkt = bf_contains mask c.
Proof.
  intros H Hn. destruct (event_of_code F V pkt ev H) as (p & -> & _).
  assert (K : declared F EventFlags_names EventFlags name = Some (event_code ev - 1)).
  { destruct F as [[] []], ev; cbn [event_flag] in Hn; try discriminate Hn;
      injection Hn as <-; vm_compute; reflexivity. }
  exists (N.shiftl 1 (event_code ev - 1)). split; [now apply constant_at|].
  intros mask Hm.
  rewrite (sent_spec F V uart_header uart_header_bytes (CSetEventMask mask) (or_introl eq_refl) Hm).
  eexists _, _. split; [reflexivity|]. unfold event_enabled, framed. cbn [app command_params].
  rewrite contains_bit. now apply le8_bit.
Qed.

Lemma le_event_mask_named pkt ev name : event_new F V pkt = Ok ev -> le_event_flag ev = Some name ->
  if le_event_known F ev then
    exists c, le_event_constant F name = Some c
    /\ forall mask, u64 mask -> exists header params,
         sent F V uart_header (CLeSetEventMask mask) = [(header, params)]
         /\ le_event_enabled params pkt = bf_contains mask c
  else le_event_constant F name = None.
Proof.
  intros H Hn. destruct (event_of_code F V pkt ev H) as (p & -> & Hs).
  assert (K : declared F LeEventFlags_names LeEventFlags name
              = if le_event_known F ev
                then match event_subcode ev with Some sub => Some (sub - 1) | None => None end
                else None).
  { destruct F as [[] []], ev; cbn [le_event_flag] in Hn; try discriminate Hn;
      injection Hn as <-; vm_compute; reflexivity. }
  destruct (le_event_known F ev).
  2: { unfold le_event_constant, bf_constant. now rewrite K. }
  destruct (event_subcode ev) as [sub|] eqn:Es.
  2: { destruct ev; discriminate. }
  destruct Hs as (rest & ->).
  exists (N.shiftl 1 (sub - 1)). split; [now apply constant_at|].
  intros mask Hm.
  rewrite (sent_spec F V uart_header uart_header_bytes (CLeSetEventMask mask) (or_introl eq_refl) Hm).
  eexists _, _. split; [reflexivity|].
  unfold le_event_enabled, framed. cbn [app command_params].
  rewrite contains_bit. now apply le8_bit.
Qed.

Lemma declared_in {A} names (decl : list (A * cfg)) name v :
  declared F names decl name = Some v -> exists c, In (v, c) decl /\ cfg_on F c = true.
Proof.
  revert decl. induction names as [|n names IH]; intros decl; [discriminate|].
  destruct decl as [|[w c] decl]; [discriminate|]. cbn [declared].
  destruct (String.eqb n name).
  - destruct (cfg_on F c) eqn:E; [|discriminate]. intros H. injection H as ->.
    exists c. split; [now left|exact E].
  - intros H. destruct (IH _ H) as (c' & Hin & Hc). exists c'. split; [now right|exact Hc].
Qed.

Lemma unmaskable pkt ev name c : event_new F V pkt = Ok ev -> event_flag ev = None ->
  event_constant F name = Some c -> event_enabled (le 8 c) pkt = false.
Proof.
  intros H Hn Hc. destruct (event_of_code F V pkt ev H) as (p & -> & _).
  unfold event_constant, bf_constant in Hc.
  destruct (declared F EventFlags_names EventFlags name) as [b|] eqn:E; [|discriminate Hc].
  cbn [option_map] in Hc. injection Hc as <-.
  destruct (declared_in _ _ _ _ E) as (g & Hin & _).
  unfold event_enabled, framed. cbn [app].
  assert (G : forallb (fun e => forallb (fun code =>
                negb (array_bit (le 8 (N.shiftl 1 (fst e))) (code - 1))) [0x0E; 0x0F; 0x13; 0xFF]) EventFlags = true)
    by (vm_compute; reflexivity).
  rewrite forallb_forall in G. specialize (G _ Hin). cbn [fst] in G.
  rewrite forallb_forall in G. specialize (G (event_code ev)).
  apply Bool.negb_true_iff, G.
  destruct ev; cbn [event_flag] in Hn; try discriminate Hn; cbn; tauto.
Qed.

(** ** Supported commands *)
Lemma command_declared (c : command V) name o b :
  command_flag c = Some name -> supported_bit c = Some (o, b) ->
  command_constant F name = Some (N.to_nat o, 2 ^ b).
Proof.
  intros Hn Hb.
  destruct F as [[] []], c; cbn [command_flag supported_bit] in Hn, Hb; try discriminate Hn;
    injection Hn as <-; injection Hb as <- <-; vm_compute; reflexivity.
Qed.

Lemma supported_bit_range (c : command V) o b : supported_bit c = Some (o, b) -> o < 64 /\ b < 8.
Proof.
  intros H. destruct c; cbn [supported_bit] in H; try discriminate H; injection H as <- <-;
    split; reflexivity.
Qed.

Lemma command_supported (c : command V) name o b n sb cmds ev :
  command_flag c = Some name -> supported_bit c = Some (o, b) -> length cmds = 64%nat ->
  let pkt := framed 0x0E ([n] ++ le 2 (hci_opcode 0x04 0x002) ++ [sb] ++ cmds) in
  bytes pkt -> event_new F V pkt = Ok ev ->
  exists fl p, command_constant F name = Some fl
    /\ ev = EvCommandComplete (Build_command_complete n (RetReadLocalSupportedCommands p))
    /\ @ba_is_set Empty_set (lsc_commands p) fl = Ok (N.testbit (nth (N.to_nat o) cmds 0) b).
Proof.
  intros Hn Hb Hl pkt Hbytes Hev.
  pose proof (command_declared c name o b Hn Hb) as Hc.
  pose proof (supported_bit_range c o b Hb) as [Ho Hb8].
  destruct (answer_variant F V CReadLocalSupportedCommands _ n ([sb] ++ cmds) ev eq_refl eq_refl
              Hbytes Hev) as (r & -> & (p & ->) & Hw).
  cbn [wire_return] in Hw. destruct Hw as (_ & Lp & Hd & sb' & _ & Heq).
  cbn [app] in Heq. apply cons_inv in Heq. destruct Heq as [_ Heq].
  exists (N.to_nat o, 2 ^ b), p. split; [exact Hc|]. split; [reflexivity|].
  rewrite <- Heq in Lp, Hd |- *.
  rewrite (is_set_spec F command_table).
  - unfold flag_bit, array_bit. cbn [fst snd]. rewrite N.log2_pow2 by lia.
    replace ((8 * N.of_nat (N.to_nat o) + b) / 8) with o by lia.
    replace ((8 * N.of_nat (N.to_nat o) + b) mod 8) with b by lia.
    rewrite (nth_error_nth' cmds 0) by (rewrite Hl; lia). reflexivity.
  - apply command_good.
  - split; [exact Lp|]. split; [|exact Hd].
    apply framed_bytes in Hbytes. apply bytes_app in Hbytes. destruct Hbytes as [_ Hbytes].
    apply bytes_app in Hbytes. destruct Hbytes as [_ Hbytes].
    apply bytes_app in Hbytes. exact (proj2 Hbytes).
  - unfold constants, ba_flags. apply in_map_iff.
    unfold command_constant in Hc. destruct (declared_in _ _ _ _ Hc) as (g & Hin & Hg).
    exists (N.to_nat o, 2 ^ b, g). split; [reflexivity|]. apply filter_In. now split.
Qed.
End Masks.

(** ** Unassigned and undeclared command bits *)
Section Undeclared.
Context (F : features) (V : vendor).

Lemma undeclared_not_defined i : In i undeclared_command_bits -> command_bit_defined F i = false.
Proof.
  intros [<-|[<-|[]]]; destruct F as [[] []]; vm_compute; reflexivity.
Qed.

Lemma declared_only m : only_defined (assigned_command_bit F) (array_bit m) ->
  (only_defined (command_bit_defined F) (array_bit m)
   <-> forall i, In i undeclared_command_bits -> array_bit m i = false).
Proof.
  intros H. split.
  - intros K i Hi. destruct (array_bit m i) eqn:E; [|reflexivity].
    apply K in E. rewrite (undeclared_not_defined i Hi) in E. discriminate E.
  - intros K i E. pose proof (H i E) as G. unfold assigned_command_bit in G.
    apply Bool.orb_true_iff in G. destruct G as [G|G]; [exact G|].
    apply existsb_exists in G. destruct G as (j & Hj & G). apply N.eqb_eq in G. subst j.
    rewrite (K i Hj) in E. discriminate E.
Qed.

Lemma conforming_commands (HV : vendor_total V) n sb s m : byte n -> byte sb -> status_byte F V sb s ->
  bytes m -> length m = 64%nat -> only_defined (assigned_command_bit F) (array_bit m) ->
  let pkt := framed 0x0E ([n] ++ le 2 (hci_opcode 0x04 0x002) ++ [sb] ++ m) in
  if (array_bit m (31 * 8 + 4) || array_bit m (31 * 8 + 5))%bool
  then event_new F V pkt = Err EBadCommandFlag
  else event_new F V pkt = Ok (EvCommandComplete (Build_command_complete n
         (RetReadLocalSupportedCommands (Build_local_supported_commands s m)))).
Proof.
  intros Hn Hsb Hs Hm Lm Ha pkt.
  destruct (commands_strict F V HV n sb s m Hn Hsb Hs Hm Lm) as [Hy Hno]. fold pkt in Hy, Hno.
  pose proof (declared_only m Ha) as [D1 D2].
  destruct (_ || _)%bool eqn:E.
  - apply Hno. intros K. specialize (D1 K). apply Bool.orb_true_iff in E.
    destruct E as [E|E]; rewrite D1 in E by (cbn; tauto); discriminate E.
  - apply Hy, D2. apply Bool.orb_false_iff in E. destruct E as [E1 E2].
    intros i [<-|[<-|[]]]; assumption.
Qed.

Lemma conforming_refused : vendor_total V -> exists cmds,
  bytes cmds /\ length cmds = 64%nat /\ only_defined (assigned_command_bit F) (array_bit cmds)
  /\ event_new F V (framed 0x0E ([1] ++ le 2 (hci_opcode 0x04 0x002) ++ [0] ++ cmds))
     = Err EBadCommandFlag.
Proof.
  intros HV. exists (repeat 0 31 ++ [0x30] ++ repeat 0 32)%list.
  assert (Hb : bytes (repeat 0 31 ++ [0x30] ++ repeat 0 32)).
  { apply bytes_app; split; [apply bytes_repeat|]. apply bytes_app; split; [|apply bytes_repeat].
    apply bytes_cons. split; [reflexivity|apply bytes_nil]. }
  assert (Ho : only_defined (assigned_command_bit F) (array_bit (repeat 0 31 ++ [0x30] ++ repeat 0 32))).
  { intros i Hi. unfold array_bit in Hi.
    destruct (N.eq_dec (i / 8) 31) as [E|E].
    - rewrite E in Hi. change (nth_error _ _) with (Some 0x30) in Hi.
      assert (K : i = 248 + i mod 8) by lia. rewrite K.
      assert (K8 : i mod 8 < 8) by lia. revert Hi K8. generalize (i mod 8). intros j Hi K8.
      assert (J : j = 4 \/ j = 5).
      { assert (D : j = 0 \/ j = 1 \/ j = 2 \/ j = 3 \/ j = 4 \/ j = 5 \/ j = 6 \/ j = 7) by lia.
        repeat (destruct D as [D|D]; [subst j; try discriminate Hi; auto|]).
        subst j; discriminate Hi. }
      unfold assigned_command_bit. apply Bool.orb_true_iff. right.
      destruct J as [-> | ->]; reflexivity.
    - exfalso. destruct (nth_error _ _) as [b|] eqn:En; [|discriminate Hi].
      assert (b = 0).
      { destruct (Nat.lt_ge_cases (N.to_nat (i / 8)) 31) as [L|L].
        - rewrite nth_error_app1 in En by (rewrite repeat_length; exact L).
          now apply nth_error_In, repeat_spec in En.
        - rewrite nth_error_app2 in En by (rewrite repeat_length; exact L).
          rewrite repeat_length in En. cbn [app] in En.
          destruct (N.to_nat (i / 8) - 31)%nat as [|k] eqn:Ek; [lia|].
          cbn [nth_error] in En. now apply nth_error_In, repeat_spec in En. }
      subst b. rewrite N.bits_0 in Hi. discriminate Hi. }
  split; [exact Hb|]. split; [reflexivity|]. split; [exact Ho|].
  exact (conforming_commands HV 1 0 Success _ eq_refl eq_refl eq_refl Hb eq_refl Ho).
Qed.
End Undeclared.

(** ** Features, states and channels *)
Section Named.
Context (F : features) (V : vendor).

Lemma lmp_declared name i : lmp_feature_at name i ->
  declared F LmpFeatures_names LmpFeatures name = Some i /\ lmp_feature_defined i = true.
Proof.
  intros (start & names & k & Hin & Hk & ->).
  assert (G : forallb (fun g => forallb (fun j =>
      match nth_error (snd g) j with
      | Some nm => match declared F LmpFeatures_names LmpFeatures nm with
                   | Some b => (b =? fst g + N.of_nat j) && lmp_feature_defined (fst g + N.of_nat j)
                   | None => false
                   end
      | None => true
      end) (seq 0 8)) lmp_features_core = true) by (destruct F as [[] []]; vm_compute; reflexivity).
  rewrite forallb_forall in G. specialize (G _ Hin). rewrite forallb_forall in G.
  assert (Hk8 : (k < 8)%nat).
  { assert (L : (k < length names)%nat) by (apply nth_error_Some; rewrite Hk; discriminate).
    assert (G8 : forallb (fun g => Nat.leb (length (snd g)) 8) lmp_features_core = true)
      by (vm_compute; reflexivity).
    rewrite forallb_forall in G8. specialize (G8 _ Hin). apply Nat.leb_le in G8. cbn [snd] in G8. lia. }
  specialize (G k). cbn [fst snd] in G. rewrite Hk in G.
  destruct (declared _ _ _ _) as [b|]; [|discriminate (G ltac:(apply in_seq; lia))].
  assert (G' := G ltac:(apply in_seq; lia)). apply Bool.andb_true_iff in G'. destruct G' as [G1 G2].
  apply N.eqb_eq in G1. now subst b.
Qed.

Lemma le_feature_declared k a b : nth_error le_features_core k = Some (a, b) ->
  let at_bit := if le_feature_defined F (N.of_nat k) then Some (N.of_nat k) else None in
  declared F LeFeatures_names LeFeatures a = at_bit
  /\ declared F LinkLayerFeature_names LinkLayerFeature b = at_bit.
Proof.
  intros H.
  do 17 (destruct k as [|k]; [cbn [nth_error le_features_core] in H; injection H as <- <-;
    destruct F as [[] []]; vm_compute; split; reflexivity|]).
  destruct k; discriminate H.
Qed.

Lemma states_declared k p : nth_error le_states_core k = Some p ->
  declared F LeStates_names LeStates (states_name p) = Some (N.of_nat k) /\ (k < 42)%nat.
Proof.
  intros H.
  do 42 (destruct k as [|k]; [cbn [nth_error le_states_core] in H; injection H as <-;
    split; [destruct F as [[] []]; vm_compute; reflexivity|lia]|]).
  destruct k; discriminate H.
Qed.

Lemma channel_declared n : (n < 37)%nat ->
  channel_constant F (channel_name n) = Some ((n / 8)%nat, 2 ^ N.of_nat (n mod 8)).
Proof.
  intros H.
  do 37 (destruct n as [|n]; [destruct F as [[] []]; vm_compute; reflexivity|]). lia.
Qed.

Lemma advertising_channel_declared n : (37 <= n < 40)%nat ->
  declared F Channels_names Channels (channel_name n) = Some (N.of_nat n - 37).
Proof.
  intros H. assert (K : (n = 37 \/ n = 38 \/ n = 39)%nat) by lia.
  destruct K as [->|[->| ->]]; destruct F as [[] []]; vm_compute; reflexivity.
Qed.
End Named.

Section NamedPackets.
Context (F : features) (V : vendor).

(** A status byte and eight octets. *)
Lemma status_then_8 s sb v w : u64 v -> u64 w -> status_then F V s (le 8 w) ([sb] ++ le 8 v) -> w = v.
Proof.
  intros Hv Hw (sb' & _ & H). cbn [app] in H. apply cons_inv in H. destruct H as [_ H].
  apply (f_equal number_le) in H. now rewrite !u64_number in H.
Qed.

Lemma lmp_named name i n sb v ev : lmp_feature_at name i -> u64 v ->
  let pkt := framed 0x0E ([n] ++ le 2 (hci_opcode 0x04 0x003) ++ [sb] ++ le 8 v) in
  bytes pkt -> event_new F V pkt = Ok ev ->
  exists c p, lmp_constant F name = Some c
    /\ ev = EvCommandComplete (Build_command_complete n (RetReadLocalSupportedFeatures p))
    /\ bf_contains (lsf_features p) c = N.testbit v i.
Proof.
  intros Hname Hv pkt Hb Hev. destruct (lmp_declared F name i Hname) as [Hd Hi].
  destruct (answer_variant F V CReadLocalSupportedFeatures _ n _ ev eq_refl eq_refl Hb Hev)
    as (r & -> & (p & ->) & Hw).
  cbn [wire_return] in Hw. destruct Hw as (_ & w & Hw & Hbits & Hst).
  apply status_then_8 in Hst; try assumption. subst w.
  exists (N.shiftl 1 i), p. split; [now apply constant_at|]. split; [reflexivity|].
  rewrite contains_bit, Hbits, Hi. apply Bool.andb_true_r.
Qed.

Lemma le_features_named k local remote : nth_error le_features_core k = Some (local, remote) ->
  if le_feature_defined F (N.of_nat k) then
    exists a b, le_feature_constant F local = Some a /\ link_layer_constant F remote = Some b
    /\ (forall n sb v ev, u64 v ->
          let pkt := framed 0x0E ([n] ++ le 2 (hci_opcode 0x08 0x003) ++ [sb] ++ le 8 v) in
          bytes pkt -> event_new F V pkt = Ok ev ->
          exists p, ev = EvCommandComplete (Build_command_complete n (RetLeReadLocalSupportedFeatures p))
            /\ bf_contains (lef_features p) a = N.testbit v (N.of_nat k))
    /\ (forall sb h v ev, u64 v ->
          let pkt := framed 0x3E ([0x04; sb] ++ le 2 h ++ le 8 v) in
          bytes pkt -> event_new F V pkt = Ok ev ->
          exists e, ev = EvLeReadRemoteUsedFeaturesComplete e
            /\ bf_contains (lrf_features e) b = N.testbit v (N.of_nat k))
  else le_feature_constant F local = None /\ link_layer_constant F remote = None.
Proof.
  intros Hk. destruct (le_feature_declared F k local remote Hk) as [Ha Hb'].
  destruct (le_feature_defined F (N.of_nat k)) eqn:Hdef.
  2: { unfold le_feature_constant, link_layer_constant, bf_constant. rewrite Ha, Hb'. now split. }
  exists (N.shiftl 1 (N.of_nat k)), (N.shiftl 1 (N.of_nat k)).
  split; [now apply constant_at|]. split; [now apply constant_at|]. split.
  - intros n sb v ev Hv pkt Hb Hev.
    destruct (answer_variant F V CLeReadLocalSupportedFeatures _ n _ ev eq_refl eq_refl Hb Hev)
      as (r & -> & (p & ->) & Hw).
    cbn [wire_return] in Hw. destruct Hw as (_ & w & Hw & Hbits & Hst).
    apply status_then_8 in Hst; try assumption. subst w.
    exists p. split; [reflexivity|]. rewrite contains_bit, Hbits, Hdef. apply Bool.andb_true_r.
  - intros sb h v ev Hv pkt Hb Hev.
    destruct (event_of_code F V pkt ev Hev) as (q & Hq & Hsub).
    unfold pkt, framed in Hq. injection Hq as Hcode _ Hq.
    destruct ev; try discriminate Hcode; cbn [event_subcode] in Hsub;
      destruct Hsub as (rest & ->); try discriminate Hq.
    destruct e as [s h' fe]. exists (Build_le_read_remote_used_features_complete s h' fe).
    split; [reflexivity|]. cbn [lrf_features]. rewrite contains_bit. f_equal.
    apply (proj1 (le_used_features_packet F V pkt s h' fe Hb)) in Hev.
    destruct Hev as (sb' & _ & _ & Hfe & _ & Hpkt).
    unfold pkt, framed in Hpkt. cbn [app] in Hpkt.
    do 4 (apply cons_inv in Hpkt; destruct Hpkt as [_ Hpkt]).
    apply app_inv_len in Hpkt; [|now rewrite !le_length]. destruct Hpkt as [_ Hpkt].
    apply (f_equal number_le) in Hpkt. now rewrite !u64_number in Hpkt by assumption.
Qed.

Lemma states_named k p n sb v ev : nth_error le_states_core k = Some p -> u64 v ->
  let pkt := framed 0x0E ([n] ++ le 2 (hci_opcode 0x08 0x01C) ++ [sb] ++ le 8 v) in
  bytes pkt -> event_new F V pkt = Ok ev ->
  exists c q, le_states_constant F (states_name p) = Some c
    /\ ev = EvCommandComplete (Build_command_complete n (RetLeReadSupportedStates q))
    /\ bf_contains (lrs_states q) c = N.testbit v (N.of_nat k).
Proof.
  intros Hk Hv pkt Hb Hev. destruct (states_declared F k p Hk) as [Hd _].
  destruct (answer_variant F V CLeReadSupportedStates _ n _ ev eq_refl eq_refl Hb Hev)
    as (r & -> & (q & ->) & Hw).
  cbn [wire_return] in Hw. destruct Hw as (_ & Hw & _ & Hst).
  apply status_then_8 in Hst; try assumption.
  exists (N.shiftl 1 (N.of_nat k)), q. split; [now apply constant_at|]. split; [reflexivity|].
  now rewrite contains_bit, Hst.
Qed.

(** ** Channels *)
Lemma channel_in n : (n < 37)%nat ->
  exists fl, channel_constant F (channel_name n) = Some fl /\ In fl (constants F channel_table)
    /\ flag_bit fl = N.of_nat n.
Proof.
  intros H. pose proof (channel_declared F n H) as Hc.
  exists ((n / 8)%nat, 2 ^ N.of_nat (n mod 8)). split; [exact Hc|]. split.
  - unfold constants, ba_flags. apply in_map_iff.
    destruct (declared_in F _ _ _ _ Hc) as (g & Hin & Hg).
    eexists (_, _, g). split; [reflexivity|]. apply filter_In. now split.
  - unfold flag_bit. cbn [fst snd]. rewrite N.log2_pow2 by lia.
    pose proof (Nat.div_mod n 8 ltac:(discriminate)). lia.
Qed.

Lemma channel_map_named n k sb h m ev : (k < 37)%nat -> length m = 5%nat ->
  let pkt := framed 0x0E ([n] ++ le 2 (hci_opcode 0x08 0x015) ++ [sb] ++ le 2 h ++ m) in
  bytes pkt -> event_new F V pkt = Ok ev ->
  exists fl p, channel_constant F (channel_name k) = Some fl
    /\ ev = EvCommandComplete (Build_command_complete n (RetLeReadChannelMap p))
    /\ @ba_is_set Empty_set (cmp_channel_map p) fl = Ok (array_bit m (N.of_nat k)).
Proof.
  intros Hk Hl pkt Hb Hev. destruct (channel_in k Hk) as (fl & Hc & Hin & Hbit).
  destruct (answer_variant F V (CLeReadChannelMap 0) _ n ([sb] ++ le 2 h ++ m) ev eq_refl eq_refl Hb Hev)
    as (r & -> & (p & ->) & Hw).
  cbn [wire_return] in Hw. destruct Hw as (_ & _ & Lp & Hd & sb' & _ & Heq).
  cbn [app] in Heq. apply cons_inv in Heq. destruct Heq as [_ Heq].
  apply app_inv_len in Heq; [|now rewrite !le_length]. destruct Heq as [_ Heq].
  exists fl, p. split; [exact Hc|]. split; [reflexivity|].
  rewrite <- Heq in Lp, Hd |- *. rewrite <- Hbit.
  apply (is_set_spec F channel_table); [apply channel_good| |exact Hin].
  split; [exact Lp|]. split; [|exact Hd].
  apply framed_bytes in Hb. repeat (apply bytes_app in Hb; destruct Hb as [_ Hb]). exact Hb.
Qed.

Lemma classification_named k v : (k < 37)%nat -> obtainable F channel_table v ->
  existsb (array_bit v) (map N.of_nat (seq 0 37)) = true ->
  exists fl header params, channel_constant F (channel_name k) = Some fl
    /\ sent F V uart_header (CLeSetHostChannelClassification v) = [(header, params)]
    /\ Ok (array_bit params (N.of_nat k)) = @ba_is_set Empty_set v fl.
Proof.
  intros Hk Hv Hex. destruct (channel_in k Hk) as (fl & Hc & Hin & Hbit).
  exists fl. rewrite (sent_spec F V uart_header uart_header_bytes
    (CLeSetHostChannelClassification v) (or_introl eq_refl) Hv).
  cbn [rejection]. rewrite Hex. eexists _, _. split; [exact Hc|]. split; [reflexivity|].
  cbn [command_params]. rewrite <- Hbit. symmetry.
  apply (is_set_spec F channel_table); [apply channel_good| |exact Hin].
  apply (obtainable_value F channel_table); [apply channel_good|exact Hv].
Qed.

Lemma advertising_named k p : (37 <= k < 40)%nat ->
  arguments_typed F (CLeSetAdvertisingParameters (V := V) p) ->
  @rejection V unit (CLeSetAdvertisingParameters p) = None ->
  exists c header params, advertising_channel_constant F (channel_name k) = Some c
    /\ sent F V uart_header (CLeSetAdvertisingParameters p) = [(header, params)]
    /\ N.testbit (nth 13 params 0) (N.of_nat k - 37) = bf_contains (ap_channel_map p) c.
Proof.
  intros Hk HA HR. exists (N.shiftl 1 (N.of_nat k - 37)).
  rewrite (sent_spec F V uart_header uart_header_bytes _ (or_introl eq_refl) HA), HR.
  eexists _, _. split; [apply constant_at; now apply advertising_channel_declared|].
  split; [reflexivity|]. rewrite contains_bit. f_equal.
  cbn [command_params]. destruct HA as (_ & _ & Hpeer & _).
  assert (L : length (address_bytes (ap_peer_address p)) = 7%nat)
    by now apply Proofs_Host.address_bytes_length.
  assert (L5 : length (advertising_interval_bytes (ap_interval p)) = 5%nat)
    by apply Proofs_Host.advertising_interval_bytes_length.
  rewrite app_nth2; rewrite L5; [|lia]. cbn [Nat.sub app nth].
  rewrite app_nth2; rewrite L; [|lia]. reflexivity.
Qed.
End NamedPackets.
