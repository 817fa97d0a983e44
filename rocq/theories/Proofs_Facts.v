(** * What a host learns about controllers and peers (proofs). *)
From Coq Require Import ZArith.
From Verif Require Import Base Model_Types Model_Intervals Model_EventBase Model_Command Model_Event Model_Host
  Spec_Wire Spec_Errors Spec_Report Spec_Host Spec_Link Spec_Split Spec_Core Spec_Conform Spec_Pass Spec_Follow Spec_Facts
  Proofs_Base Proofs_Event Proofs_Panic Proofs_Complete Proofs_Link Proofs_Split Proofs_Sent Proofs_Conform Proofs_Command
  Proofs_Streams Proofs_FlagNames Proofs_Follow Proofs_Credit.
Open Scope list_scope.
Open Scope N_scope.

Lemma which_same n p q : (forall i, p i = q i) -> which n p = which n q.
Proof. intros H. unfold which. now apply filter_ext. Qed.
Lemma signed_back z : is_i8 z -> signed_value (signed z) = z.
Proof.
  unfold is_i8, signed, signed_value. intros H. destruct (N.ltb_spec (Z.to_N (z mod 256)) 128); lia.
Qed.
Lemma number_bits v defined : u64 v -> only_defined defined (N.testbit v) ->
  which 64 (fun k => array_bit (le 8 v) k && defined k)%bool = set_bits 64 v.
Proof.
  intros U D. apply which_same. intros i. rewrite le8_bit by exact U. specialize (D i).
  destruct (N.testbit v i); [now rewrite D|reflexivity].
Qed.
Lemma number_bits_of v w defined : u64 v -> (forall i, N.testbit w i = N.testbit v i && defined i)%bool ->
  which 64 (fun k => array_bit (le 8 v) k && defined k)%bool = set_bits 64 w.
Proof. intros U D. apply which_same. intros i. now rewrite le8_bit, D. Qed.
Lemma array_bits_of m defined n : only_defined defined (array_bit m) ->
  which n (fun k => array_bit m k && defined k)%bool = which n (array_bit m).
Proof. intros D. apply which_same. intros i. specialize (D i). destruct (array_bit m i); [now rewrite D|reflexivity]. Qed.
Lemma slice_here (a b : list N) i n : length a = i -> length b = n -> slice i n (a ++ b) = b.
Proof.
  intros <- <-. unfold slice. rewrite skipn_app, skipn_all, Nat.sub_diag. cbn [app skipn]. apply firstn_all.
Qed.

Section Steps.
Context (F : features) (V : vendor).

Lemma answer_is ogf ocf len n op ret : u16 op ->
  answer ogf ocf ([0x0E; len; n] ++ le 2 op ++ ret) = ((op =? hci_opcode ogf ocf) && (at_ ret 0 =? 0x00))%bool.
Proof.
  intros U. unfold answer, u16_le, at_. rewrite le_2. cbn [app nth Nat.add]. now rewrite word_back.
Qed.
Lemma told_return len n op ret : u16 op ->
  told F ([0x0E; len; n] ++ le 2 op ++ ret)
  = (let ok ogf ocf := (op =? hci_opcode ogf ocf) && (at_ ret 0 =? 0x00) in
     if ok 0x03 0x003 then [AllGone]
     else if ok 0x03 0x02D then [TransmitPower (u16_le ret 1) (signed_value (at_ ret 3))]
     else if ok 0x04 0x001 then
       [Version (at_ ret 1) (u16_le ret 2) (at_ ret 4) (u16_le ret 5) (u16_le ret 7)]
     else if ok 0x04 0x003 then [Features (bits_at 1 8 lmp_feature_defined ret)]
     else if ok 0x04 0x009 then [Address (slice 1 6 ret)]
     else if ok 0x05 0x005 then [SignalStrength (u16_le ret 1) (signed_value (at_ ret 3))]
     else if ok 0x08 0x002 then [Buffers (u16_le ret 1) (at_ ret 3)]
     else if ok 0x08 0x003 then [LeFeatures (bits_at 1 8 (le_feature_defined F) ret)]
     else if ok 0x08 0x007 then [AdvertisingPower (signed_value (at_ ret 1))]
     else if ok 0x08 0x00F then [WhiteListSize (at_ ret 1)]
     else if ok 0x08 0x015 then [ChannelsUsed (u16_le ret 1) (bits_at 3 5 channel_defined ret)]
     else if ok 0x08 0x017 then [Ciphertext (slice 1 16 ret)]
     else if ok 0x08 0x018 then [Random (number_le (slice 1 8 ret))]
     else if ok 0x08 0x01C then [LeStates (bits_at 1 8 le_state_defined ret)]
     else if ok 0x08 0x01F then [TestedPackets (u16_le ret 1)]
     else [])%bool.
Proof.
  intros U. unfold told. rewrite !answer_is by exact U. rewrite le_2. cbv zeta. reflexivity.
Qed.

Ltac codes := repeat match goal with
  | |- context [N.eqb (hci_opcode ?a ?b) (hci_opcode ?c ?d)] =>
      let x := eval vm_compute in (N.eqb (hci_opcode a b) (hci_opcode c d)) in
      change (N.eqb (hci_opcode a b) (hci_opcode c d)) with x
  end; cbn [andb].
Ltac status_first_ :=
  match goal with H : status_first _ _ _ _ |- _ =>
    let sb := fresh "sb" in let rest := fresh "rest" in let Hs := fresh "Hs" in
    destruct H as (sb & rest & Hs & ->); apply success_byte in Hs; unfold at_; cbn [nth]; rewrite ?Hs
  end.
Ltac status_then_ :=
  match goal with H : status_then _ _ _ _ _ |- _ =>
    let sb := fresh "sb" in let Hs := fresh "Hs" in
    destruct H as (sb & Hs & ->); apply success_byte in Hs; unfold at_ at 1; cbn [nth]; rewrite Hs
  end.

Lemma return_noted len n op ret r : u16 op -> wire_return F V r op ret ->
  noted_return r = told F ([0x0E; len; n] ++ le 2 op ++ ret).
Proof.
  intros U W. rewrite told_return by exact U. cbv zeta.
  destruct r; cbn [wire_return noted_return] in *; try contradiction;
    try (destruct W as [-> W]; codes; solve [reflexivity | status_first_; destruct s; reflexivity]);
    try (destruct W as (_ & W & _); subst op; codes; reflexivity).
  - subst op. reflexivity.
  - destruct W as (-> & U1 & I & W). codes. status_then_. destruct (txp_status p); try reflexivity.
    unfold if_success, u16_le, at_. rewrite le_2. cbn [app nth Nat.add].
    now rewrite word_back, signed_back.
  - destruct W as (-> & U1 & U2 & U3 & W). codes. status_then_. destruct (lvi_status p); try reflexivity.
    unfold if_success, u16_le, at_. rewrite !le_2. cbn [app nth Nat.add].
    now rewrite !word_back.
  - destruct W as (-> & v & U1 & D & W). codes. status_then_. destruct (lsf_status p); try reflexivity.
    unfold if_success, bits_at. change (sb :: le 8 v) with ([sb] ++ le 8 v).
    rewrite slice_here by (reflexivity || apply le_length). change (8 * 8)%nat with 64%nat. now rewrite (number_bits_of _ _ _ U1 D).
  - destruct W as (-> & L & W). codes. status_then_. destruct (rba_status p); try reflexivity.
    change (sb :: rba_bd_addr p) with ([sb] ++ rba_bd_addr p). now rewrite slice_here.
  - destruct W as (-> & U1 & I & W). codes. status_then_. destruct (rssi_status p); try reflexivity.
    unfold if_success, u16_le, at_. rewrite le_2. cbn [app nth Nat.add].
    now rewrite word_back, signed_back.
  - destruct W as (-> & U1 & W). codes. status_then_. destruct (lbs_status p); try reflexivity.
    unfold if_success, u16_le, at_. rewrite le_2. cbn [app nth Nat.add]. now rewrite word_back.
  - destruct W as (-> & v & U1 & D & W). codes. status_then_. destruct (lef_status p); try reflexivity.
    unfold if_success, bits_at. change (sb :: le 8 v) with ([sb] ++ le 8 v).
    rewrite slice_here by (reflexivity || apply le_length). change (8 * 8)%nat with 64%nat. now rewrite (number_bits_of _ _ _ U1 D).
  - destruct W as (-> & I & W). codes. status_then_. destruct (lat_status p); try reflexivity.
    unfold if_success, at_. cbn [nth]. now rewrite signed_back.
  - destruct W as (-> & sb & rest & Hs & ->). codes. apply success_byte in Hs. unfold at_. cbn [nth]. rewrite Hs.
    destruct s; reflexivity.
  - destruct W as (-> & U1 & L & D & W). codes. status_then_. destruct (cmp_status p); try reflexivity.
    unfold if_success, bits_at, u16_le, at_. rewrite le_2. cbn [app nth Nat.add]. rewrite word_back by exact U1.
    match goal with |- context [slice 3 5 (?a :: ?b :: ?c :: ?r)] => change (a :: b :: c :: r) with ([a; b; c] ++ r) end.
    rewrite slice_here by (reflexivity || exact L).
    change (8 * 5)%nat with 40%nat. now rewrite array_bits_of.
  - destruct W as (-> & L & W). codes. status_then_. destruct (enc_status p); try reflexivity.
    change (sb :: enc_data p) with ([sb] ++ enc_data p). now rewrite slice_here.
  - destruct W as (-> & U1 & W). codes. status_then_. destruct (rnd_status p); try reflexivity.
    change (sb :: le 8 (rnd_number p)) with ([sb] ++ le 8 (rnd_number p)).
    rewrite slice_here by (reflexivity || apply le_length). now rewrite u64_number.
  - destruct W as (-> & U1 & D & W). codes. status_then_. destruct (lrs_status p); try reflexivity.
    unfold if_success, bits_at. change (sb :: le 8 (lrs_states p)) with ([sb] ++ le 8 (lrs_states p)).
    rewrite slice_here by (reflexivity || apply le_length). change (8 * 8)%nat with 64%nat. now rewrite number_bits.
  - destruct W as (-> & U1 & W). codes. status_then_. destruct (lte_status p); try reflexivity.
    unfold if_success, u16_le, at_. rewrite le_2. cbn [app nth Nat.add]. now rewrite word_back.
Qed.

Lemma noted_ok pkt ev : bytes pkt -> event_new F V pkt = Ok ev -> noted ev = told F pkt.
Proof.
  intros Hb H. destruct ev;
    try (destruct (event_of_code F V _ _ H) as (p & -> & Hp); cbn [event_code event_subcode] in *;
         solve [reflexivity | destruct Hp as [rest ->]; reflexivity]).
  - destruct e as [st h r]. apply (disconnection_complete_packet F V pkt st h r Hb) in H.
    destruct H as (sb & rb & Hs & Hh & _ & ->). apply success_byte in Hs. cbn [noted dsc_status dsc_conn_handle].
    rewrite le_2. cbn [app]. unfold told, u16_le, at_. cbn [nth Nat.add]. rewrite Hs. cbn [N.eqb Pos.eqb andb].
    rewrite word_back by exact Hh. destruct st; reflexivity.
  - destruct e as [st h v m sv]. apply (remote_version_packet F V pkt st h v m sv Hb) in H.
    destruct H as (sb & Hs & Hh & Hm & Hv & ->). apply success_byte in Hs.
    cbn [noted rvi_status rvi_conn_handle rvi_version rvi_mfgr_name rvi_subversion].
    rewrite !le_2. cbn [app]. unfold told, u16_le, at_. cbn [nth Nat.add]. rewrite Hs. cbn [N.eqb Pos.eqb andb].
    rewrite !word_back by assumption. destruct st; reflexivity.
  - destruct e as [n r]. apply (command_complete_dispatch_iff F V pkt n r Hb) in H.
    destruct H as (op & ret & U & -> & [W|(v & Ho & _ & ->)]).
    + now apply return_noted.
    + rewrite told_return by exact U. cbv zeta. cbn [noted noted_return cc_return_params].
      repeat match goal with |- context [N.eqb op (hci_opcode ?a ?b)] =>
        replace (N.eqb op (hci_opcode a b)) with false by (symmetry; apply N.eqb_neq; intros ->; discriminate Ho) end.
      reflexivity.
  - destruct e as [st h fe]. apply (le_used_features_packet F V pkt st h fe Hb) in H.
    destruct H as (sb & Hs & Hh & U & D & ->). apply success_byte in Hs. cbn [noted lrf_status lrf_conn_handle lrf_features].
    rewrite le_2. cbn [app]. unfold told, le_success, u16_le, at_. cbn [nth Nat.add]. rewrite Hs. cbn [N.eqb Pos.eqb andb].
    rewrite word_back by exact Hh. unfold bits_at.
    match goal with |- context [slice 6 8 ?l] =>
      replace (slice 6 8 l) with (le 8 fe)
        by (symmetry; apply (slice_here [0x3E; 12; 0x04; sb; h mod 256; h / 256 mod 256] (le 8 fe));
            [reflexivity|apply le_length]) end.
    change (8 * 8)%nat with 64%nat. rewrite number_bits by assumption. destruct st; reflexivity.
  - destruct e as [h a b c d]. apply (le_data_length_change_packet F V pkt h a b c d Hb) in H.
    destruct H as (H1 & H2 & H3 & H4 & H5 & ->). cbn [noted dlc_conn_handle dlc_max_tx_octets dlc_max_tx_time dlc_max_rx_octets dlc_max_rx_time].
    rewrite !le_2. cbn [app]. unfold told, le_success, u16_le, at_. cbn [nth Nat.add N.eqb Pos.eqb andb].
    now rewrite !word_back.
Qed.

Lemma refused_tells_nothing code p : refused_event code p -> told F (framed code p) = [].
Proof.
  intros H. destruct H as [head acc L|head L|sb body Hs _ _|sb body Hs _ _|sb h0 h1 tx rx _|count rs _ _|n sb m _];
    reflexivity.
Qed.
Lemma facts_step pkt : conforming_packet F pkt -> flat_map noted (one F V pkt) = told F pkt.
Proof.
  intros (code & p & -> & Hc). destruct (conforming_is F code p Hc) as (B1 & B2 & B3).
  pose proof (framed_is_bytes code p B1 B2 B3) as Hb. unfold one.
  assert (K : (forall ev, event_new F V (framed code p) <> Ok ev) -> told F (framed code p) = []).
  { intros No. destruct (told F (framed code p)) eqn:T; [reflexivity|]. exfalso.
    destruct (proj2 (conforming_exactly F V code p Hc)) as [ev Ev]; [|exact (No ev Ev)].
    intros R. rewrite (refused_tells_nothing _ _ R) in T. discriminate T. }
  destruct (event_new F V (framed code p)) as [ev|e|] eqn:En.
  - cbn [flat_map]. rewrite app_nil_r. now apply noted_ok.
  - rewrite K; [reflexivity|discriminate].
  - rewrite K; [reflexivity|discriminate].
Qed.
Lemma facts_steps ps : Forall (conforming_packet F) ps -> flat_map noted (flat_map (one F V) ps) = flat_map (told F) ps.
Proof.
  induction 1 as [|p ps Hp _ IH]; [reflexivity|]. cbn [flat_map]. rewrite flat_map_app, IH. now rewrite facts_step.
Qed.

Context {St E : Type} (C : controller St E) (h : history St).
Lemma facts_uart os s ps more : contract C h -> Forall (typed_operation F) os -> possible h s ->
  Forall (conforming_packet F) ps ->
  let (s', log) := session F V C os s in
  pending h s s' = flat_map uart_frame ps ++ more ->
  consumed h s' = (consumed h s + length (flat_map uart_frame ps))%nat ->
  flat_map noted (events_read log) = flat_map (told F) ps.
Proof.
  intros HC Ho Hs Hp. pose proof (uart_all F V C h os s ps more HC Ho Hs (conforming_events F ps Hp)) as A.
  destruct (session F V C os s) as [s' log]. intros P N0. rewrite (A P N0). now apply facts_steps.
Qed.
Lemma facts_split os s ps more : contract C h -> Forall (typed_operation F) os -> possible h s ->
  Forall (conforming_packet F) ps ->
  let (s', log) := split_session F V C os s in
  pending h s s' = concat ps ++ more ->
  consumed h s' = (consumed h s + length (concat ps))%nat ->
  flat_map noted (split_events_read log) = flat_map (told F) ps.
Proof.
  intros HC Ho Hs Hp. pose proof (split_all F V C h os s ps more HC Ho Hs (conforming_events F ps Hp)) as A.
  destruct (split_session F V C os s) as [s' log]. intros P N0. rewrite (A P N0). now apply facts_steps.
Qed.
End Steps.

(** ** What is kept *)
Section Kept.
Context (F : features).
Lemma told_one pkt : told F pkt = [] \/ exists f, told F pkt = [f].
Proof. unfold told. repeat match goal with |- context [if ?b then _ else _] => destruct b end; eauto. Qed.
Lemma keep_in fs f g : In f (keep fs g) <->
  (f = g /\ lasting g)
  \/ (In f fs /\ g <> AllGone /\ (forall h, about_connection f = Some h -> g <> ConnectionGone h)).
Proof.
  destruct g; cbn [keep lasting];
    try (cbn [In]; split; [intros [<-|H]; [now left|right; repeat split; (assumption || discriminate)]
                          |intros [[-> _]|(H & _)]; auto]).
  - rewrite filter_In. split.
    + intros [H K]. right. repeat split; [exact H|discriminate|].
      intros h' Eh [= ->]. rewrite Eh in K. rewrite N.eqb_refl in K. discriminate K.
    + intros [[_ []]|(H & _ & K)]. split; [exact H|]. destruct (about_connection f) as [h'|]; [|reflexivity].
      destruct (N.eqb_spec h' h) as [->|]; [|reflexivity]. now destruct (K h eq_refl).
  - split; [intros []|intros [[_ []]|(_ & H & _)]; now destruct H].
Qed.
Lemma kept_iff ps f : In f (fold_left keep (flat_map (told F) ps) []) <->
  lasting f /\ exists before pkt after, ps = before ++ pkt :: after /\ told F pkt = [f]
    /\ Forall (fun q => ~ ended_by F f q) after.
Proof.
  induction ps as [|p ps IH] using rev_ind.
  - cbn. split; [intros []|intros (_ & b & p & a & E & _)]. now destruct b.
  - rewrite flat_map_app, fold_left_app. cbn [flat_map]. rewrite app_nil_r.
    assert (S : forall P, (exists before pkt after, ps ++ [p] = before ++ pkt :: after /\ told F pkt = [f] /\ Forall P after)
      <-> told F p = [f] \/ (P p /\ exists before pkt after, ps = before ++ pkt :: after /\ told F pkt = [f] /\ Forall P after)).
    { intros P. split.
      - intros (b & q & a & E & T & A). destruct a as [|x a] using rev_ind.
        + apply app_inj_tail in E. destruct E as [_ <-]. now left.
        + clear IHa. rewrite app_comm_cons, app_assoc in E. apply app_inj_tail in E. destruct E as [E <-].
          apply Forall_app in A. destruct A as [A A']. inversion A' as [|? ? A1 _]; subst. right.
          split; [exact A1|]. now exists b, q, a.
      - intros [T|(Hp & b & q & a & -> & T & A)].
        + exists ps, p, []. repeat split; [exact T|constructor].
        + exists b, q, (a ++ [p]). split; [now rewrite <- app_assoc|]. split; [exact T|]. apply Forall_app. auto. }
    rewrite S. clear S. destruct (told_one p) as [T|[g T]]; rewrite T; cbn [fold_left].
    + rewrite IH. split.
      * intros (L & H). split; [exact L|]. right. split; [|exact H]. unfold ended_by. rewrite T.
        intros [[]|(h0 & _ & [])].
      * intros (L & [H|(_ & H)]); [discriminate H|]. auto.
    + rewrite keep_in, IH. assert (Q : ~ ended_by F f p <->
        g <> AllGone /\ (forall h, about_connection f = Some h -> g <> ConnectionGone h)).
      { unfold ended_by. rewrite T. cbn [In]. split.
        - intros H. split; [intros ->; apply H; left; now left|]. intros h0 H0 ->. apply H. right. exists h0. split; [exact H0|now left].
        - intros [H1 H2] [[H|[]]|(h0 & H0 & [H|[]])]; [exact (H1 H)|exact (H2 h0 H0 H)]. }
      rewrite Q. split.
      * intros [[-> L]|((L & H) & K)]; auto.
      * intros (L & [H|(K & H)]); [|auto]. injection H as ->. auto.
Qed.
Context (V : vendor) {St E : Type} (C : controller St E) (h : history St).
Lemma kept_uart os s ps more : contract C h -> Forall (typed_operation F) os -> possible h s ->
  Forall (conforming_packet F) ps ->
  let (s', log) := session F V C os s in
  pending h s s' = flat_map uart_frame ps ++ more ->
  consumed h s' = (consumed h s + length (flat_map uart_frame ps))%nat ->
  forall f, In f (fold_left keep (flat_map noted (events_read log)) []) <->
    lasting f /\ exists before pkt after, ps = before ++ pkt :: after /\ told F pkt = [f]
      /\ Forall (fun q => ~ ended_by F f q) after.
Proof.
  intros HC Ho Hs Hp. pose proof (facts_uart F V C h os s ps more HC Ho Hs Hp) as A.
  destruct (session F V C os s) as [s' log]. intros P N0 f. rewrite (A P N0). apply kept_iff.
Qed.
Lemma kept_split os s ps more : contract C h -> Forall (typed_operation F) os -> possible h s ->
  Forall (conforming_packet F) ps ->
  let (s', log) := split_session F V C os s in
  pending h s s' = concat ps ++ more ->
  consumed h s' = (consumed h s + length (concat ps))%nat ->
  forall f, In f (fold_left keep (flat_map noted (split_events_read log)) []) <->
    lasting f /\ exists before pkt after, ps = before ++ pkt :: after /\ told F pkt = [f]
      /\ Forall (fun q => ~ ended_by F f q) after.
Proof.
  intros HC Ho Hs Hp. pose proof (facts_split F V C h os s ps more HC Ho Hs Hp) as A.
  destruct (split_session F V C os s) as [s' log]. intros P N0 f. rewrite (A P N0). apply kept_iff.
Qed.
End Kept.

(** ** Packets that conform, by computation *)
Definition field_length (f : field) : nat :=
  match f with Status | Octet _ _ => 1 | Word _ _ => 2 | Octets n => n | Flags n _ => n end.
Definition field_check (F : features) (f : field) (b : list N) : bool :=
  ((length b =? field_length f)%nat && forallb (fun x => x <? 256) b &&
   match f with
   | Status => at_ b 0 <=? last_status F
   | Octet lo hi => (lo <=? at_ b 0) && (at_ b 0 <=? hi)
   | Word lo hi => (lo <=? u16_le b 0) && (u16_le b 0 <=? hi)
   | Octets _ => true
   | Flags n bits => forallb (fun i => implb (array_bit b i) (bits F i)) (map N.of_nat (seq 0 (8 * n)))
   end)%bool.
Fixpoint layout_check (F : features) (fs : list field) (bs : list N) : bool :=
  match fs with
  | [] => match bs with [] => true | _ => false end
  | f :: fs => (field_check F f (firstn (field_length f) bs) && layout_check F fs (skipn (field_length f) bs))%bool
  end.
Lemma field_checked F f b : field_check F f b = true -> field_matches F f b.
Proof.
  unfold field_check. intros H. apply andb_prop in H. destruct H as [H H3]. apply andb_prop in H. destruct H as [H1 H2].
  apply Nat.eqb_eq in H1. assert (B : bytes b).
  { apply Forall_forall. intros x Hx. rewrite forallb_forall in H2. apply N.ltb_lt. now apply H2. }
  destruct f; cbn [field_length field_matches] in *.
  - destruct b as [|x [|]]; try discriminate H1. exists x. split; [now apply N.leb_le|reflexivity].
  - destruct b as [|x [|]]; try discriminate H1. apply andb_prop in H3. destruct H3 as [A1 A2].
    exists x. split; [now apply N.leb_le|]. split; [now apply N.leb_le|reflexivity].
  - destruct b as [|x [|y [|]]]; try discriminate H1. apply andb_prop in H3. destruct H3 as [A1 A2].
    exists (u16_le [x; y] 0). split; [now apply N.leb_le|]. split; [now apply N.leb_le|].
    inversion B as [|? ? X B']; subst. inversion B' as [|? ? Y _]; subst.
    unfold u16_le, at_. cbn [nth Nat.add]. now rewrite le_2_of_bytes.
  - auto.
  - split; [exact H1|]. split; [exact B|]. intros i Hi. destruct (N.lt_ge_cases i (N.of_nat (8 * n))) as [K|K].
    + rewrite forallb_forall in H3. specialize (H3 i). rewrite Hi in H3. apply H3. apply in_map_iff.
      exists (N.to_nat i). split; [apply N2Nat.id|]. apply in_seq. lia.
    + rewrite (Proofs_Errors.array_bits b i) in Hi by (rewrite H1; exact K). discriminate Hi.
Qed.
Lemma layout_checked F fs : forall bs, layout_check F fs bs = true -> matches F fs bs.
Proof.
  induction fs as [|f fs IH]; intros bs H; cbn [layout_check matches] in *.
  - now destruct bs.
  - apply andb_prop in H. destruct H as [H1 H2]. exists (firstn (field_length f) bs), (skipn (field_length f) bs).
    split; [symmetry; apply firstn_skipn|]. split; [now apply field_checked|]. now apply IH.
Qed.
Lemma event_checked F code p :
  existsb (fun l => ((fst l =? code) && layout_check F (snd l) p)%bool) event_layouts = true ->
  conforming_packet F (framed code p).
Proof.
  intros H. apply existsb_exists in H. destruct H as ([c fs] & I & H). cbn [fst snd] in H.
  apply andb_prop in H. destruct H as [Hc H]. apply N.eqb_eq in Hc. subst c. exists code, p.
  split; [reflexivity|]. apply (conforming_event F code fs p I). now apply layout_checked.
Qed.
Lemma return_checked F n op ret : byte n ->
  existsb (fun l => ((fst l =? op) && layout_check F (snd l) ret)%bool) return_layouts = true ->
  conforming_packet F (framed 0x0E ([n] ++ le 2 op ++ ret)).
Proof.
  intros Hn H. apply existsb_exists in H. destruct H as ([c fs] & I & H). cbn [fst snd] in H.
  apply andb_prop in H. destruct H as [Hc H]. apply N.eqb_eq in Hc. subst c. eexists _, _.
  split; [reflexivity|]. apply (conforming_return F n op fs ret Hn I). now apply layout_checked.
Qed.
