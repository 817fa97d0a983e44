(** * What the crate takes for an event. *)
From Verif Require Import Base Model_Types Model_EventBase Model_Command Model_Event Spec_Wire
  Spec_Errors Spec_Report Spec_Vendor Spec_Example Spec_FlagNames Spec_Core Spec_Versions Spec_Conform Spec_Accepted
  Proofs_Base Proofs_Bits
  Proofs_Event Proofs_Command Proofs_Report Proofs_Errors Proofs_Complete Proofs_Panic Proofs_Loss
  Proofs_Streams Proofs_FlagNames Proofs_Core Proofs_Vendor Proofs_Conform.
Open Scope list_scope.
Open Scope N_scope.

Section Accepted.
Context (F : features) (V : vendor).

Lemma status_taken_iff b : status_taken F V b <-> exists s, status_byte F V b s.
Proof.
  split.
  - intros [H|[v H]]; [now apply status_value|]. unfold status_byte.
    destruct (nth_error (assigned_statuses F) (N.to_nat b)) as [s|]; [now exists s|]. eauto.
  - intros [s H]. unfold status_byte in H. unfold status_taken.
    destruct (N.le_gt_cases b (last_status F)) as [K|K]; [now left|right].
    destruct (nth_error (assigned_statuses F) (N.to_nat b)) as [s'|] eqn:E.
    + exfalso. assert (L : (N.to_nat b < length (@assigned_statuses (VStatus V) F))%nat).
      { apply nth_error_Some. rewrite E. discriminate. }
      unfold last_status in K. unfold assigned_statuses in L. rewrite app_length in L.
      destruct (version_5_0 F); cbn [length] in L; lia.
    + destruct H as (v & H & _). eauto.
Qed.

(** ** Accepted: of one of these formats *)
Ltac byt := repeat match goal with
  | H : bytes (_ :: _) |- _ => apply bytes_cons in H; destruct H
  | H : bytes (_ ++ _) |- _ => apply bytes_app in H; destruct H end.
Ltac packet H := unfold framed in H; cbn [app] in H;
  apply cons_inv in H; destruct H as [_ H]; apply cons_inv in H; destruct H as [_ H]; subst.
Ltac one := cbn [app]; match goal with
  | |- taken _ _ [] _ => reflexivity
  | |- taken _ _ (Status :: _) (?b :: ?bs) =>
      exists [b], bs; split; [reflexivity|]; split; [exists b; split; [apply status_taken_iff; eauto|reflexivity]|]
  | |- taken _ _ (Handle :: _) (le 2 ?h ++ ?bs) =>
      exists (le 2 h), bs; split; [reflexivity|]; split; [apply le_length|]
  | |- taken _ _ (Handle :: _) (le 2 ?h) =>
      exists (le 2 h), []; split; [now rewrite app_nil_r|]; split; [apply le_length|]
  | |- taken _ _ (Word _ _ :: _) (le 2 ?h ++ ?bs) =>
      exists (le 2 h), bs; split; [reflexivity|]; split; [apply le_length|]
  | |- taken _ _ (Word _ _ :: _) (le 2 ?h) =>
      exists (le 2 h), []; split; [now rewrite app_nil_r|]; split; [apply le_length|]
  | |- taken _ _ (Octets ?n :: _) (le ?n ?h ++ ?bs) =>
      exists (le n h), bs; split; [reflexivity|]; split; [split; [apply le_length|apply le_is_bytes]|]
  | |- taken _ _ (Octets ?n :: _) (le ?n ?h) =>
      exists (le n h), []; split; [now rewrite app_nil_r|]; split; [split; [apply le_length|apply le_is_bytes]|]
  | |- taken _ _ (Octets 1 :: _) (?b :: ?bs) =>
      exists [b], bs; split; [reflexivity|]; split; [split; [reflexivity|apply bytes_cons; split; [assumption|apply bytes_nil]]|]
  | L : length ?a = ?n |- taken _ _ (Octets ?n :: _) (?a ++ ?bs) =>
      exists a, bs; split; [reflexivity|]; split; [split; [exact L|assumption]|]
  | L : length ?a = ?n |- taken _ _ (Octets ?n :: _) ?a =>
      exists a, []; split; [now rewrite app_nil_r|]; split; [split; [exact L|assumption]|]
  | |- taken _ _ (Code ?c :: _) (?b :: ?bs) =>
      exists [b], bs; split; [reflexivity|]; split; [exists b; split; [apply N.le_refl|split; [apply N.le_refl|reflexivity]]|]
  | |- taken _ _ (Octet 1 3 :: _) (?b :: ?bs) =>
      exists [b], bs; split; [reflexivity|]; split; [exists b; split; [apply N.le_0_l|split; [|reflexivity]]|]
  | |- taken _ _ (Octet 0 1 :: _) (?b :: ?bs) =>
      exists [b], bs; split; [reflexivity|]; split; [exists b; split; [apply N.le_0_l|split; [|reflexivity]]|]
  | |- taken _ _ (Octet 0 2 :: _) (?b :: ?bs) =>
      exists [b], bs; split; [reflexivity|]; split; [exists b; split; [apply N.le_0_l|split; [|reflexivity]]|]
  end.
Ltac layout fs := apply (taken_layout F V _ fs); [cbn [In event_layouts]; tauto|]; cbn [app]; repeat one.

Lemma code_le_1 l : link_type_code l <= 1.
Proof. destruct l; discriminate. Qed.
Lemma flag_le_1 b : flag b <= 1.
Proof. destruct b; discriminate. Qed.
Lemma encryption_le_2 l : encryption_code l <= 2.
Proof. destruct l; discriminate. Qed.
Lemma phy_le_2 l : phy_code l <= 2.
Proof. destruct l; discriminate. Qed.

Lemma bytes_app_l a b : bytes (a ++ b) -> bytes a.
Proof. intros H. apply bytes_app in H. tauto. Qed.
Lemma bytes_app_r a b : bytes (a ++ b) -> bytes b.
Proof. intros H. apply bytes_app in H. tauto. Qed.

Lemma in_status_only op : In op status_only_opcodes -> In (op, [Status]) return_layouts.
Proof.
  intros H. unfold status_only_opcodes in H. cbn [In] in H. unfold return_layouts. cbn [In].
  repeat (destruct H as [<-|H]; [tauto|]). destruct H.
Qed.

Lemma return_taken n op ret r : bytes ret -> wire_return F V r op ret ->
  taken_event F V 0x0E ([n] ++ le 2 op ++ ret).
Proof.
  intros Hb H.
  assert (St : forall s, In op status_only_opcodes -> status_first F V s ret ->
               taken_event F V 0x0E ([n] ++ le 2 op ++ ret)).
  { intros s Hop (sb & rest & Hs & ->). change (sb :: rest) with ([sb] ++ rest).
    apply (taken_return F V n op [Status] [sb] rest); [now apply in_status_only|repeat one|right; now left|].
    intros ->. exfalso. cbn in Hop. repeat (destruct Hop as [E|Hop]; [discriminate E|]). destruct Hop. }
  assert (Nm : forall fs, In (op, fs) return_layouts -> taken F V fs ret ->
     (op = hci_opcode 0x04 0x002 -> array_bit (tl ret) (31 * 8 + 4) = false /\ array_bit (tl ret) (31 * 8 + 5) = false) ->
               taken_event F V 0x0E ([n] ++ le 2 op ++ ret)).
  { intros fs Hfs Ht K. pose proof (taken_return F V n op fs ret [] Hfs Ht (or_introl eq_refl) K) as T.
    now rewrite app_nil_r in T. }
  destruct r; cbn [wire_return] in H;
    try (match type of H with _ = _ /\ _ => idtac end; destruct H as [E H]; apply (St _) with (2 := H); subst op; cbn [In status_only_opcodes]; tauto);
    try (destruct H as (_ & E & H); apply (St _) with (2 := H); subst op; cbn [In status_only_opcodes]; tauto).
  all: clear St.
  - subst op. apply taken_flow.
  - destruct H as (E & H1 & H2 & sb & Hs & ->). byt. subst op.
    eapply Nm; [cbn [In return_layouts]; do 2 right; left; reflexivity| |discriminate]. repeat one.
  - destruct H as (E & H1 & H2 & H3 & sb & Hs & ->). byt. subst op.
    eapply Nm; [cbn [In return_layouts]; do 3 right; left; reflexivity| |discriminate]. repeat one.
  - destruct H as (E & L & K & sb & Hs & ->). byt. subst op.
    eapply Nm; [cbn [In return_layouts]; do 4 right; left; reflexivity| |].
    + one. exists (lsc_commands p), []. split; [now rewrite app_nil_r|]. split; [|reflexivity].
      split; [exact L|]. split; [assumption|]. intros i Hi. unfold assigned_command_bit.
      apply Bool.orb_true_iff. left. now apply K.
    + clear Nm. intros _. cbn [tl]. split.
      * destruct (array_bit _ _) eqn:E; [|reflexivity]. apply K in E.
        rewrite undeclared_not_defined in E by (cbn; tauto). discriminate E.
      * destruct (array_bit _ _) eqn:E; [|reflexivity]. apply K in E.
        rewrite undeclared_not_defined in E by (cbn; tauto). discriminate E.
  - destruct H as (E & v & Hv & _ & sb & Hs & ->). byt. subst op.
    eapply Nm; [cbn [In return_layouts]; do 5 right; left; reflexivity| |discriminate]. repeat one.
  - destruct H as (E & L & sb & Hs & ->). byt. subst op.
    eapply Nm; [cbn [In return_layouts]; do 6 right; left; reflexivity| |discriminate]. repeat one.
  - destruct H as (E & H1 & H2 & sb & Hs & ->). byt. subst op.
    eapply Nm; [cbn [In return_layouts]; do 7 right; left; reflexivity| |discriminate]. repeat one.
  - destruct H as (E & H1 & sb & Hs & ->). byt. subst op.
    eapply Nm; [cbn [In return_layouts]; do 9 right; left; reflexivity| |discriminate]. repeat one.
  - destruct H as (E & v & Hv & _ & sb & Hs & ->). byt. subst op.
    eapply Nm; [cbn [In return_layouts]; do 10 right; left; reflexivity| |discriminate]. repeat one.
  - destruct H as (E & H1 & sb & Hs & ->). byt. subst op.
    eapply Nm; [cbn [In return_layouts]; do 13 right; left; reflexivity| |discriminate]. repeat one.
  - destruct H as (E & sb & rest & Hs & ->). byt. subst op.
    change (sb :: size :: rest) with ([sb; size] ++ rest).
    apply (taken_return F V n _ [Status; Octets 1]); [cbn [In return_layouts]; do 20 right; left; reflexivity| | |discriminate].
    + repeat one.
    + right. now right.
  - destruct H as (E & H1 & L & K & sb & Hs & ->). byt. subst op.
    eapply Nm; [cbn [In return_layouts]; do 25 right; left; reflexivity| |discriminate]. do 2 one.
    exists (cmp_channel_map p), []. split; [now rewrite app_nil_r|]. split; [|reflexivity]. now split.
  - destruct H as (E & L & sb & Hs & ->). byt. subst op.
    eapply Nm; [cbn [In return_layouts]; do 26 right; left; reflexivity| |discriminate]. repeat one.
  - destruct H as (E & H1 & sb & Hs & ->). byt. subst op.
    eapply Nm; [cbn [In return_layouts]; do 27 right; left; reflexivity| |discriminate]. repeat one.
  - destruct H as (E & H1 & sb & Hs & ->). byt. subst op.
    eapply Nm; [cbn [In return_layouts]; do 28 right; left; reflexivity| |discriminate]. repeat one.
  - destruct H as (E & H1 & sb & Hs & ->). byt. subst op.
    eapply Nm; [cbn [In return_layouts]; do 29 right; left; reflexivity| |discriminate]. repeat one.
  - destruct H as (E & H1 & K & sb & Hs & ->). byt. subst op.
    eapply Nm; [cbn [In return_layouts]; do 30 right; left; reflexivity| |discriminate]. one.
    exists (le 8 (lrs_states p)), []. split; [now rewrite app_nil_r|]. split; [|reflexivity].
    split; [apply le_length|]. split; [apply le_is_bytes|]. intros i Hi. apply K. now rewrite <- le8_bit.
  - destruct H as (E & H1 & sb & Hs & ->). byt. subst op.
    eapply Nm; [cbn [In return_layouts]; do 33 right; left; reflexivity| |discriminate]. repeat one.
  - destruct H.
Qed.

Lemma accepted_taken code p ev : byte code -> bytes p -> (length p <= 255)%nat ->
  event_new F V (framed code p) = Ok ev -> taken_event F V code p.
Proof.
  intros Hc Hb Hl H. pose proof (framed_is_bytes code p Hc Hb Hl) as HB.
  destruct (event_of_code F V _ ev H) as (q & Hq & _).
  unfold framed in Hq. apply cons_inv in Hq. destruct Hq as [Hcode _]. clear q.
  destruct ev; cbn [event_code] in Hcode; subst code.
  - destruct e as [s h a lt en]. apply connection_complete_packet in H; [|assumption].
    destruct H as (sb & Hs & _ & La & E). packet E. byt.
    layout [Status; Handle; Octets 6; Octet 0 1; Octet 0 1]; [apply code_le_1|apply flag_le_1].
  - destruct e as [s h r]. apply disconnection_complete_packet in H; [|assumption].
    destruct H as (sb & rb & Hs & _ & Hr & E). packet E. layout [Status; Handle; Status].
  - destruct e as [s h en]. apply encryption_change_packet in H; [|assumption].
    destruct H as (sb & Hs & _ & E). packet E. layout [Status; Handle; Octet 0 2]. apply encryption_le_2.
  - destruct e as [s h v m sv]. apply remote_version_packet in H; [|assumption].
    destruct H as (sb & Hs & _ & _ & _ & E). packet E. byt.
    layout [Status; Handle; Octets 1; Octets 2; Octets 2].
  - destruct e as [n r]. apply command_complete_dispatch_iff in H; [|assumption].
    destruct H as (op & ret & Hop & E & H). packet E. byt. destruct H as [H|(v & Ho & Hv & _)].
    + now apply (return_taken n op ret r).
    + now apply (taken_vendor_return F V n op ret v).
  - destruct e as [s n o]. apply command_status_packet in H; [|assumption].
    destruct H as (sb & Hs & _ & E). packet E. byt. layout [Status; Octets 1; Octets 2].
  - destruct e as [c]. apply hardware_error_packet in H; [|assumption]. packet H. byt. layout [Octets 1].
  - destruct (accepted_pairs_iterate F V _ e HB H) as (l & Hi & _ & _).
    destruct (proj1 (completed_packets_packet F V _ l HB)) as (Hp & E); [eauto|].
    packet E. now apply taken_completed.
  - destruct e as [lt]. apply data_buffer_overflow_packet in H; [|assumption]. packet H.
    layout [Octet 0 1]. apply code_le_1.
  - destruct e as [s h]. apply encryption_key_refresh_packet in H; [|assumption].
    destruct H as (sb & Hs & _ & E). packet E. layout [Status; Handle].
  - pose proof H as H0. destruct e as [s h role peer ci acc].
    apply le_connection_complete_packet in H; [|assumption].
    destruct H as (sb & iv & Hs & _ & Hpeer & Hiv & E).
    destruct Hiv as (i & t & _ & _ & _ & ->). unfold framed in E. cbn [app] in E.
    do 2 (apply cons_inv in E; destruct E as [_ E]).
    match type of E with _ = 0x01 :: sb :: ?b => set (body := b) in * end.
    assert (L : length body = 17%nat).
    { unfold body. destruct peer; cbn [address_bytes address_ok] in *;
      repeat (rewrite ?app_length, ?le_length; cbn [length]); rewrite Hpeer; reflexivity. }
    clearbody body. subst p. byt.
    apply (taken_connection F V sb body); [apply status_taken_iff; eauto|exact L|].
    assert (D : connection_fields_ok body \/ ~ connection_fields_ok body).
    { unfold connection_fields_ok, legal_parameters. lia. }
    destruct D as [D|D]; [exact D|exfalso].
    now apply (failed_connection_refused F V sb body _) in H0.
  - destruct (accepted_report_iterates F V _ e HB H) as (l & Hi & _).
    destruct (proj1 (advertising_report_packet F V _ l HB)) as (Ha & count & E); [eauto|].
    packet E. now apply taken_reports.
  - pose proof H as H0. destruct e as [s h ci].
    apply le_connection_update_packet in H; [|assumption].
    destruct H as (sb & iv & Hs & _ & Hiv & E).
    destruct Hiv as (i & t & _ & _ & _ & ->). unfold framed in E. cbn [app] in E.
    do 2 (apply cons_inv in E; destruct E as [_ E]).
    match type of E with _ = 0x03 :: sb :: ?b => set (body := b) in * end.
    assert (L : length body = 8%nat).
    { unfold body. rewrite !app_length, !le_length. reflexivity. }
    clearbody body. subst p. byt.
    apply (taken_update F V sb body); [apply status_taken_iff; eauto|exact L|].
    assert (D : update_fields_ok body \/ ~ update_fields_ok body).
    { unfold update_fields_ok, legal_parameters. lia. }
    destruct D as [D|D]; [exact D|exfalso].
    now apply (failed_update_refused F V sb body _) in H0.
  - destruct e as [s h fe]. apply le_used_features_packet in H; [|assumption].
    destruct H as (sb & Hs & _ & Hu & K & E). packet E.
    layout [Code 0x04; Status; Handle; Flags 8 le_feature_defined].
    exists (le 8 fe), []. split; [now rewrite app_nil_r|]. split; [|reflexivity].
    split; [apply le_length|]. split; [apply le_is_bytes|]. intros i Hi. apply K. now rewrite <- le8_bit.
  - destruct e. apply le_ltk_request_packet in H; [|assumption].
    destruct H as (_ & _ & _ & E). packet E. layout [Code 0x05; Handle; Octets 8; Octets 2].
  - destruct e. apply le_data_length_change_packet in H; [|assumption].
    destruct H as (_ & _ & _ & _ & _ & E). packet E.
    layout [Code 0x07; Handle; Word 0x001B 0x00FB; Word 0x0148 0x4290; Word 0x001B 0x00FB; Word 0x0148 0x4290].
  - destruct e as [s h tx rx]. apply le_phy_update_packet in H; [|assumption].
    destruct H as (sb & Hs & _ & E). packet E.
    layout [Code 0x0C; Status; Handle; Octet 1 3; Octet 1 3]; apply phy_le_2.
  - rewrite vendor_event in H. destruct (vevent_new V p) as [v| |] eqn:E; try discriminate H.
    now apply (taken_vendor_event F V p v).
Qed.

(** ** Of one of these formats: accepted *)
Ltac status_of_field := match goal with
  | H : field_taken _ _ Status _ |- _ =>
      let K := fresh "K" in destruct H as (? & K & ->); apply status_taken_iff in K; destruct K as [? K]
  end.
Ltac words := repeat match goal with
  | L : length ?l = 2%nat |- _ =>
      is_var l; apply word_value in L; [destruct L as (? & ? & ->)|assumption]
  end.
Ltac fields :=
  repeat match goal with
  | H : taken _ _ (_ :: _) _ |- _ => destruct H as (? & ? & -> & ? & H)
  | H : taken _ _ [] _ |- _ => cbn [taken] in H; subst
  | H : field_taken _ _ Handle ?l |- _ => change (length l = 2%nat) in H
  | H : field_taken _ _ (Word _ _) ?l |- _ => change (length l = 2%nat) in H
  | H : field_taken _ _ (Code _) _ |- _ => destruct H as (? & ? & ? & ->)
  | H : field_taken _ _ (Octet _ _) _ |- _ => destruct H as (? & ? & ? & ->)
  | H : field_taken _ _ (Octets 1) _ |- _ =>
      destruct H as [? H]; apply octet_value in H; [|assumption]; destruct H as (? & ? & ->)
  | H : field_taken _ _ (Octets 2) _ |- _ =>
      destruct H as [? H]; apply word_value in H; [|assumption]; destruct H as (? & ? & ->)
  | H : field_taken _ _ (Octets 8) _ |- _ =>
      destruct H as [? H]; apply long_value in H; [|assumption]; destruct H as (? & ? & ->)
  | H : field_taken _ _ (Octets _) _ |- _ => destruct H as [? H]
  | H : field_taken _ _ (Flags _ _) _ |- _ => destruct H as (? & ? & H)
  end; repeat status_of_field.
Ltac same_code := match goal with A : ?lo <= ?x, B : ?x <= ?lo |- _ => pose proof (N.le_antisymm _ _ A B) end; subst.
Ltac len := unfold framed; rewrite ?app_length, ?le_length, ?app_nil_r; reflexivity.

Lemma layout_taken code fs p : In (code, fs) event_layouts -> taken F V fs p ->
  byte code -> bytes p -> (length p <= 255)%nat -> exists ev, event_new F V (framed code p) = Ok ev.
Proof.
  intros Hin H Hc Hb Hl. pose proof (framed_is_bytes code p Hc Hb Hl) as HB.
  unfold event_layouts in Hin. cbn [In] in Hin.
  repeat match goal with K : (_, _) = _ \/ _ |- _ =>
    apply in_single in K; destruct K as [[-> ->]|K] end; [..|destruct Hin]; fields;
    cbn [app] in Hb; byt; words.
  - match goal with A : ?b <= 1, B : ?c <= 1 |- context [[?b] ++ [?c] ++ []] =>
      destruct (link_type_value b A) as [lt Elt]; destruct (flag_value c B) as [en Een] end.
    subst. eexists. apply connection_complete_packet; [assumption|].
    eexists. split; [eassumption|]. split; [eassumption|]. split; [eassumption|].
    unfold framed. rewrite !app_length, le_length. cbn [length].
    match goal with L : length _ = 6%nat |- _ => rewrite L end. reflexivity.
  - eexists. apply disconnection_complete_packet; [assumption|].
    eexists _, _. split; [|split; [|split; [|len]]]; eassumption.
  - match goal with A : ?b <= 2 |- _ => destruct (encryption_value b A) as [e Ee] end. subst.
    eexists. apply encryption_change_packet; [assumption|].
    eexists. split; [eassumption|]. split; [eassumption|]. len.
  - eexists. apply remote_version_packet; [assumption|].
    eexists. split; [eassumption|]. split; [|split; [|split; [|len]]]; assumption.
  - eexists. apply command_status_packet; [assumption|].
    eexists. split; [eassumption|]. split; [|len]; eassumption.
  - eexists. apply hardware_error_packet; [assumption|]. reflexivity.
  - match goal with A : ?b <= 1 |- _ => destruct (link_type_value b A) as [lt Elt] end. subst.
    eexists. apply data_buffer_overflow_packet; [assumption|]. reflexivity.
  - eexists. apply encryption_key_refresh_packet; [assumption|].
    eexists. split; [eassumption|]. split; [|len]; eassumption.
  - same_code.
    match goal with L : length ?l = 8%nat |- _ => destruct (long_value l L) as (v & Hv & ->); [assumption|] end.
    eexists. apply le_used_features_packet; [assumption|].
    eexists. split; [eassumption|]. split; [eassumption|]. split; [exact Hv|].
    split; [|len].
    intros i Hi. match goal with K : only_defined _ _ |- _ => apply K end. now rewrite le8_bit.
  - same_code. eexists. apply le_ltk_request_packet; [assumption|].
    split; [|split; [|split; [|len]]]; eassumption.
  - same_code. eexists. apply le_data_length_change_packet; [assumption|].
    split; [|split; [|split; [|split; [|split; [|len]]]]]; eassumption.
  - same_code.
    match goal with A : ?b <= 2, B : ?c <= 2 |- context [[?b] ++ [?c] ++ []] =>
      destruct (phy_value b A) as [tx Etx]; destruct (phy_value c B) as [rx Erx] end.
    subst. eexists. apply le_phy_update_packet; [assumption|].
    eexists. split; [eassumption|]. split; [eassumption|]. len.
Qed.

Lemma long_returned n op ret r : bytes ([n] ++ le 2 op ++ ret) -> (length ret <= 252)%nat -> u16 op ->
  wire_return F V r op ret -> exists ev, event_new F V (framed 0x0E ([n] ++ le 2 op ++ ret)) = Ok ev.
Proof.
  intros Hb Hl Hop H. exists (EvCommandComplete (Build_command_complete n r)).
  apply command_complete_dispatch_iff.
  - apply framed_is_bytes; [reflexivity|exact Hb|rewrite !app_length, le_length; cbn [length]; lia].
  - exists op, ret. split; [exact Hop|]. split; [|now left].
    unfold framed. rewrite !app_length, le_length. reflexivity.
Qed.

Lemma layout_u16 op fs : In (op, fs) return_layouts -> u16 op.
Proof.
  intros H. assert (K : forallb (fun e => fst e <? 2 ^ 16) return_layouts = true) by (vm_compute; reflexivity).
  rewrite forallb_forall in K. specialize (K _ H). now apply N.ltb_lt.
Qed.

Lemma open_wire op sb s rest : In op status_only_opcodes -> status_byte F V sb s ->
  exists r, wire_return F V r op (sb :: rest).
Proof.
  intros H Hs.
  assert (K : exists mk, In (op, mk) (status_only_variants F V)).
  { unfold status_only_opcodes in H. unfold status_only_variants. cbn [In] in *.
    repeat (destruct H as [<-|H]; [eexists; tauto|]). destruct H. }
  destruct K as [mk K]. exists (mk s). now apply (status_only_wire F V op mk).
Qed.

Lemma returns_taken n op fs ret more : In (op, fs) return_layouts -> taken F V fs ret ->
  more = [] \/ open_ended op ->
  (op = hci_opcode 0x04 0x002 -> array_bit (tl ret) (31 * 8 + 4) = false /\ array_bit (tl ret) (31 * 8 + 5) = false) ->
  bytes ([n] ++ le 2 op ++ ret ++ more) -> (length ([n] ++ le 2 op ++ ret ++ more) <= 255)%nat ->
  exists ev, event_new F V (framed 0x0E ([n] ++ le 2 op ++ ret ++ more)) = Ok ev.
Proof.
  intros Hin H Hm Hc Hb Hl. pose proof (layout_u16 op fs Hin) as Hop.
  enough (exists r, wire_return F V r op (ret ++ more)) as [r Hr].
  { apply (long_returned n op (ret ++ more) r); [exact Hb| |exact Hop|exact Hr].
    rewrite !app_length, le_length in Hl. cbn [length] in Hl. rewrite app_length. lia. }
  clear Hop Hl. apply bytes_app_r, bytes_app_r, bytes_app_l in Hb.
  destruct (in_dec N.eq_dec op status_only_opcodes) as [Ho|Ho].
  - assert (Hr : exists sb s rest, ret = sb :: rest /\ status_byte F V sb s).
    { unfold return_layouts in Hin. cbn [In] in Hin.
      repeat match goal with K : (_, _) = _ \/ _ |- _ =>
        apply in_single in K; destruct K as [[-> ->]|K] end; [..|destruct Hin];
      destruct H as (b & bs' & -> & (sb & Hs & ->) & _); apply status_taken_iff in Hs; destruct Hs as [s Hs];
      exists sb, s, bs'; now split. }
    destruct Hr as (sb & s & rest & -> & Hs). exact (open_wire op sb s (rest ++ more) Ho Hs).
  - destruct (N.eq_dec op white_list_size_opcode) as [Ew|Ew].
    + assert (Hr : exists sb s size, ret = [sb; size] /\ status_byte F V sb s).
      { subst op. clear Hc Hm Hb Ho. unfold return_layouts in Hin. cbn [In] in Hin.
        repeat match goal with K : (?a, _) = (?b, _) \/ _ |- _ => destruct K as [K|K]; [try discriminate K|] end;
        [|destruct Hin].
        injection Hin as <-. fields. do 3 eexists. split; [reflexivity|eassumption]. }
      destruct Hr as (sb & s & size & -> & Hs). subst op. exists (RetLeReadWhiteListSize s size).
      split; [reflexivity|]. exists sb, more. now split.
    + destruct Hm as [->|[K|K]]; [|contradiction..]. rewrite app_nil_r. revert Hb.
      unfold return_layouts in Hin. cbn [In] in Hin.
      repeat match goal with K : (_, _) = _ \/ _ |- _ =>
        apply in_single in K; destruct K as [[-> ->]|K] end; [..|destruct Hin]; 
        try (exfalso; apply Ho; cbn [In status_only_opcodes]; tauto);
        try (exfalso; apply Ew; reflexivity); clear Ho Ew; fields; intros Hb; cbn [app] in *; byt; words;
        rewrite ?app_nil_r in *.
      * eapply wr_tx_power; eassumption.
      * eapply wr_version; eassumption.
      * eapply wr_commands; [eassumption..|]. cbn [tl] in Hc. destruct (Hc eq_refl) as [-> ->]. reflexivity.
      * eapply wr_features; eassumption.
      * eapply wr_bd_addr; eassumption.
      * eapply wr_rssi; eassumption.
      * eapply wr_buffer; eassumption.
      * eapply wr_le_features; eassumption.
      * eapply wr_channel_tx_power; eassumption.
      * eapply wr_channel_map; eassumption.
      * eapply wr_encrypt; eassumption.
      * eapply wr_rand; eassumption.
      * eapply wr_key_reply; eassumption.
      * eapply wr_negative_reply; eassumption.
      * eapply wr_states; eassumption.
      * eapply wr_test_end; eassumption.
Qed.

Lemma taken_accepted code p : taken_event F V code p -> byte code -> bytes p -> (length p <= 255)%nat ->
  exists ev, event_new F V (framed code p) = Ok ev.
Proof.
  intros H Hc Hb Hl. pose proof (framed_is_bytes code p Hc Hb Hl) as HB.
  destruct H as [code fs p Hin H|n op fs ret more Hin H Hm Hx|n more|l Hp|count l Hr|sb body Hs L Hf|sb body Hs L Hf
    |n op ret v Hop Ho Hv|p v Hv].
  - now apply (layout_taken code fs p).
  - now apply (returns_taken n op fs ret more).
  - apply (long_returned n 0 more RetSpontaneous); [exact Hb| |reflexivity|reflexivity].
    rewrite !app_length, le_length in Hl. cbn [length] in Hl. lia.
  - destruct (proj2 (completed_packets_packet F V (framed 0x13 (N.of_nat (length l) :: flat_map pair_bytes l)) l HB))
      as (ev & E & _); [|eauto].
    split; [exact Hp|]. unfold framed. cbn [length]. rewrite pair_bytes_length. reflexivity.
  - destruct (proj2 (advertising_report_packet F V _ l HB)) as (ev & E & _); [|eauto].
    split; [exact Hr|]. exists count. unfold framed. rewrite app_length. reflexivity.
  - apply status_taken_iff in Hs. destruct Hs as [s Hs]. cbn [app] in Hb. byt.
    destruct (connection_delivered F V body ltac:(assumption) L Hf sb s Hs) as (ev & E & _). eauto.
  - apply status_taken_iff in Hs. destruct Hs as [s Hs]. cbn [app] in Hb. byt.
    destruct (update_delivered F V body ltac:(assumption) L Hf sb s Hs) as (ev & E & _). eauto.
  - rewrite vendor_return by assumption. rewrite Hv. cbn [bind]. eauto.
  - rewrite vendor_event, Hv. cbn [bind]. eauto.
Qed.

Lemma taken_exactly code p : byte code -> bytes p -> (length p <= 255)%nat ->
  ((exists ev, event_new F V (framed code p) = Ok ev) <-> taken_event F V code p).
Proof.
  intros Hc Hb Hl. split.
  - intros [ev H]. now apply (accepted_taken code p ev).
  - intros H. now apply taken_accepted.
Qed.
End Accepted.

(** ** Taken although no conforming controller sends it *)
Ltac layouts := match goal with Hin : In _ _ |- _ =>
  cbn [In event_layouts return_layouts] in Hin;
  repeat (destruct Hin as [E|Hin]; [try discriminate E; injection E; intros; subst; clear E|]); [..|destruct Hin] end.

Lemma handle_not_conforming F : ~ conforming F 0x08 [0; 0x00; 0x0F; 1].
Proof.
  intros H. inversion H as [code fs p Hin Hm Ec Ep| | | | | | | |]. subst code p. clear H.
  layouts. destruct Hm as (b & bs & E1 & (s & _ & ->) & (b2 & bs2 & E2 & (v & _ & Hv & ->) & _)).
  cbn [app] in E1. apply cons_inv in E1. destruct E1 as [_ <-].
  rewrite le_2 in E2. cbn [app] in E2. injection E2 as E2 E3 _.
  assert (v mod 256 = 0) by congruence. assert (v / 256 mod 256 = 0x0F) by congruence. lia.
Qed.

Lemma more_not_conforming F : ~ conforming F 0x0E ([1] ++ le 2 (hci_opcode 0x03 0x003) ++ [0; 0]).
Proof.
  intros H. remember 0x0E as code eqn:Ec in H. remember (_ ++ _) as q eqn:Ep in H.
  destruct H as [code fs p Hin Hm|n op fs ret Hn Hin Hm|n Hn|l Hl H| | | | |]; try discriminate Ec.
  - subst code p. layouts.
  - apply cons_inv in Ep. destruct Ep as [_ Ep].
    assert (Hop : u16 op) by now apply (layout_u16 op fs).
    apply app_inv_len in Ep; [|now rewrite !le_length]. destruct Ep as [E Er].
    apply le_2_inj in E; [|exact Hop|reflexivity]. subst op ret. clear Ec.
    cbn [In return_layouts] in Hin.
    repeat (destruct Hin as [E|Hin]; [try discriminate E; injection E; intros; subst; clear E|]); [|destruct Hin].
    destruct Hm as (b & bs & E1 & (s & _ & ->) & Hbs). cbn [matches] in Hbs. subst bs. discriminate E1.
  - discriminate Ep.
Qed.

Lemma count_not_conforming F : ~ conforming F 0x3E [0x02; 3].
Proof.
  intros H. remember 0x3E as code eqn:Ec in H. remember [0x02; 3] as q eqn:Ep in H.
  destruct H as [code fs p Hin Hm| | | |rs Hrs Hlen Hl| | | |]; try discriminate Ec; try discriminate Ep.
  - subst code p. layouts.
    all: destruct Hm as (b & bs & E1 & (c & H1 & H2 & ->) & _); apply cons_inv in E1; destruct E1 as [E1 _];
      subst c; exfalso; lia.
  - destruct rs as [|r rs]; [cbn in Hlen; lia|]. cbn [flat_map air_report_bytes app] in Ep. discriminate Ep.
Qed.

Lemma phy_not_conforming F : ~ conforming F 0x3E [0x0C; 0; 1; 0; 0; 1].
Proof.
  intros H. inversion H as [code fs p Hin Hm Ec Ep| | | | | | | |]; clear H.
  subst code p. layouts.
  1-3: destruct Hm as (b & bs & E1 & (c & H1 & H2 & ->) & _); apply cons_inv in E1; destruct E1 as [E1 _];
      subst c; exfalso; lia.
  destruct Hm as (b & bs & E1 & (c & _ & _ & ->) & Hm). apply cons_inv in E1. destruct E1 as [_ <-].
  destruct Hm as (b & bs & E1 & (s & _ & ->) & Hm). apply cons_inv in E1. destruct E1 as [_ <-].
  destruct Hm as (b & bs & E1 & (v & _ & _ & ->) & Hm). rewrite le_2 in E1. cbn [app] in E1.
  do 2 (apply cons_inv in E1; destruct E1 as [_ E1]). subst bs.
  destruct Hm as (b & bs & E1 & (c' & H1 & _ & ->) & _). apply cons_inv in E1. destruct E1 as [<- _].
  apply H1. reflexivity.
Qed.

Lemma nonconforming_taken F V : exists code p, bytes p /\ ~ vendor_packet (framed code p)
  /\ ~ conforming F code p /\ exists ev, event_new F V (framed code p) = Ok ev.
Proof.
  exists 0x08, [0; 0x00; 0x0F; 1]. split; [repeat constructor|]. split; [exact (fun H => H)|].
  split; [apply handle_not_conforming|]. eexists. reflexivity.
Qed.

Lemma taken_cases :
  (taken_event F41 test_vendor 0x08 [0; 0x00; 0x0F; 1] /\ ~ conforming F41 0x08 [0; 0x00; 0x0F; 1])
  /\ (taken_event F41 test_vendor 0x0E ([1] ++ le 2 (hci_opcode 0x03 0x003) ++ [0; 0])
      /\ ~ conforming F41 0x0E ([1] ++ le 2 (hci_opcode 0x03 0x003) ++ [0; 0]))
  /\ (taken_event F41 test_vendor 0x3E [0x02; 3] /\ ~ conforming F41 0x3E [0x02; 3])
  /\ (taken_event F50 test_vendor 0x3E [0x0C; 0; 1; 0; 0; 1] /\ ~ conforming F50 0x3E [0x0C; 0; 1; 0; 0; 1]).
Proof.
  split; [split; [|apply handle_not_conforming]|].
  { apply taken_exactly; [reflexivity|repeat constructor|cbn; lia|]. eexists. reflexivity. }
  split; [split; [|apply more_not_conforming]|].
  { apply taken_exactly; [reflexivity|repeat constructor|cbn; lia|]. eexists. vm_compute. reflexivity. }
  split; [split; [|apply count_not_conforming]|].
  { apply taken_exactly; [reflexivity|repeat constructor|cbn; lia|]. eexists. vm_compute. reflexivity. }
  split; [|apply phy_not_conforming].
  apply taken_exactly; [reflexivity|repeat constructor|cbn; lia|]. eexists. vm_compute. reflexivity.
Qed.
Lemma not_taken_cases :
  ~ taken_event F41 test_vendor 0x08 [0; 0x00; 0x0F]
  /\ ~ taken_event F41 test_vendor 0x08 [0x41; 0x00; 0x0F; 1]
  /\ ~ taken_event F41 test_vendor 0x3E ([0x01; 0x00] ++ connection_body 1 2 1 24 0 11 5 [1; 2; 3; 4; 5; 6]).
Proof.
  split; [|split]; intros H; apply taken_exactly in H;
    try reflexivity; try (repeat constructor); try (cbn; lia); destruct H as [ev H]; vm_compute in H; discriminate H.
Qed.
