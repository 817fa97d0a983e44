(** * Failed connections; loss of information. *)
From Verif Require Import Base Model_Types Model_Bitflags Model_Intervals Model_EventBase Model_Command
  Model_Event Spec_Wire Spec_Interval Spec_Errors Spec_Report Spec_Vendor Spec_Versions
  Proofs_Base Proofs_Bits Proofs_Interval Proofs_Event Proofs_Errors Proofs_Report Proofs_Command
  Proofs_Complete.

(** ** Failed connections *)
Section Failed.
Context (F : features) (V : vendor).
Local Notation VE := (VError V).

Lemma code_is_none m mk b : code_is V m mk b = None <-> b <= m.
Proof. unfold code_is. destruct (N.leb_spec b m); split; intros; try reflexivity; try discriminate; lia. Qed.
Lemma interval_is_none p i :
  interval_is V p i = None <-> legal_parameters (u16_le p i) (u16_le p i) (u16_le p (i + 2)) (u16_le p (i + 4)).
Proof.
  unfold interval_is. rewrite <- legal_wire, <- no_failure_iff.
  destruct (first_failure _); cbn; split; intros; try discriminate; reflexivity.
Qed.
Lemma first_error_none {E} (l : list (option E)) : first_error l = None <-> Forall (fun c => c = None) l.
Proof.
  induction l as [|[e|] l IH]; cbn.
  - split; constructor.
  - split; [discriminate|]. intros H. inversion H. discriminate.
  - rewrite IH. split; [constructor; auto|]. intros H. now inversion H.
Qed.

Definition connection_checks (p : list N) : list (option (event_error VE)) :=
  [ code_is V 1 EBadLeConnectionRole (at_ p 2); code_is V 1 EBadLeAddressType (at_ p 3);
    interval_is V p 10; code_is V 7 EBadLeCentralClockAccuracy (at_ p 16) ].
Definition update_checks (p : list N) : list (option (event_error VE)) := [ interval_is V p 2 ].

Lemma connection_fields p : connection_fields_ok p <-> first_error (connection_checks p) = None.
Proof.
  rewrite first_error_none. unfold connection_checks, connection_fields_ok. split.
  - intros (H1 & H2 & H3 & H4). repeat constructor; try (apply code_is_none; assumption).
    now apply interval_is_none.
  - intros H. inversion_clear H as [|? ? H1 H']. inversion_clear H' as [|? ? H2 H''].
    inversion_clear H'' as [|? ? H3 H']. inversion_clear H' as [|? ? H4 H''].
    rewrite code_is_none in H1, H2, H4. apply interval_is_none in H3. auto.
Qed.
Lemma update_fields p : update_fields_ok p <-> first_error (update_checks p) = None.
Proof.
  rewrite first_error_none. unfold update_checks, update_fields_ok. split.
  - intros H. repeat constructor. now apply interval_is_none.
  - intros H. inversion_clear H as [|? ? H1 H']. now apply interval_is_none in H1.
Qed.

Ltac reads :=
  cbn -[status_of connection_role_try_from clock_accuracy_try_from bd_addr_type_of
        fci_from_bytes first_error agrees code_is interval_is].
Ltac step L := apply agrees_bind; [apply L|intros ? _; reads].

(** What is left to decode once the status is good. *)
Lemma connection_after_status body : bytes body -> length body = 17%nat ->
  exists tail : outcome (event_error VE) (status (VStatus V) -> le_connection_complete (VStatus V)),
    agrees tail (first_error (connection_checks body))
    /\ (forall f s, tail = Ok f -> lcc_status (f s) = s)
    /\ forall sb s, status_byte F V sb s ->
         event_new F V (framed 0x3E (0x01 :: sb :: body))
         = let! f := tail in Ok (EvLeConnectionComplete (f s)).
Proof.
  intros Hb Hl. destruct_len Hl. bytes_inv.
  match goal with |- context [[?h0; ?h1; ?ro; ?ty; ?a0; ?a1; ?a2; ?a3; ?a4; ?a5; ?i0; ?i1; ?l0; ?l1; ?t0; ?t1; ?ac]] =>
    exists (let! role := connection_role_try_from ro in
            let! peer := bd_addr_type_of ty [a0; a1; a2; a3; a4; a5] in
            let! ci := map_err EBadConnectionInterval (fci_from_bytes [i0; i1; l0; l1; t0; t1]) in
            let! acc := clock_accuracy_try_from ac in
            Ok (fun s => Build_le_connection_complete s (h0 + 256 * h1) role peer ci acc))
  end. split; [|split].
  - unfold connection_checks. reads. step role_agrees. step address_type_agrees.
    apply agrees_bind; [apply interval_agrees; try assumption; reflexivity|intros ? _; reads].
    step clock_accuracy_agrees. apply agrees_ok.
  - intros f s Hok.
    repeat match type of Hok with bind ?m _ = Ok _ => destruct m; cbn [bind] in Hok; try discriminate end.
    injection Hok as <-. reflexivity.
  - intros sb s Hs. rewrite event_new_framed.
    change (event_dispatch F V 0x3E ?p) with (to_le_meta_event F V p). rewrite meta_cons.
    change (0x01 =? 0x01) with true. cbn iota. unfold wrap, to_le_connection_complete.
    unfold require_len. reads. rewrite (proj2 (status_of_ok F V sb s) Hs). reads.
    repeat match goal with |- bind (bind ?m _) _ = bind (bind ?m _) _ => destruct m; cbn [bind]; try reflexivity end.
Qed.

Lemma update_after_status body : bytes body -> length body = 8%nat ->
  exists tail : outcome (event_error VE) (status (VStatus V) -> le_connection_update_complete (VStatus V)),
    agrees tail (first_error (update_checks body))
    /\ (forall f s, tail = Ok f -> lcu_status (f s) = s)
    /\ forall sb s, status_byte F V sb s ->
         event_new F V (framed 0x3E (0x03 :: sb :: body))
         = let! f := tail in Ok (EvLeConnectionUpdateComplete (f s)).
Proof.
  intros Hb Hl. destruct_len Hl. bytes_inv.
  match goal with |- context [[?h0; ?h1; ?i0; ?i1; ?l0; ?l1; ?t0; ?t1]] =>
    exists (let! ci := map_err EBadConnectionInterval (fci_from_bytes [i0; i1; l0; l1; t0; t1]) in
            Ok (fun s => Build_le_connection_update_complete s (h0 + 256 * h1) ci))
  end. split; [|split].
  - unfold update_checks. reads.
    apply agrees_bind; [apply interval_agrees; try assumption; reflexivity|intros ? _; reads].
    apply agrees_ok.
  - intros f s Hok.
    repeat match type of Hok with bind ?m _ = Ok _ => destruct m; cbn [bind] in Hok; try discriminate end.
    injection Hok as <-. reflexivity.
  - intros sb s Hs. rewrite event_new_framed.
    change (event_dispatch F V 0x3E ?p) with (to_le_meta_event F V p). rewrite meta_cons.
    change (0x03 =? 0x01) with false. change (0x03 =? 0x02) with false. change (0x03 =? 0x03) with true.
    cbn iota. unfold wrap, to_le_connection_update_complete.
    unfold require_len. reads. rewrite (proj2 (status_of_ok F V sb s) Hs). reads.
    repeat match goal with |- bind (bind ?m _) _ = bind (bind ?m _) _ => destruct m; cbn [bind]; try reflexivity end.
Qed.

Lemma connection_delivered body : bytes body -> length body = 17%nat -> connection_fields_ok body ->
  forall sb s, status_byte F V sb s ->
  exists ev, event_new F V (framed 0x3E (0x01 :: sb :: body)) = Ok (EvLeConnectionComplete ev)
          /\ lcc_status ev = s.
Proof.
  intros Hb Hl Hf sb s Hs. destruct (connection_after_status body Hb Hl) as (tail & Ha & H1 & H2).
  apply connection_fields in Hf. rewrite Hf in Ha. destruct Ha as [f ->].
  rewrite (H2 sb s Hs). cbn [bind]. eauto.
Qed.
Lemma connection_lost body : bytes body -> length body = 17%nat -> ~ connection_fields_ok body ->
  exists e, forall sb s, status_byte F V sb s ->
    event_new F V (framed 0x3E (0x01 :: sb :: body)) = Err e.
Proof.
  intros Hb Hl Hf. destruct (connection_after_status body Hb Hl) as (tail & Ha & H1 & H2).
  rewrite connection_fields in Hf. destruct (first_error (connection_checks body)) as [e|]; [|congruence].
  exists e. intros sb s Hs. cbn in Ha. now rewrite (H2 sb s Hs), Ha.
Qed.
Lemma update_delivered body : bytes body -> length body = 8%nat -> update_fields_ok body ->
  forall sb s, status_byte F V sb s ->
  exists ev, event_new F V (framed 0x3E (0x03 :: sb :: body)) = Ok (EvLeConnectionUpdateComplete ev)
          /\ lcu_status ev = s.
Proof.
  intros Hb Hl Hf sb s Hs. destruct (update_after_status body Hb Hl) as (tail & Ha & H1 & H2).
  apply update_fields in Hf. rewrite Hf in Ha. destruct Ha as [f ->].
  rewrite (H2 sb s Hs). cbn [bind]. eauto.
Qed.
Lemma update_lost body : bytes body -> length body = 8%nat -> ~ update_fields_ok body ->
  exists e, forall sb s, status_byte F V sb s ->
    event_new F V (framed 0x3E (0x03 :: sb :: body)) = Err e.
Proof.
  intros Hb Hl Hf. destruct (update_after_status body Hb Hl) as (tail & Ha & H1 & H2).
  rewrite update_fields in Hf. destruct (first_error (update_checks body)) as [e|]; [|congruence].
  exists e. intros sb s Hs. cbn in Ha. now rewrite (H2 sb s Hs), Ha.
Qed.

Lemma zeroed_failure_lost sb s : status_byte F V sb s ->
  event_new F V (framed 0x3E (0x01 :: sb :: repeat 0 17)) = Err (EBadConnectionInterval (IntervalTooShort 0))
  /\ event_new F V (framed 0x3E (0x03 :: sb :: repeat 0 8)) = Err (EBadConnectionInterval (IntervalTooShort 0)).
Proof.
  intros Hs. split.
  - destruct (connection_after_status (repeat 0 17)) as (tail & Ha & _ & H2);
      [repeat constructor|reflexivity|].
    rewrite (H2 sb s Hs). vm_compute in Ha. now rewrite Ha.
  - destruct (update_after_status (repeat 0 8)) as (tail & Ha & _ & H2);
      [repeat constructor|reflexivity|].
    rewrite (H2 sb s Hs). vm_compute in Ha. now rewrite Ha.
Qed.

Lemma some_failure : exists sb (s : status (VStatus V)), sb <> 0 /\ status_byte F V sb s /\ s <> Success.
Proof.
  exists 0x3E, ConnectionFailedToEstablish. split; [discriminate|]. split; [|discriminate].
  reflexivity.
Qed.
Lemma failure_lost_connection :
  exists sb s, sb <> 0 /\ status_byte F V sb s /\ s <> Success
  /\ exists body, bytes body /\ length body = 17%nat
     /\ event_new F V (framed 0x3E (0x01 :: sb :: body))
        = Err (EBadConnectionInterval (IntervalTooShort 0)).
Proof.
  destruct some_failure as (sb & s & H0 & H1 & H2). exists sb, s. repeat split; try assumption.
  exists (repeat 0 17). split; [repeat constructor|]. split; [reflexivity|].
  exact (proj1 (zeroed_failure_lost sb s H1)).
Qed.
Lemma failure_lost_update :
  exists sb s, sb <> 0 /\ status_byte F V sb s /\ s <> Success
  /\ exists body, bytes body /\ length body = 8%nat
     /\ event_new F V (framed 0x3E (0x03 :: sb :: body))
        = Err (EBadConnectionInterval (IntervalTooShort 0)).
Proof.
  destruct some_failure as (sb & s & H0 & H1 & H2). exists sb, s. repeat split; try assumption.
  exists (repeat 0 8). split; [repeat constructor|]. split; [reflexivity|].
  exact (proj2 (zeroed_failure_lost sb s H1)).
Qed.

End Failed.

(** ** Loss of information *)
Section Loss.
Context (F : features) (V : vendor) (HV : vendor_statuses_distinct V).

Lemma assigned_distinct b b' (s : status (VStatus V)) :
  nth_error (assigned_statuses F) b = Some s -> nth_error (assigned_statuses F) b' = Some s -> b = b'.
Proof.
  intros H H'. assert (ND : NoDup (map (status_into F (fun _ => 255)) (@assigned_statuses (VStatus V) F))).
  { assert (K : forallb (fun x => Nat.eqb (count_occ N.eq_dec (map (status_into F (fun _ => 255))
                   (@assigned_statuses (VStatus V) F)) x) 1)
                 (map (status_into F (fun _ => 255)) (@assigned_statuses (VStatus V) F)) = true).
    { unfold assigned_statuses, status_into. destruct (version_5_0 F); vm_compute; reflexivity. }
    rewrite forallb_forall in K. apply (NoDup_count_occ' N.eq_dec).
    intros x Hx. apply K in Hx. now apply Nat.eqb_eq in Hx. }
  assert (E1 := map_nth_error (status_into F (fun _ => 255)) _ _ H).
  assert (E2 := map_nth_error (status_into F (fun _ => 255)) _ _ H').
  eapply NoDup_nth_error; [exact ND| |congruence].
  apply nth_error_Some. congruence.
Qed.
Lemma assigned_standard b (s : status (VStatus V)) v :
  nth_error (assigned_statuses F) b = Some s -> s <> Vendor v.
Proof.
  intros H ->. apply nth_error_In in H. unfold assigned_statuses in H.
  apply in_app_iff in H. destruct H as [H|H].
  - cbn in H. repeat (destruct H as [H|H]; [discriminate|]). destruct H.
  - destruct (version_5_0 F); cbn in H; repeat (destruct H as [H|H]; [discriminate|]); destruct H.
Qed.

Lemma status_byte_unique b b' s : status_byte F V b s -> status_byte F V b' s -> b = b'.
Proof using HV.
  unfold status_byte. intros H H'.
  destruct (nth_error (assigned_statuses F) (N.to_nat b)) eqn:E;
    destruct (nth_error (assigned_statuses F) (N.to_nat b')) eqn:E'; subst.
  - apply N2Nat.inj. eapply assigned_distinct; eassumption.
  - destruct H' as (v & _ & K). apply assigned_standard with (v := v) in E. congruence.
  - destruct H as (v & _ & K). apply assigned_standard with (v := v) in E'. congruence.
  - destruct H as (v & Hv & ->), H' as (v' & Hv' & K). injection K as <-. eapply HV; eassumption.
Qed.

Lemma interval_bytes_unique ci iv iv' :
  fixed_interval_bytes ci iv -> fixed_interval_bytes ci iv' -> iv = iv'.
Proof.
  intros (i & t & _ & Hi & Ht & ->) (i' & t' & _ & Hi' & Ht' & ->).
  rewrite Hi in Hi'. rewrite Ht in Ht'.
  apply N.mul_cancel_r in Hi'; [|discriminate]. apply N.mul_cancel_r in Ht'; [|discriminate].
  now subst.
Qed.

Ltac same_status :=
  repeat match goal with
  | H : status_byte F V ?b ?s, H' : status_byte F V ?b' ?s |- _ =>
      first [ constr_eq b b'; fail 1 | assert (b' = b) by exact (status_byte_unique b' b s H' H); subst b'; clear H' ]
  end.

Definition related (r : return_parameters V) n op ret ret' : Prop :=
  ret' = ret \/ alike F (framed 0x0E ([n] ++ le 2 op ++ ret)) (framed 0x0E ([n] ++ le 2 op ++ ret')).

Lemma return_loss r n op ret op' ret' : u16 op -> u16 op' ->
  wire_return F V r op ret -> wire_return F V r op' ret' ->
  op' = op /\ related r n op ret ret'.
Proof using HV.
  intros Hop Hop' H H'. unfold related.
  destruct r; cbn [wire_return] in H, H';
  lazymatch type of H with
  | False => destruct H
  | op = 0 => idtac
  | _ => idtac
  end;
  try (destruct H as [-> (sb & rest & Hs & ->)], H' as [-> (sb' & rest' & Hs' & ->)]; same_status;
       split; [reflexivity|]; right; apply alike_status; unfold status_only_opcodes; cbn [In]; tauto);
  try (destruct p; cbn in H, H'; decompose [and] H; decompose [and] H'; subst; split; [reflexivity|];
       match goal with
       | K : status_then _ _ _ _ ret, K' : status_then _ _ _ _ ret' |- _ =>
           destruct K as (sb & Hs & ->), K' as (sb' & Hs' & ->); same_status; left; reflexivity
       end).
  - subst. split; [reflexivity|]. right. change (le 2 0) with [0; 0]. exact (alike_spontaneous F n ret ret').
  - destruct H as (-> & v & Hv & Hb & sb & Hs & ->), H' as (-> & v' & Hv' & Hb' & sb' & Hs' & ->).
    same_status. split; [reflexivity|]. right. apply alike_lmp_features; auto.
    intros i Hi. specialize (Hb i). specialize (Hb' i). rewrite Hi, !Bool.andb_true_r in *. congruence.
  - destruct H as (-> & v & Hv & Hb & sb & Hs & ->), H' as (-> & v' & Hv' & Hb' & sb' & Hs' & ->).
    same_status. split; [reflexivity|]. right. apply alike_le_features; auto.
    intros i Hi. specialize (Hb i). specialize (Hb' i). rewrite Hi, !Bool.andb_true_r in *. congruence.
  - destruct H as (_ & -> & sb & rest & Hs & ->), H' as (_ & -> & sb' & rest' & Hs' & ->).
    same_status. split; [reflexivity|]. right. apply alike_status. unfold status_only_opcodes; cbn [In]; tauto.
  - destruct H as (_ & -> & sb & rest & Hs & ->), H' as (_ & -> & sb' & rest' & Hs' & ->).
    same_status. split; [reflexivity|]. right. apply alike_status. unfold status_only_opcodes; cbn [In]; tauto.
  - destruct H as (-> & sb & rest & Hs & ->), H' as (-> & sb' & rest' & Hs' & ->).
    same_status. split; [reflexivity|]. right. apply alike_size.
Qed.

Lemma framed_complete n op ret :
  [0x0E; N.of_nat (3 + length ret); n] ++ le 2 op ++ ret = framed 0x0E ([n] ++ le 2 op ++ ret).
Proof. unfold framed. rewrite !app_length, le_length. reflexivity. Qed.

Lemma event_loss pkt pkt' ev : bytes pkt -> bytes pkt' -> ~ vendor_packet pkt ->
  event_new F V pkt = Ok ev -> event_new F V pkt' = Ok ev -> pkt' = pkt \/ alike F pkt pkt'.
Proof using HV.
  intros Hb Hb' Hv H H'. destruct ev.
  - destruct e as [s h a lt en]. apply (connection_complete_packet F V) in H, H'; [|assumption..].
    destruct H as (sb & Hs & _ & _ & ->), H' as (sb' & Hs' & _ & _ & ->). same_status. auto.
  - destruct e as [s h r]. apply (disconnection_complete_packet F V) in H, H'; [|assumption..].
    destruct H as (sb & rb & Hs & _ & Hr & ->), H' as (sb' & rb' & Hs' & _ & Hr' & ->).
    assert (sb' = sb) by (eapply status_byte_unique; eassumption).
    assert (rb' = rb) by (eapply status_byte_unique; eassumption). subst. auto.
  - destruct e as [s h en]. apply (encryption_change_packet F V) in H, H'; [|assumption..].
    destruct H as (sb & Hs & _ & ->), H' as (sb' & Hs' & _ & ->). same_status. auto.
  - destruct e as [s h v m sv]. apply (remote_version_packet F V) in H, H'; [|assumption..].
    destruct H as (sb & Hs & _ & _ & _ & ->), H' as (sb' & Hs' & _ & _ & _ & ->). same_status. auto.
  - destruct e as [n r]. apply (command_complete_dispatch_iff F V) in H, H'; [|assumption..].
    destruct H as (op & ret & Hop & -> & H), H' as (op' & ret' & Hop' & -> & H').
    destruct H as [Hw|(v & Ho & _)].
    + destruct H' as [Hw'|(v & _ & _ & ->)]; [|destruct Hw].
      destruct (return_loss r n op ret op' ret' Hop Hop' Hw Hw') as [-> [->|K]]; [auto|].
      right. now rewrite !framed_complete.
    + exfalso. apply Hv. rewrite le_2. cbn [app vendor_packet]. unfold u16 in Hop.
      change (2 ^ 16) with 65536 in Hop. lia.
  - destruct e as [s n o]. apply (command_status_packet F V) in H, H'; [|assumption..].
    destruct H as (sb & Hs & _ & ->), H' as (sb' & Hs' & _ & ->). same_status. auto.
  - destruct e as [c]. apply (hardware_error_packet F V) in H, H'; [|assumption..]. left. congruence.
  - destruct (accepted_pairs_iterate F V pkt e Hb H) as (l & Hi & Hp & E).
    destruct (accepted_pairs_iterate F V pkt' e Hb' H') as (l' & Hi' & Hp' & E').
    assert (l = l') by (eapply iterates_inj; eassumption). left. congruence.
  - destruct e as [c]. apply (data_buffer_overflow_packet F V) in H, H'; [|assumption..]. left. congruence.
  - destruct e as [s h]. apply (encryption_key_refresh_packet F V) in H, H'; [|assumption..].
    destruct H as (sb & Hs & _ & ->), H' as (sb' & Hs' & _ & ->). same_status. auto.
  - destruct e as [s h role peer ci acc]. apply (le_connection_complete_packet F V) in H, H'; [|assumption..].
    destruct H as (sb & iv & Hs & _ & _ & Hi & ->), H' as (sb' & iv' & Hs' & _ & _ & Hi' & ->).
    same_status. rewrite (interval_bytes_unique ci iv' iv Hi' Hi). auto.
  - destruct (accepted_report_iterates F V pkt e Hb H) as (l & Hi & E).
    destruct (accepted_report_iterates F V pkt' e Hb' H') as (l' & Hi' & E').
    assert (l = l') by (eapply iterates_inj; eassumption). subst l'.
    destruct (proj1 (advertising_report_packet F V pkt l Hb)) as (_ & count & ->); [eauto|].
    destruct (proj1 (advertising_report_packet F V pkt' l Hb')) as (_ & count' & ->); [eauto|].
    right. exact (alike_report F count count' (flat_map advertisement_bytes l)).
  - destruct e as [s h ci]. apply (le_connection_update_packet F V) in H, H'; [|assumption..].
    destruct H as (sb & iv & Hs & _ & Hi & ->), H' as (sb' & iv' & Hs' & _ & Hi' & ->).
    same_status. rewrite (interval_bytes_unique ci iv' iv Hi' Hi). auto.
  - destruct e as [s h fe]. apply (le_used_features_packet F V) in H, H'; [|assumption..].
    destruct H as (sb & Hs & _ & _ & _ & ->), H' as (sb' & Hs' & _ & _ & _ & ->). same_status. auto.
  - destruct e. apply (le_ltk_request_packet F V) in H, H'; [|assumption..]. left.
    destruct H as (_ & _ & _ & ->), H' as (_ & _ & _ & ->). reflexivity.
  - destruct e. apply (le_data_length_change_packet F V) in H, H'; [|assumption..]. left.
    destruct H as (_ & _ & _ & _ & _ & ->), H' as (_ & _ & _ & _ & _ & ->). reflexivity.
  - destruct e as [s h tx rx]. apply (le_phy_update_packet F V) in H, H'; [|assumption..].
    destruct H as (sb & Hs & _ & ->), H' as (sb' & Hs' & _ & ->). same_status. auto.
  - exfalso. apply Hv. apply event_new_ok in H. destruct H as (c & p & -> & H).
    apply dispatch_ok in H. destruct H as [-> _]. exact I.
Qed.

(** Packets that are alike decode alike. *)
Lemma truncate_alike d defined v v' :
  (forall i, N.testbit (bf_all F d) i = defined i) -> agree_on defined v v' ->
  bf_from_bits_truncate F d v = bf_from_bits_truncate F d v'.
Proof.
  intros Hd H. apply N.bits_inj. intros i. rewrite !(bf_truncate_spec F d defined _ Hd).
  specialize (H i). destruct (defined i); [now rewrite H|]. now rewrite !Bool.andb_false_r.
Qed.
Lemma u64_at_le (sb v : N) : u64 v -> @u64_at (event_error (VError V)) (sb :: le 8 v) 1 = Ok v.
Proof.
  intros H. rewrite <- (read_le_8 v H) at 2. rewrite le_8. reflexivity.
Qed.

Lemma status_opcode_u16 op : In op status_only_opcodes -> u16 op.
Proof. intros H. cbn in H. repeat (destruct H as [<-|H]; [reflexivity|]). destruct H. Qed.

Lemma alike_same pkt pkt' : alike F pkt pkt' -> event_new F V pkt = event_new F V pkt'.
Proof.
  intros H. destruct H as [n ret ret'|n op sb rest rest' Hop|n sb size rest rest'|n sb v v' Hv Hv' Ha
                          |n sb v v' Hv Hv' Ha|count count' data].
  - change ([n; 0; 0] ++ ?r) with ([n] ++ le 2 0 ++ r). rewrite !complete_event by reflexivity. reflexivity.
  - apply complete_status_only_rest; [exact Hop|]. now apply status_opcode_u16.
  - rewrite !complete_event by reflexivity. reflexivity.
  - rewrite !complete_event by reflexivity.
    change (return_params_of F V (hci_opcode 0x04 0x003) ?b)
      with (arm V (to_supported_features F V) RetReadLocalSupportedFeatures b).
    rewrite !le_2. cbn [app]. rewrite !arm_cons. unfold to_supported_features, require_len.
    cbn [length]. rewrite !le_length. cbn [Nat.eqb bind].
    unfold to_status, idx. cbn [nth_error bind]. destruct (status_of F V sb); cbn [bind]; [|reflexivity..].
    rewrite !u64_at_le by assumption. cbn [bind].
    now rewrite (truncate_alike LmpFeatures lmp_feature_defined v v' (lmp_feature_bits F) Ha).
  - rewrite !complete_event by reflexivity.
    change (return_params_of F V (hci_opcode 0x08 0x003) ?b)
      with (arm V (to_le_local_supported_features F V) RetLeReadLocalSupportedFeatures b).
    rewrite !le_2. cbn [app]. rewrite !arm_cons. unfold to_le_local_supported_features, require_len.
    cbn [length]. rewrite !le_length. cbn [Nat.eqb bind].
    unfold to_status, idx. cbn [nth_error bind]. destruct (status_of F V sb); cbn [bind]; [|reflexivity..].
    rewrite !u64_at_le by assumption. cbn [bind].
    now rewrite (truncate_alike LeFeatures (le_feature_defined F) v v' (le_local_feature_bits F) Ha).
  - rewrite !event_new_framed. reflexivity.
Qed.

Lemma event_loss_iff pkt pkt' ev : bytes pkt -> bytes pkt' -> ~ vendor_packet pkt ->
  event_new F V pkt = Ok ev ->
  (event_new F V pkt' = Ok ev <-> pkt' = pkt \/ alike F pkt pkt').
Proof using HV.
  intros Hb Hb' Hv H. split; [now apply event_loss|].
  intros [->|Ha]; [exact H|]. now rewrite <- (alike_same _ _ Ha).
Qed.
End Loss.
