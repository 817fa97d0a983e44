(** * Unknown codes, and the packets on which decoding panics. *)
From Verif Require Import Base Model_Types Model_Bitflags Model_Intervals
  Model_EventBase Model_Command Model_Event Spec_Wire Spec_Interval Spec_Errors Spec_Report Spec_Example
  Proofs_Base Proofs_Event Proofs_Errors Proofs_Command Proofs_Report.

Section Panic.
Context (F : features) (V : vendor).
Local Notation VE := (VError V).

(** ** Unknown codes *)
Lemma unknown_event code p : ~ In code known_events ->
  event_new F V (framed code p) = Err (EUnknownEvent code).
Proof.
  intros H. rewrite event_new_framed. unfold event_dispatch.
  repeat match goal with |- context [if code =? ?c then _ else _] =>
    destruct (N.eqb_spec code c) as [->|_]; [exfalso; apply H; cbn; tauto|] end.
  reflexivity.
Qed.

Lemma unknown_subevent sub rest : ~ In sub known_subevents ->
  event_new F V (framed 0x3E (sub :: rest)) = Err (EUnknownEvent sub).
Proof.
  intros H. rewrite event_new_framed.
  change (event_dispatch F V 0x3E (sub :: rest)) with (to_le_meta_event F V (sub :: rest)).
  rewrite meta_cons.
  repeat match goal with |- context [if sub =? ?c then _ else _] =>
    destruct (N.eqb_spec sub c) as [->|_]; [exfalso; apply H; cbn; tauto|] end.
  reflexivity.
Qed.

Lemma empty_meta_event : event_new F V (framed 0x3E []) = Err (EBadLength 0 1).
Proof. reflexivity. Qed.

(** ** Panics *)
Context (HV : vendor_total V).

Lemma checks_no_panic code p cs : bytes p -> event_checks F V code p = Some cs ->
  event_new F V (framed code p) <> Panic.
Proof.
  intros Hb H. assert (K := event_agrees F V HV code p cs Hb H).
  apply agrees_err in K. tauto.
Qed.

Lemma framed_inj c1 p1 c2 p2 : framed c1 p1 = framed c2 p2 -> c1 = c2 /\ p1 = p2.
Proof. unfold framed. intros H. injection H as -> _ ->. auto. Qed.

Lemma status_only_u16 op : In op status_only_opcodes \/ op = white_list_size_opcode -> u16 op.
Proof.
  intros H. unfold u16. change (2 ^ 16) with 65536.
  assert (K : forallb (fun o => o <? 65536) (white_list_size_opcode :: status_only_opcodes) = true)
    by reflexivity.
  rewrite forallb_forall in K. apply N.ltb_lt. apply K.
  destruct H as [H| ->]; [right; exact H|left; reflexivity].
Qed.

Lemma command_complete_panic_iff p : bytes p ->
  (event_new F V (framed 0x0E p) = Panic <->
   exists n,
     (exists op, p = [n] ++ le 2 op /\ (In op status_only_opcodes \/ op = white_list_size_opcode))
     \/ (exists sb, p = [n] ++ le 2 white_list_size_opcode ++ [sb]
         /\ status_is F V EBadStatus sb = None)).
Proof.
  intros Hb. rewrite event_new_framed.
  change (event_dispatch F V 0x0E p) with (wrap V (command_complete_new F V p) EvCommandComplete).
  assert (W : wrap V (command_complete_new F V p) EvCommandComplete = Panic
              <-> command_complete_new F V p = Panic)
    by (unfold wrap; destruct (command_complete_new F V p); cbn; split; congruence).
  rewrite W. clear W.
  destruct p as [|n [|o0 [|o1 ret]]].
  1-3: rewrite command_complete_short by (cbn; lia); split; [discriminate|];
       intros (n' & [(op & E & _)|(sb & E & _)]); rewrite le_2 in E; discriminate E.
  bytes_inv. set (op := o0 + 256 * o1).
  assert (Hop : u16 op) by (apply u16_of_bytes; assumption).
  assert (E : n :: o0 :: o1 :: ret = [n] ++ le 2 op ++ ret)
    by (unfold op; rewrite le_2_of_bytes by assumption; reflexivity).
  rewrite E, command_complete_panic by assumption.
  assert (Inv : forall n' op' ret', u16 op' ->
    [n] ++ le 2 op ++ ret = [n'] ++ le 2 op' ++ ret' -> n = n' /\ op = op' /\ ret = ret').
  { intros n' op' ret' Hop' K. assert (Kn := f_equal (hd 0) K).
    apply (f_equal (@tl N)) in K. cbn [app hd tl] in Kn, K.
    assert (K1 : le 2 op = le 2 op')
      by (apply (f_equal (firstn 2)) in K; rewrite !firstn_all_app in K by apply le_length; exact K).
    rewrite K1 in K. apply app_inv_head in K. apply le_inj in K1; auto. }
  split.
  - intros [[-> H']|[H' (sb & -> & Hs)]]; exists n.
    + left. exists op. rewrite app_nil_r. auto.
    + right. exists sb. rewrite <- H'. auto.
  - intros (n' & [(op' & K & H')|(sb & K & Hs)]).
    + rewrite <- (app_nil_r (le 2 op')) in K. apply Inv in K; [|now apply status_only_u16].
      destruct K as (_ & <- & ->). auto.
    + apply Inv in K; [|apply status_only_u16; auto].
      destruct K as (_ & K & ->). right. split; [exact K|]. exists sb. auto.
Qed.

Lemma event_new_panic pkt : bytes pkt -> (event_new F V pkt = Panic <-> panics F V pkt).
Proof.
  intros Hb. split.
  - intros H. destruct (event_new_cases F V pkt) as [[_ K]|[(c & n & r & _ & _ & K)|(c & p & -> & _)]].
    { congruence. } { congruence. }
    assert (Hp := framed_bytes _ _ Hb).
    destruct (in_dec N.eq_dec c known_events) as [Hc|Hc].
    2:{ rewrite unknown_event in H by exact Hc. discriminate. }
    cbn [known_events In] in Hc.
    repeat match type of Hc with ?x = c \/ _ => destruct Hc as [<-|Hc] end; [..|destruct Hc].
    all: try (exfalso; refine (checks_no_panic _ _ _ Hp _ H); reflexivity).
    + (* Command Complete *)
      apply command_complete_panic_iff in H; [|exact Hp].
      destruct H as (n & [(op & -> & H)|(sb & -> & H)]).
      * now apply panics_without_status.
      * now apply panics_without_size.
    + (* Number Of Completed Packets *)
      exfalso. destruct p as [|c bs]; [discriminate|].
      destruct (Nat.eq_dec (length bs) (4 * N.to_nat c)) as [E|E].
      * destruct (proj2 (completed_packets_accepted F V (c :: bs) Hp (framed_payload_length _ _ Hb)))
          as [ev K].
        { exists (N.to_nat c), bs. rewrite N2Nat.id. auto. }
        rewrite K in H. discriminate.
      * rewrite (proj2 (completed_packets_errors F V _ (framed_payload_length _ _ Hb)) c bs) in H;
          [discriminate|reflexivity|exact E].
    + (* LE meta *)
      destruct p as [|sub rest]; [discriminate|].
      destruct (in_dec N.eq_dec sub known_subevents) as [Hs|Hs].
      2:{ rewrite unknown_subevent in H by exact Hs. discriminate. }
      cbn [known_subevents In] in Hs.
      repeat match type of Hs with ?x = sub \/ _ => destruct Hs as [<-|Hs] end; [..|destruct Hs].
      all: try (exfalso; refine (checks_no_panic _ _ _ Hp _ H); reflexivity).
      destruct rest as [|count data]; [apply panics_without_count|].
      assert (Hl := framed_payload_length _ _ Hb). cbn [length] in Hl. bytes_inv.
      destruct (advertising_report_failures F V data) with (count := count) as [K _]; [assumption|lia|].
      apply K in H. destruct H as (l & tail & [Hok ->] & Ht).
      now apply (panics_fragment F V count l tail).
    + (* vendor *)
      exfalso. rewrite event_new_framed in H.
      change (event_dispatch F V 0xFF p) with (wrap V (vevent_new V p) EvVendor) in H.
      destruct HV as (_ & K & _). specialize (K p). unfold wrap in H.
      destruct (vevent_new V p); cbn in H; congruence.
  - intros H. destruct H as [n op H|n sb H| |count l tail Hok Ht].
    + apply command_complete_panic_iff; [eapply framed_bytes; eassumption|].
      exists n. left. eauto.
    + apply command_complete_panic_iff; [eapply framed_bytes; eassumption|].
      exists n. right. eauto.
    + reflexivity.
    + assert (Hl := framed_payload_length _ _ Hb). apply framed_bytes in Hb. cbn [app length] in *.
      bytes_inv.
      destruct (advertising_report_failures F V (flat_map advertisement_bytes l ++ tail))
        with (count := count) as [K _]; [now apply bytes_app|lia|].
      apply K. exists l, tail. split; [split; auto|exact Ht].
Qed.

(** ** UnknownEvent is for unknown codes only *)
Context (HU : vendor_no_unknown_event V).

Lemma first_error_in {E} (l : list (option E)) e : first_error l = Some e -> In (Some e) l.
Proof.
  induction l as [|[x|] l IH]; cbn; intros H; [discriminate|left; exact H|right; auto].
Qed.

Lemma length_is_not p n x : length_is V p n <> Some (EUnknownEvent x).
Proof. unfold length_is. destruct (Nat.eqb _ _); discriminate. Qed.
Lemma status_is_not mk b x : (forall y, mk y <> EUnknownEvent x) ->
  status_is F V mk b <> Some (EUnknownEvent x).
Proof.
  intros H. unfold status_is. destruct (nth_error _ _); [discriminate|].
  destruct (vstatus_try_from V b) as [|e|]; try discriminate.
  intros K. injection K as K. now apply H in K.
Qed.
Lemma code_is_not m mk b x : (forall y, mk y <> EUnknownEvent x) ->
  code_is V m mk b <> Some (EUnknownEvent x).
Proof.
  intros H. unfold code_is. destruct (b <=? m); [discriminate|].
  intros K. injection K as K. now apply H in K.
Qed.
Lemma interval_is_not p i x : interval_is V p i <> Some (EUnknownEvent x).
Proof. unfold interval_is. destruct (first_failure _); discriminate. Qed.
Lemma bits_are_not n d b e x : e <> EUnknownEvent x -> bits_are V n d b e <> Some (EUnknownEvent x).
Proof. intros H. unfold bits_are. destruct (forallb _ _); congruence. Qed.

Ltac no_unknown H :=
  apply first_error_in in H; cbn [In] in H;
  repeat (destruct H as [H|H];
    [ exfalso; revert H;
      first [ apply length_is_not | apply interval_is_not
            | apply status_is_not; discriminate | apply code_is_not; discriminate
            | apply bits_are_not; discriminate ] |]);
  destruct H.

Lemma event_checks_not code p cs x : event_checks F V code p = Some cs ->
  first_error cs <> Some (EUnknownEvent x).
Proof.
  intros Hc H. unfold event_checks in Hc.
  repeat match type of Hc with
  | match ?t with _ => _ end = _ => destruct t; try discriminate Hc
  end; injection Hc as <-; no_unknown H.
Qed.

Lemma return_checks_not op r cs x : return_checks F V op r = Some cs ->
  first_error cs <> Some (EUnknownEvent x).
Proof.
  intros Hc H. unfold return_checks in Hc.
  repeat match type of Hc with
  | (if ?t then _ else _) = _ => destruct t; [injection Hc as <-; no_unknown H|]
  end. discriminate.
Qed.

Lemma command_complete_not p x : bytes p ->
  command_complete_new F V p <> Err (EUnknownEvent x).
Proof.
  intros Hb. destruct p as [|n [|o0 [|o1 ret]]];
    try (rewrite command_complete_short by (cbn; lia); discriminate).
  bytes_inv. rewrite command_complete_cons. set (op := o0 + 256 * o1).
  assert (K : return_params_of F V op (n :: o0 :: o1 :: ret) <> Err (EUnknownEvent x)).
  2:{ destruct (return_params_of F V op (n :: o0 :: o1 :: ret)); cbn; congruence. }
  destruct (opcode_kinds F V op ret) as [->|[H'|[->|[[cs H']|H']]]].
  - discriminate.
  - destruct ret as [|sb rest]; [rewrite status_only_panic by exact H'; discriminate|].
    assert (K := status_only_agrees F V HV n o0 o1 op sb rest H').
    apply agrees_err in K. destruct K as (K & _). rewrite K. apply status_is_not. discriminate.
  - destruct ret as [|sb [|size rest]].
    + discriminate.
    + assert (S := status_of_agrees F V HV sb).
      change (return_params_of F V white_list_size_opcode [n; o0; o1; sb])
        with (let! s := @status_of VE F V sb in @Panic (event_error VE) (return_parameters V)).
      assert (S' := status_is_not (@EBadStatus VE) sb x).
      destruct (status_is F V EBadStatus sb) as [e|]; cbn in S.
      * rewrite S. cbn. intros Q. injection Q as Q. apply S'; [discriminate|]. now rewrite Q.
      * destruct S as [s ->]. discriminate.
    + assert (K := white_list_agrees F V HV n o0 o1 sb size rest).
      apply agrees_err in K. destruct K as (K & _). rewrite K. apply status_is_not. discriminate.
  - assert (K := return_agrees F V HV n o0 o1 op ret cs).
    destruct (agrees_err _ _ (K ltac:(assumption) H')) as (K' & _). rewrite K'.
    eapply return_checks_not. exact H'.
  - rewrite return_unknown by exact H'. destruct (negb _); [discriminate|].
    destruct HU as [_ HR]. specialize (HR (n :: o0 :: o1 :: ret) x).
    destruct (vreturn_new V _); cbn; congruence.
Qed.

Lemma wrap_err {A} (m : outcome (event_error VE) A) (k : A -> event V) e :
  wrap V m k = Err e <-> m = Err e.
Proof. unfold wrap. destruct m; cbn; split; congruence. Qed.

Lemma unknown_event_iff pkt x : bytes pkt ->
  (event_new F V pkt = Err (EUnknownEvent x) <->
   (~ In x known_events /\ exists p, pkt = framed x p)
   \/ (~ In x known_subevents /\ exists rest, pkt = framed 0x3E (x :: rest))).
Proof.
  intros Hb. split.
  - intros H. destruct (event_new_cases F V pkt) as [[_ K]|[(c & n & r & _ & _ & K)|(c & p & -> & _)]].
    { congruence. } { congruence. }
    assert (Hp := framed_bytes _ _ Hb).
    assert (Fixed : forall code q cs, bytes q -> event_checks F V code q = Some cs ->
      event_new F V (framed code q) <> Err (EUnknownEvent x)).
    { intros code q cs Hq Hc. assert (K := event_agrees F V HV code q cs Hq Hc).
      destruct (agrees_err _ _ K) as (K' & _). rewrite K'. now apply event_checks_not with (1 := Hc). }
    destruct (in_dec N.eq_dec c known_events) as [Hc|Hc].
    2:{ rewrite unknown_event in H by exact Hc. injection H as ->. left. eauto. }
    cbn [known_events In] in Hc.
    repeat match type of Hc with ?y = c \/ _ => destruct Hc as [<-|Hc] end; [..|destruct Hc].
    all: try (exfalso; refine (Fixed _ _ _ Hp _ H); reflexivity).
    + exfalso. rewrite event_new_framed in H.
      change (event_dispatch F V 0x0E p) with (wrap V (command_complete_new F V p) EvCommandComplete) in H.
      apply wrap_err in H. now apply command_complete_not in H.
    + exfalso. destruct p as [|c bs]; [discriminate|].
      destruct (Nat.eq_dec (length bs) (4 * N.to_nat c)) as [E|E].
      * destruct (proj2 (completed_packets_accepted F V (c :: bs) Hp (framed_payload_length _ _ Hb)))
          as [ev K].
        { exists (N.to_nat c), bs. rewrite N2Nat.id. auto. }
        rewrite K in H. discriminate.
      * rewrite (proj2 (completed_packets_errors F V _ (framed_payload_length _ _ Hb)) c bs) in H;
          [discriminate|reflexivity|exact E].
    + destruct p as [|sub rest]; [discriminate|].
      destruct (in_dec N.eq_dec sub known_subevents) as [Hs|Hs].
      2:{ rewrite unknown_subevent in H by exact Hs. injection H as ->. right. eauto. }
      exfalso. cbn [known_subevents In] in Hs.
      repeat match type of Hs with ?y = sub \/ _ => destruct Hs as [<-|Hs] end; [..|destruct Hs].
      all: try (refine (Fixed _ _ _ Hp _ H); reflexivity).
      destruct rest as [|count data]; [discriminate|].
      assert (Hl := framed_payload_length _ _ Hb). cbn [length] in Hl. bytes_inv.
      destruct (advertising_report_failures F V data) with (count := count) as [_ K]; [assumption|lia|].
      apply K in H. destruct H as (l & tail & _ & _ & E). unfold entry_checks in E.
      apply first_error_in in E. cbn [In] in E. destruct E as [E|[E|[E|[]]]].
      * destruct (Nat.ltb _ _); discriminate.
      * revert E. apply code_is_not. discriminate.
      * revert E. apply code_is_not. discriminate.
    + exfalso. rewrite event_new_framed in H.
      change (event_dispatch F V 0xFF p) with (wrap V (vevent_new V p) EvVendor) in H.
      apply wrap_err in H. destruct HU as [HE _]. now apply HE in H.
  - intros [[H [p ->]]|[H [rest ->]]].
    + now apply unknown_event.
    + now apply unknown_subevent.
Qed.

End Panic.

(** ** Each event comes from its own code *)
Lemma event_of_code F V pkt ev : event_new F V pkt = Ok ev ->
  exists p, pkt = framed (event_code ev) p /\
    match event_subcode ev with Some sub => exists rest, p = sub :: rest | None => True end.
Proof.
  intros H. apply event_new_ok in H. destruct H as (c & p & -> & H). exists p.
  apply dispatch_ok in H.
  destruct ev; cbn [event_code event_subcode] in *; destruct H as [-> H]; (split; [reflexivity|]);
    try exact I;
    apply meta_ok in H; destruct H as (sub & rest & -> & -> & _); eauto.
Qed.

Lemma never_panics_refuted :
  exists F V pkt, vendor_total V /\ bytes pkt /\ event_new F V pkt = Panic.
Proof.
  exists F41, test_vendor, [0x0E; 3; 1; 0x03; 0x0C].
  split; [exact test_vendor_total|]. split; [repeat constructor|reflexivity].
Qed.
