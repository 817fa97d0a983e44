(** * Which events a controller sends (proofs). *)
From Coq Require Import String.
From Verif Require Import Base Model_Types Model_Bitflags Model_FlagNames Model_Intervals Model_EventBase Model_Command Model_Event
  Model_Host Spec_Wire Spec_Errors Spec_Report Spec_Host Spec_Link Spec_Split Spec_FlagNames Spec_Device Spec_Air Spec_Enabled
  Proofs_Base Proofs_Panic Proofs_FlagNames Proofs_Device Proofs_Air.
Open Scope list_scope.
Open Scope N_scope.

Section After.
Context {V : vendor}.
Implicit Type cs : list (command V).
Ltac fields := cbn [asked with_event_mask with_le_event_mask with_random_address with_advertising with_advertising_data
  with_scan_response with_is_advertising with_scanning with_is_scanning with_white_list with_channels with_connecting
  event_mask le_event_mask].
Lemma mask_after cs : event_mask (after cs) = wanted_mask cs.
Proof.
  unfold wanted_mask. induction cs as [|c cs IH] using rev_ind; [reflexivity|].
  rewrite after_snoc, latest_snoc. destruct c; fields; exact IH || reflexivity.
Qed.
Lemma le_mask_after cs : le_event_mask (after cs) = wanted_le_mask cs.
Proof.
  unfold wanted_le_mask. induction cs as [|c cs IH] using rev_ind; [reflexivity|].
  rewrite after_snoc, latest_snoc. destruct c; fields; exact IH || reflexivity.
Qed.

Lemma enabled_after F W pkt ev cs : event_new F W pkt = Ok ev -> le_event_known F ev = true ->
  lets_through (after cs) pkt = wants_event F cs ev.
Proof.
  intros H Hk. destruct (event_of_code F W pkt ev H) as (p & -> & Hs).
  unfold lets_through, wants_event, framed. rewrite mask_after, le_mask_after.
  destruct (event_flag ev) as [name|] eqn:En.
  - assert (K : event_constant F name = Some (N.shiftl 1 (event_code ev - 1))).
    { apply constant_at. destruct F as [[] []], ev; cbn [event_flag] in En; try discriminate En;
        injection En as <-; vm_compute; reflexivity. }
    rewrite K. cbn [has_flag]. rewrite contains_bit.
    replace (always_sent (event_code ev)) with false
      by (destruct ev; cbn [event_flag] in En; try discriminate En; reflexivity).
    cbn [orb]. f_equal. destruct (le_event_flag ev) as [sub_name|] eqn:El.
    + destruct (event_subcode ev) as [sub|] eqn:Es; [|destruct ev; discriminate].
      destruct Hs as (rest & ->).
      assert (L : le_event_constant F sub_name = Some (N.shiftl 1 (sub - 1))).
      { apply constant_at. destruct F as [[] []], ev; cbn [le_event_flag event_subcode] in *; try discriminate Hk;
          try discriminate El; injection El as <-; injection Es as <-; vm_compute; reflexivity. }
      rewrite L. cbn [has_flag]. rewrite contains_bit.
      now replace (event_code ev =? 0x3E) with true by (destruct ev; cbn [le_event_flag] in El; try discriminate El; reflexivity).
    + now replace (event_code ev =? 0x3E) with false by (destruct ev; cbn [le_event_flag] in El; try discriminate El; reflexivity).
  - replace (always_sent (event_code ev)) with true
      by (destruct ev; cbn [event_flag] in En; try discriminate En; reflexivity).
    destruct ev; cbn [event_flag] in En; try discriminate En; reflexivity.
Qed.

Lemma mask_given cs : wanted_mask cs = first_bits 45 \/ In (CSetEventMask (wanted_mask cs)) cs.
Proof.
  unfold wanted_mask. induction cs as [|c cs IH] using rev_ind; [left; reflexivity|].
  rewrite latest_snoc. destruct c; try (left; reflexivity);
    try (destruct IH as [IH|IH]; [left; exact IH|right; apply in_or_app; left; exact IH]).
  right. apply in_or_app. right. left. reflexivity.
Qed.
End After.

Section Told.
Context (F : features) (V : vendor) {St E : Type} (C : controller St E) (h : history St) (os : list (operation V)) (s : St)
  (d : settings) (cs : list (command V)).
Hypothesis (HC : contract C h) (Ho : Forall (typed_operation F) os) (Hs : possible h s) (HT : told F V C h os s d cs).

Lemma enabled_told pkt ev : event_new F V pkt = Ok ev -> le_event_known F ev = true ->
  lets_through d pkt = wants_event F cs ev.
Proof. destruct (told_after F V C h os s d cs HC Ho Hs HT) as [-> _]. apply enabled_after. Qed.
Lemma le_events_wanted pkt ev : event_new F V pkt = Ok ev -> is_le_event ev = true -> lets_through d pkt = true ->
  exists mask c, event_constant F "LE_META_EVENT" = Some c /\ In (CSetEventMask mask) cs /\ bf_contains mask c = true.
Proof.
  destruct (told_after F V C h os s d cs HC Ho Hs HT) as [-> _]. intros H Hl Hp.
  destruct (event_of_code F V pkt ev H) as (p & -> & _).
  assert (Ec : event_code ev = 0x3E) by (unfold is_le_event in Hl; destruct ev; cbn in Hl; try discriminate Hl; reflexivity).
  unfold lets_through, framed in Hp. rewrite Ec, mask_after in Hp.
  change (always_sent 0x3E) with false in Hp. cbn [orb] in Hp. apply andb_prop in Hp. destruct Hp as [Hp _].
  exists (wanted_mask cs), (N.shiftl 1 61). split; [destruct F as [[] []]; vm_compute; reflexivity|].
  rewrite contains_bit. split; [|exact Hp].
  destruct (mask_given cs) as [K|K]; [|exact K]. rewrite K in Hp. vm_compute in Hp. discriminate Hp.
Qed.
End Told.
