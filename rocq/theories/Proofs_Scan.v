(** * Whom a scanner hears (proofs). *)
From Verif Require Import Base Model_Types Model_Bitflags Model_Intervals Model_EventBase Model_Command
  Model_Event Model_Host Spec_Wire Spec_Interval Spec_Flags Spec_Errors Spec_Report Spec_Host Spec_Link Spec_Split Spec_Pass
  Spec_Device Spec_Air Spec_Scan
  Proofs_Base Proofs_Interval Proofs_Flags Proofs_Calls Proofs_Time Proofs_Host Proofs_Complete Proofs_Report Proofs_Link Proofs_Sent
  Proofs_Streams Proofs_Split Proofs_Device Proofs_Air.
Open Scope list_scope.
Open Scope N_scope.

Section History.
Context {V : vendor}.
Implicit Types cs : list (command V).
Ltac fields := cbn [asked with_event_mask with_le_event_mask with_random_address with_advertising with_advertising_data
  with_scan_response with_is_advertising with_scanning with_is_scanning with_white_list with_channels with_connecting
  is_scanning scanning_with filters_duplicates].
Tactic Notation "history" reference(f) ident(cs) :=
  unfold f; induction cs as [|c cs IH] using rev_ind; [reflexivity|];
  rewrite after_snoc, latest_snoc; destruct c; fields; exact IH || reflexivity.

Lemma scanning_after cs : is_scanning (after cs) = wants_scanning cs.
Proof. history wants_scanning cs. Qed.
Lemma duplicates_after cs : filters_duplicates (after cs) = wants_no_duplicates cs.
Proof. history wants_no_duplicates cs. Qed.
Lemma scan_after cs : scanning_with (after cs)
  = match wanted_scan cs with
    | Some p => scanning_with (asked after_reset (CLeSetScanParameters (V := V) p))
    | None => scanning_with after_reset
    end.
Proof. history wanted_scan cs. Qed.
Lemma scan_type_after cs : scn_type (scanning_with (after cs)) = scan_type_code (wanted_scan_type cs).
Proof. rewrite scan_after. unfold wanted_scan_type. now destruct (wanted_scan cs). Qed.
Lemma scan_filter_after cs : scn_filter (scanning_with (after cs)) = scan_filter_code (wanted_scan_filter cs).
Proof. rewrite scan_after. unfold wanted_scan_filter. now destruct (wanted_scan cs). Qed.
Lemma scanner_after public cs : scanner_address public (after cs) = address_bytes (scans_as public cs).
Proof.
  unfold scanner_address, address_used, scans_as. rewrite scan_after, address_after.
  destruct (wanted_scan cs) as [p|]; [|reflexivity]. fields. cbn [scn_own]. now destruct (sp_own_address_type p).
Qed.
Lemma directed_after cs : match directed_to cs with
  | Some a => is_directed (adv_type (advertising_with (after cs))) = true
      /\ adv_peer (advertising_with (after cs)) = address_bytes a
  | None => is_directed (adv_type (advertising_with (after cs))) = false
  end.
Proof.
  unfold directed_to. rewrite parameters_after. destruct (wanted_parameters cs) as [p|]; [|reflexivity].
  cbn [asked with_advertising advertising_with adv_type adv_peer].
  destruct (ai_type (ap_interval p)); (split; reflexivity) || reflexivity.
Qed.
Lemma scannable_after cs : scannable (after cs) <-> answers_scans (wanted_type cs) = true.
Proof.
  unfold scannable. rewrite type_after. destruct (wanted_type cs); cbn; intuition discriminate.
Qed.
Lemma answers_after cs x : answers (after cs) x <-> answers_scans (wanted_type cs) = true /\ allows_scan cs x.
Proof.
  unfold answers, allows_scan. rewrite scannable_after, filter_after. pose proof (list_after cs x) as L.
  destruct (wanted_filter cs); cbn [advertising_filter_code]; intuition discriminate.
Qed.
End History.

Lemma address_bytes_same a b : address_bytes a = address_bytes b -> a = b.
Proof. destruct a, b; cbn [address_bytes]; intros H; injection H; intros; subst; reflexivity || discriminate. Qed.

Lemma hears_after {V V'} public (cs : list (command V)) public' (cs' : list (command V')) :
  hears public (after cs) public' (after cs') <-> is_to_hear public cs public' cs'.
Proof.
  unfold hears, is_to_hear. rewrite scanning_after, on_after, scan_filter_after, known_after, scanner_after.
  pose proof (list_after cs (address_bytes (known_as public' cs'))) as L.
  pose proof (directed_after cs') as D.
  assert (K : (is_directed (adv_type (advertising_with (after cs'))) = true ->
      adv_peer (advertising_with (after cs')) = address_bytes (scans_as public cs))
    <-> match directed_to cs' with Some a => a = scans_as public cs | None => True end).
  { destruct (directed_to cs') as [a|].
    - destruct D as [D1 D2]. rewrite D1, D2. split; [intros H; now apply address_bytes_same, H|now intros ->].
    - rewrite D. intuition discriminate. }
  rewrite K. destruct (wanted_scan_filter cs); cbn [scan_filter_code]; intuition discriminate.
Qed.
Lemma answered_after {V V'} public (cs : list (command V)) (cs' : list (command V')) :
  asks (after cs) (after cs') /\ answers (after cs') (scanner_address public (after cs))
  <-> is_to_be_answered public cs cs'.
Proof.
  unfold asks, is_to_be_answered. rewrite scannable_after, answers_after, scan_type_after, scanner_after.
  destruct (wanted_scan_type cs); cbn [scan_type_code]; intuition discriminate.
Qed.

Section Two.
Context (F : features) (V : vendor) {St E : Type} (C : controller St E) (h : history St) (os : list (operation V)) (s : St)
  (d : settings) (cs : list (command V)).
Hypothesis (HC : contract C h) (Ho : Forall (typed_operation F) os) (Hs : possible h s) (HT : told F V C h os s d cs).
Context (F' : features) (V' : vendor) {St' E' : Type} (C' : controller St' E') (h' : history St') (os' : list (operation V')) (s' : St')
  (a : settings) (cs' : list (command V')).
Hypothesis (HC' : contract C' h') (Ho' : Forall (typed_operation F') os') (Hs' : possible h' s') (HT' : told F' V' C' h' os' s' a cs').

Lemma heard_told public public' : hears public d public' a <-> is_to_hear public cs public' cs'.
Proof.
  destruct (told_after F V C h os s d cs HC Ho Hs HT) as [-> _].
  destruct (told_after F' V' C' h' os' s' a cs' HC' Ho' Hs' HT') as [-> _]. apply hears_after.
Qed.
Lemma answered_told public : asks d a /\ answers a (scanner_address public d) <-> is_to_be_answered public cs cs'.
Proof.
  destruct (told_after F V C h os s d cs HC Ho Hs HT) as [-> _].
  destruct (told_after F' V' C' h' os' s' a cs' HC' Ho' Hs' HT') as [-> _]. apply answered_after.
Qed.
Lemma duplicates_told : filters_duplicates d = wants_no_duplicates cs.
Proof. destruct (told_after F V C h os s d cs HC Ho Hs HT) as [-> _]. apply duplicates_after. Qed.

Lemma report_told public public' rssi adv : bd_addr_typed public' -> byte rssi ->
  (exists packet r, reports public d public' a rssi packet /\ event_new F V packet = Ok (EvLeAdvertisingReport r)
     /\ iterates (@lar_next Empty_set r) O [adv])
  <-> is_to_hear public cs public' cs'
      /\ (adv = seen_advertisement public' rssi cs'
          \/ is_to_be_answered public cs cs' /\ adv = seen_response public' rssi cs').
Proof.
  intros Hp Hr. unfold reports. rewrite <- (answered_told public), <- (heard_told public public').
  pose proof (advertisement_seen F' V' C' h' os' s' a cs' HC' Ho' Hs' HT' F V public' rssi Hp Hr) as A.
  pose proof (response_seen F' V' C' h' os' s' a cs' HC' Ho' Hs' HT' F V public' rssi Hp Hr) as B.
  split.
  - intros (packet & r & (H1 & [H2|(H2 & H3 & H4)]) & H5 & H6); (split; [exact H1|]).
    + left. rewrite H2 in A. destruct A as (_ & r' & A1 & A2). rewrite H5 in A1. injection A1 as <-.
      pose proof (iterates_same _ _ _ _ H6 A2) as K. now injection K.
    + right. split; [now split|]. rewrite H4 in B. destruct B as (_ & _ & r' & B1 & B2). rewrite H5 in B1. injection B1 as <-.
      pose proof (iterates_same _ _ _ _ H6 B2) as K. now injection K.
  - intros (H1 & [->|[[H2 H3] ->]]).
    + destruct (report_of_advertisement public' rssi a) as [packet|] eqn:Q.
      * destruct A as (_ & r & A1 & A2). exists packet, r. split; [|now split]. split; [exact H1|]. now left.
      * exfalso. apply heard_told in H1. destruct H1 as (_ & H1 & _). congruence.
    + destruct (report_of_response public' rssi a) as [packet|] eqn:Q.
      * destruct B as (_ & _ & r & B1 & B2). exists packet, r. split; [|now split]. split; [exact H1|]. right.
        split; [exact H2|]. split; [exact H3|reflexivity].
      * exfalso. apply heard_told in H1. destruct H1 as (_ & H1 & _).
        destruct (proj1 (answered_told public) (conj H2 H3)) as (_ & K & _).
        destruct B; congruence.
Qed.
End Two.
