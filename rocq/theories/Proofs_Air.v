(** * Between two devices. *)
From Verif Require Import Base Model_Types Model_Bitflags Model_Intervals Model_EventBase Model_Command
  Model_Event Model_Host Spec_Wire Spec_Interval Spec_Flags Spec_Errors Spec_Report Spec_Host Spec_Link Spec_Split Spec_Pass
  Spec_Device Spec_Air
  Proofs_Base Proofs_Interval Proofs_Flags Proofs_Calls Proofs_Time Proofs_Host Proofs_Complete Proofs_Report Proofs_Link Proofs_Sent
  Proofs_Streams Proofs_Split Proofs_Device.
Open Scope list_scope.
Open Scope N_scope.

Section History.
Context {V : vendor}.
Implicit Types cs : list (command V).

Lemma latest_snoc {A} (f : command V -> option A) i cs c :
  latest f i (cs ++ [c]) = match f c with Some x => x | None => latest f i cs end.
Proof. unfold latest. rewrite fold_left_app. reflexivity. Qed.

Definition after cs : settings := fold_left asked cs after_reset.
Lemma after_snoc cs c : after (cs ++ [c]) = asked (after cs) c.
Proof. unfold after. now rewrite fold_left_app. Qed.

Ltac fields := cbn [asked with_event_mask with_le_event_mask with_random_address with_advertising with_advertising_data
  with_scan_response with_is_advertising with_scanning with_is_scanning with_white_list with_channels with_connecting
  is_advertising advertising_data scan_response random_address advertising_with connecting].
Tactic Notation "history" reference(f) ident(cs) :=
  unfold f; induction cs as [|c cs IH] using rev_ind; [reflexivity|];
  rewrite after_snoc, latest_snoc; destruct c; fields; exact IH || reflexivity.

Lemma on_after cs : is_advertising (after cs) = wants_advertising cs.
Proof. history wants_advertising cs. Qed.
Lemma data_after cs : advertising_data (after cs) = wanted_data cs.
Proof. history wanted_data cs. Qed.
Lemma response_after cs : scan_response (after cs) = wanted_response cs.
Proof. history wanted_response cs. Qed.
Lemma address_after cs : random_address (after cs) = wanted_address cs.
Proof. history wanted_address cs. Qed.
Lemma parameters_after cs : advertising_with (after cs)
  = match wanted_parameters cs with
    | Some p => advertising_with (asked after_reset (CLeSetAdvertisingParameters (V := V) p))
    | None => advertising_with after_reset
    end.
Proof. history wanted_parameters cs. Qed.
Lemma connection_after cs : connecting (after cs)
  = match wanted_connection cs with
    | Some p => connecting (asked after_reset (CLeCreateConnection (V := V) p))
    | None => None
    end.
Proof. history wanted_connection cs. Qed.
Lemma list_after cs x : In x (white_list (after cs)) <-> stays x [] cs.
Proof. apply asked_history. Qed.

Lemma type_after cs : adv_type (advertising_with (after cs)) = advertising_type_code (wanted_type cs).
Proof. rewrite parameters_after. unfold wanted_type. now destruct (wanted_parameters cs). Qed.
Lemma own_after cs : adv_own (advertising_with (after cs)) = own_address_code (wanted_own cs).
Proof. rewrite parameters_after. unfold wanted_own. now destruct (wanted_parameters cs). Qed.
Lemma filter_after cs : adv_filter (advertising_with (after cs)) = advertising_filter_code (wanted_filter cs).
Proof. rewrite parameters_after. unfold wanted_filter. now destruct (wanted_parameters cs). Qed.

Lemma attempts_after cs x : attempts (after cs) x <-> wants_connection cs x.
Proof.
  unfold attempts, wants_connection. rewrite connection_after. destruct (wanted_connection cs) as [p|]; [|tauto].
  fields. cbn [ini_peer]. destruct (cp_initiator_filter_policy p); [tauto|]. apply list_after.
Qed.
Lemma admits_after cs x : admits (after cs) x <-> allows_connection cs x.
Proof.
  unfold admits, allows_connection. rewrite on_after, type_after, filter_after, parameters_after.
  pose proof (list_after cs x) as L.
  assert (K : forall a b c, (a <-> b) -> (c /\ a <-> c /\ b)) by tauto. apply K.
  destruct (wanted_type cs) eqn:T; cbn [advertising_type_code];
    repeat match goal with |- context [?a =? ?b] => let r := eval vm_compute in (a =? b) in change (a =? b) with r end;
    unfold is_directed;
    repeat match goal with |- context [?a =? ?b] => let r := eval vm_compute in (a =? b) in change (a =? b) with r end;
    cbn [orb].
  - destruct (wanted_filter cs); cbn [advertising_filter_code]; intuition (lia || discriminate).
  - unfold wanted_type in T. destruct (wanted_parameters cs); [|discriminate T]. fields. cbn [adv_peer]. tauto.
  - intuition discriminate.
  - intuition discriminate.
  - unfold wanted_type in T. destruct (wanted_parameters cs); [|discriminate T]. fields. cbn [adv_peer]. tauto.
Qed.

Lemma known_after public cs : advertised_as public (after cs) = address_bytes (known_as public cs).
Proof.
  unfold advertised_as, address_used, known_as. rewrite own_after, address_after.
  destruct (wanted_own cs); reflexivity.
Qed.

Lemma data_ok F cs : Forall (fit F) cs -> bytes (wanted_data cs) /\ (length (wanted_data cs) <= 31)%nat.
Proof.
  intros H. unfold wanted_data. induction cs as [|c cs IH] using rev_ind.
  - split; [apply bytes_nil|cbn; lia].
  - apply Forall_app in H. destruct H as [H1 H2]. specialize (IH H1). inversion H2 as [|? ? [A R] _]; subst.
    rewrite latest_snoc. destruct c; try exact IH.
    + split; [apply bytes_nil|cbn; lia].
    + cbn [arguments_typed rejection] in A, R. destruct (Nat.leb_spec (length data) 31); [auto|discriminate].
Qed.
Lemma response_ok F cs : Forall (fit F) cs -> bytes (wanted_response cs) /\ (length (wanted_response cs) <= 31)%nat.
Proof.
  intros H. unfold wanted_response. induction cs as [|c cs IH] using rev_ind.
  - split; [apply bytes_nil|cbn; lia].
  - apply Forall_app in H. destruct H as [H1 H2]. specialize (IH H1). inversion H2 as [|? ? [A R] _]; subst.
    rewrite latest_snoc. destruct c; try exact IH.
    + split; [apply bytes_nil|cbn; lia].
    + cbn [arguments_typed rejection] in A, R. destruct (Nat.leb_spec (length data) 31); [auto|discriminate].
Qed.
Lemma address_ok_after F cs : Forall (fit F) cs -> bd_addr_typed (wanted_address cs).
Proof.
  intros H. unfold wanted_address. induction cs as [|c cs IH] using rev_ind.
  - split; [reflexivity|apply bytes_zeros].
  - apply Forall_app in H. destruct H as [H1 H2]. specialize (IH H1). inversion H2 as [|? ? [A R] _]; subst.
    rewrite latest_snoc. destruct c; try exact IH.
    + split; [reflexivity|apply bytes_zeros].
    + exact A.
Qed.
Lemma known_typed F public cs : bd_addr_typed public -> Forall (fit F) cs -> address_typed (known_as public cs).
Proof.
  intros Hp H. unfold known_as. pose proof (address_ok_after F cs H) as K.
  destruct (wanted_own cs); cbn [address_typed]; assumption.
Qed.

Lemma strength_byte rssi : byte rssi -> rssi_byte (strength rssi) = rssi
  /\ match strength rssi with Some z => is_i8 z /\ z <> 127%Z | None => True end.
Proof.
  unfold byte, strength. intros H. destruct (N.eqb_spec rssi 127) as [->|Hn]; [split; [reflexivity|exact I]|].
  unfold is_i8, rssi_byte, signed. destruct (N.ltb_spec rssi 128); split; lia.
Qed.
End History.

Lemma report_read F V kind ty address data rssi : byte rssi -> bytes data -> (length data <= 31)%nat ->
  address_typed address -> advertisement_event_code ty = kind ->
  exists r, event_new F V (one_report kind (address_bytes address) data rssi) = Ok (EvLeAdvertisingReport r)
    /\ iterates (@lar_next Empty_set r) O [Build_le_advertisement ty address data (strength rssi)].
Proof.
  intros Hr Hd Hl Ha <-. destruct (strength_byte rssi Hr) as [S1 S2].
  assert (Ea : length (address_bytes address) = 7%nat) by now apply Proofs_Host.address_bytes_length.
  assert (Ba : bytes (address_bytes address)).
  { destruct address; destruct Ha as [_ Ha]; cbn [address_bytes]; apply bytes_cons; split; (reflexivity || exact Ha). }
  apply advertising_report_packet.
  - unfold one_report, framed. cbn [app]. repeat (apply bytes_cons; split).
    + reflexivity.
    + unfold byte. cbn [length]. rewrite !app_length, Ea. cbn [length]. rewrite app_length. cbn [length]. lia.
    + reflexivity.
    + reflexivity.
    + destruct ty; reflexivity.
    + apply bytes_app. split; [exact Ba|]. apply bytes_cons. split; [unfold byte; lia|]. apply bytes_app.
      split; [exact Hd|]. apply bytes_cons. split; [exact Hr|apply bytes_nil].
  - split.
    + constructor; [|constructor]. split; [|exact S2]. cbn [la_address]. destruct address; apply Ha.
    + exists 1. cbn [flat_map]. rewrite app_nil_r. unfold advertisement_bytes, one_report, framed.
      cbn [la_event_type la_address la_data la_rssi]. rewrite S1. cbn [app length]. reflexivity.
Qed.

Lemma told_after F V {St E} (C : controller St E) h os s d cs : contract C h -> Forall (typed_operation F) os ->
  possible h s -> told F V C h os s d cs -> d = after cs /\ Forall (fit F) cs.
Proof.
  intros HC Ho Hs [H|H].
  - pose proof (session_carried F V C h os s after_reset HC Ho Hs) as K.
    pose proof (session_fits F V C os Ho s) as Kf.
    destruct (session F V C os s) as [s' log]. destruct K as (w & ps & K1 & K2 & K3).
    destruct H as (-> & w' & ps' & H1 & H2 & ->). rewrite K1 in H1. apply app_inv_head in H1. subst w'.
    rewrite K2 in H2. apply Some_inj in H2. subst ps'. split; [exact K3|exact Kf].
  - pose proof (split_carried F V C h os s after_reset HC Ho Hs) as K.
    pose proof (split_fits F V C os Ho s) as Kf.
    destruct (split_session F V C os s) as [s' log]. destruct K as (w & ps & K1 & K2 & K3).
    destruct H as (-> & w' & ps' & H1 & H2 & ->). rewrite K1 in H1. apply app_inv_head in H1. subst w'.
    rewrite K2 in H2. apply Some_inj in H2. subst ps'. split; [exact K3|exact Kf].
Qed.

Section Two.
Context (F : features) (V : vendor) {St E : Type} (C : controller St E) (h : history St) (os : list (operation V)) (s : St)
  (d : settings) (cs : list (command V)).
Hypothesis (HC : contract C h) (Ho : Forall (typed_operation F) os) (Hs : possible h s) (HT : told F V C h os s d cs).

Lemma advertisement_seen F' V' public rssi : bd_addr_typed public -> byte rssi ->
  match report_of_advertisement public rssi d with
  | Some pkt => wants_advertising cs = true
      /\ exists r, event_new F' V' pkt = Ok (EvLeAdvertisingReport r)
           /\ iterates (@lar_next Empty_set r) O [seen_advertisement public rssi cs]
  | None => wants_advertising cs = false
  end.
Proof.
  intros Hp Hr. destruct (told_after F V C h os s d cs HC Ho Hs HT) as [-> Hf].
  unfold report_of_advertisement. rewrite on_after, type_after, known_after, data_after.
  destruct (wants_advertising cs); [|reflexivity]. split; [reflexivity|].
  unfold seen_advertisement. destruct (data_ok F cs Hf) as [D1 D2].
  destruct (wanted_type cs); apply report_read; try assumption; try reflexivity;
    try (now apply (known_typed F)); try apply bytes_nil; cbn; lia.
Qed.
Lemma response_seen F' V' public rssi : bd_addr_typed public -> byte rssi ->
  match report_of_response public rssi d with
  | Some pkt => wants_advertising cs = true /\ answers_scans (wanted_type cs) = true
      /\ exists r, event_new F' V' pkt = Ok (EvLeAdvertisingReport r)
           /\ iterates (@lar_next Empty_set r) O [seen_response public rssi cs]
  | None => wants_advertising cs = false \/ answers_scans (wanted_type cs) = false
  end.
Proof.
  intros Hp Hr. destruct (told_after F V C h os s d cs HC Ho Hs HT) as [-> Hf].
  unfold report_of_response. rewrite on_after, type_after, known_after, response_after.
  destruct (wants_advertising cs); [|left; reflexivity]. cbn [andb].
  unfold seen_response. destruct (response_ok F cs Hf) as [D1 D2].
  destruct (wanted_type cs); cbn [advertising_type_code answers_scans];
    repeat match goal with |- context [?a =? ?b] => let r := eval vm_compute in (a =? b) in change (a =? b) with r end;
    cbn [orb]; try (right; reflexivity); (split; [reflexivity|]); (split; [reflexivity|]);
    apply report_read; try assumption; try reflexivity; now apply (known_typed F).
Qed.
Lemma attempts_told x : attempts d x <-> wants_connection cs x.
Proof. destruct (told_after F V C h os s d cs HC Ho Hs HT) as [-> _]. apply attempts_after. Qed.
Lemma admits_told x : admits d x <-> allows_connection cs x.
Proof. destruct (told_after F V C h os s d cs HC Ho Hs HT) as [-> _]. apply admits_after. Qed.
Lemma known_told public : advertised_as public d = address_bytes (known_as public cs).
Proof. destruct (told_after F V C h os s d cs HC Ho Hs HT) as [-> _]. apply known_after. Qed.
End Two.

Lemma iterates_same {E St A} (next : St -> outcome E (option A * St)) s l l' :
  iterates next s l -> iterates next s l' -> l = l'.
Proof.
  intros H. revert l'. induction H as [s H|s x s' l H _ IH]; intros l' H'; inversion H' as [? X|? ? ? ? X Y]; subst;
    rewrite H in X.
  - reflexivity.
  - discriminate X.
  - discriminate X.
  - injection X as <- <-. f_equal. now apply IH.
Qed.
Lemma as_peer_bytes a : peer_address_bytes (as_peer a) = address_bytes a.
Proof. now destruct a. Qed.

(** A second device, whose host connects to what it has seen. *)
Lemma seen_reached F V {St E} (C : controller St E) h os s d cs F' V' {St' E'} (C' : controller St' E') h' os' s' d' cs'
    public rssi pkt r l adv p :
  contract C h -> Forall (typed_operation F) os -> possible h s -> told F V C h os s d cs ->
  contract C' h' -> Forall (typed_operation F') os' -> possible h' s' -> told F' V' C' h' os' s' d' cs' ->
  bd_addr_typed public -> byte rssi ->
  report_of_advertisement public rssi d = Some pkt \/ report_of_response public rssi d = Some pkt ->
  event_new F' V' pkt = Ok (EvLeAdvertisingReport r) -> iterates (@lar_next Empty_set r) O l -> In adv l ->
  wanted_connection cs' = Some p ->
  match cp_initiator_filter_policy p with
  | UseAddress => cp_peer_address p = as_peer (la_address adv)
  | UseWhiteList => stays (address_bytes (la_address adv)) [] cs'
  end -> attempts d' (advertised_as public d).
Proof.
  intros HC Ho Hs HT HC' Ho' Hs' HT' Hp Hr Hk He Hi Hin Hw Hm.
  rewrite (known_told F V C h os s d cs HC Ho Hs HT).
  assert (K : la_address adv = known_as public cs).
  { destruct Hk as [Hk|Hk].
    - pose proof (advertisement_seen F V C h os s d cs HC Ho Hs HT F' V' public rssi Hp Hr) as K. rewrite Hk in K.
      destruct K as (_ & r' & K1 & K2). rewrite He in K1. injection K1 as <-.
      rewrite (iterates_same _ _ _ _ Hi K2) in Hin. destruct Hin as [<-|[]]. reflexivity.
    - pose proof (response_seen F V C h os s d cs HC Ho Hs HT F' V' public rssi Hp Hr) as K. rewrite Hk in K.
      destruct K as (_ & _ & r' & K1 & K2). rewrite He in K1. injection K1 as <-.
      rewrite (iterates_same _ _ _ _ Hi K2) in Hin. destruct Hin as [<-|[]]. reflexivity. }
  apply (attempts_told F' V' C' h' os' s' d' cs' HC' Ho' Hs' HT'). unfold wants_connection. rewrite Hw, <- K.
  destruct (cp_initiator_filter_policy p); [|exact Hm]. now rewrite Hm, as_peer_bytes.
Qed.
