(** * Differences from the Bluetooth specification. *)
From Verif Require Import Base Model_Types Model_EventBase Model_Event Spec_Wire Spec_Errors Spec_Report
  Spec_Core Proofs_Base Proofs_Event Proofs_Errors Proofs_Report Proofs_Complete Proofs_Streams.

Section Core.
Context (F : features) (V : vendor).

Lemma phy_packet_bytes sb h tx rx : byte sb -> bytes (phy_update_packet sb h tx rx).
Proof.
  intros Hs. unfold phy_update_packet, framed. rewrite app_length, app_length, le_length. cbn [length Nat.add].
  repeat (apply bytes_cons; split; [assumption || reflexivity|]).
  cbn [app]. repeat (apply bytes_cons; split; [assumption || reflexivity|]).
  apply bytes_app. split; [apply le_is_bytes|].
  apply bytes_cons. split; [destruct tx; reflexivity|].
  apply bytes_cons. split; [destruct rx; reflexivity|apply bytes_nil].
Qed.

Lemma phy_misread sb s h tx rx : vendor_total V -> byte sb -> status_byte F V sb s -> u16 h ->
  event_new F V (phy_update_packet sb h tx rx) =
  match tx, rx with
  | LeCoded, _ | _, LeCoded => Err (EBadPhy 3)
  | Le1M, Le1M => Ok (EvLePhyUpdateComplete (Build_le_phy_update_complete s h Le2M Le2M))
  | Le1M, Le2M => Ok (EvLePhyUpdateComplete (Build_le_phy_update_complete s h Le2M LeCoded))
  | Le2M, Le1M => Ok (EvLePhyUpdateComplete (Build_le_phy_update_complete s h LeCoded Le2M))
  | Le2M, Le2M => Ok (EvLePhyUpdateComplete (Build_le_phy_update_complete s h LeCoded LeCoded))
  end.
Proof.
  intros HV Hsb Hs Hh.
  assert (Good : forall tx' rx', phy_code tx' = core_phy_code tx -> phy_code rx' = core_phy_code rx ->
    event_new F V (phy_update_packet sb h tx rx)
    = Ok (EvLePhyUpdateComplete (Build_le_phy_update_complete s h tx' rx'))).
  { intros tx' rx' E1 E2. apply le_phy_update_packet; [now apply phy_packet_bytes|].
    exists sb. split; [exact Hs|]. split; [exact Hh|]. unfold phy_update_packet, framed.
    rewrite app_length, app_length, le_length, E1, E2. reflexivity. }
  assert (Bad : tx = LeCoded \/ rx = LeCoded ->
    event_new F V (phy_update_packet sb h tx rx) = Err (EBadPhy 3)).
  { intros HC.
    pose proof (framed_bytes _ _ (phy_packet_bytes sb h tx rx Hsb)) as Hp.
    assert (K := event_agrees F V HV 0x3E _ _ Hp eq_refl).
    fold (phy_update_packet sb h tx rx) in K. cbn [first_error] in K.
    unfold length_is in K. rewrite le_2 in K. unfold at_ in K. cbn [app nth length Nat.eqb] in K. rewrite (status_byte_is F V _ _ _ Hs) in K.
    unfold code_is in K. destruct HC as [-> | ->].
    - exact K.
    - destruct tx; exact K. }
  destruct tx, rx; try (apply Bad; tauto); apply Good; reflexivity.
Qed.

Lemma phy_never_right sb s h tx rx : vendor_total V -> byte sb -> status_byte F V sb s -> u16 h ->
  event_new F V (phy_update_packet sb h tx rx)
  <> Ok (EvLePhyUpdateComplete (Build_le_phy_update_complete s h tx rx)).
Proof. intros HV Hsb Hs Hh. rewrite (phy_misread sb s h tx rx HV Hsb Hs Hh). destruct tx, rx; discriminate. Qed.

(** ** Advertising reports *)
Lemma value_bytes a v : air_report_ok a -> air_report_value a = Some v ->
  advertisement_ok v /\ air_report_bytes a = advertisement_bytes v.
Proof.
  intros (_ & Ha & _ & _ & _ & Hr) H. unfold air_report_value in H.
  destruct a as [t k ad data r]. cbn [ar_type ar_address_kind ar_address ar_data ar_rssi] in *.
  destruct k as [|[ | | ]]; try discriminate H; injection H as <-; split; try reflexivity;
    (split; [exact Ha|exact Hr]).
Qed.

Lemma values_bytes rs l : Forall air_report_ok rs -> map air_report_value rs = map Some l ->
  Forall advertisement_ok l /\ flat_map air_report_bytes rs = flat_map advertisement_bytes l.
Proof.
  intros H. revert l. induction H as [|a rs Ha _ IH]; intros [|v l] E; try discriminate E.
  - split; [constructor|reflexivity].
  - cbn [map] in E. apply cons_inv in E. destruct E as [E1 E2].
    destruct (value_bytes a v Ha E1) as [K1 K2]. destruct (IH l E2) as [L1 L2].
    split; [now constructor|]. cbn [flat_map]. now rewrite K2, L2.
Qed.

Lemma rssi_is_byte r : match r with Some z => is_i8 z /\ z <> 127%Z | None => True end -> byte (rssi_byte r).
Proof.
  destruct r as [z|]; [|reflexivity]. intros [H _]. unfold rssi_byte, signed, is_i8, byte in *. lia.
Qed.

Lemma air_bytes a : air_report_ok a -> bytes (air_report_bytes a).
Proof.
  intros (Hk & _ & Ha & Hd & Hl & Hr). unfold air_report_bytes.
  apply bytes_app. split; [|apply bytes_app; split; [exact Ha|apply bytes_app; split; [|apply bytes_app; split; [exact Hd|]]]].
  - apply bytes_cons. split; [destruct (ar_type a); reflexivity|].
    apply bytes_cons. split; [unfold byte; lia|apply bytes_nil].
  - apply bytes_cons. split; [unfold byte; lia|apply bytes_nil].
  - apply bytes_cons. split; [now apply rssi_is_byte|apply bytes_nil].
Qed.

Lemma air_list_bytes rs : Forall air_report_ok rs -> bytes (flat_map air_report_bytes rs).
Proof.
  induction 1 as [|a rs Ha _ IH]; [apply bytes_nil|].
  cbn [flat_map]. apply bytes_app. split; [now apply air_bytes|exact IH].
Qed.

Lemma reports_delivered count rs l : byte count -> Forall air_report_ok rs ->
  (length (flat_map air_report_bytes rs) <= 253)%nat ->
  map air_report_value rs = map Some l ->
  exists r, event_new F V (framed 0x3E ([0x02; count] ++ flat_map air_report_bytes rs))
              = Ok (EvLeAdvertisingReport r)
    /\ forall n, calls (@lar_next Empty_set r) n O = Ok (expected_calls n l).
Proof.
  intros Hc H Hl E. destruct (values_bytes rs l H E) as [K1 K2].
  assert (Hb : bytes (framed 0x3E ([0x02; count] ++ flat_map air_report_bytes rs))).
  { unfold framed. apply bytes_cons. split; [reflexivity|]. apply bytes_cons. split.
    - rewrite app_length. cbn [length]. unfold byte. lia.
    - apply bytes_cons. split; [reflexivity|]. apply bytes_cons. split; [exact Hc|]. now apply air_list_bytes. }
  destruct (proj2 (advertising_report_packet F V _ l Hb)) as (r & Hr & Hi).
  - split; [exact K1|]. exists count. unfold framed. rewrite app_length, K2. reflexivity.
  - exists r. split; [exact Hr|]. exact (iterates_calls _ _ _ Hi).
Qed.

Lemma values_exist rs : Forall (fun a => ar_address_kind a < 2) rs ->
  exists l, map air_report_value rs = map Some l.
Proof.
  induction 1 as [|a rs Ha _ [l IH]]; [now exists []|].
  destruct (air_report_value a) as [v|] eqn:E.
  - exists (v :: l). cbn [map]. now rewrite E, IH.
  - exfalso. unfold air_report_value in E. destruct (ar_address_kind a) as [|[p|p|]]; try discriminate E; lia.
Qed.

Lemma reports_refused count before a after : Forall air_report_ok (before ++ a :: after) ->
  (length (flat_map air_report_bytes (before ++ a :: after)) <= 253)%nat ->
  Forall (fun b => ar_address_kind b < 2) before -> 2 <= ar_address_kind a ->
  event_new F V (framed 0x3E ([0x02; count] ++ flat_map air_report_bytes (before ++ a :: after)))
  = Err (EBadLeAddressType (ar_address_kind a)).
Proof.
  intros H Hl Hbefore Ha.
  apply (proj2 (advertising_report_failures F V _ (air_list_bytes _ H) Hl count)).
  assert (Hb : Forall air_report_ok before) by (apply Forall_app in H; tauto).
  assert (Ha' : air_report_ok a) by (apply Forall_app in H; destruct H as [_ H]; now inversion H).
  destruct (values_exist before Hbefore) as [l El].
  destruct (values_bytes before l Hb El) as [K1 K2].
  exists l, (air_report_bytes a ++ flat_map air_report_bytes after).
  split; [split; [exact K1|]|].
  { rewrite flat_map_app, K2. cbn [flat_map]. reflexivity. }
  destruct Ha' as (Hk & L6 & _ & _ & L31 & _).
  destruct a as [t k ad data r]. cbn [ar_type ar_address_kind ar_address ar_data ar_rssi] in *.
  unfold air_report_bytes. cbn [ar_type ar_address_kind ar_address ar_data ar_rssi].
  destruct ad as [|a0 [|a1 [|a2 [|a3 [|a4 [|a5 [|]]]]]]]; try discriminate L6.
  cbn [app]. split; [cbn [length]; lia|].
  unfold entry_checks, at_. cbn [nth first_error length]. rewrite Nat2N.id.
  replace (Nat.ltb _ _) with false
    by (symmetry; apply Nat.ltb_ge; rewrite app_length, app_length; cbn [length]; lia).
  unfold code_is. replace (advertisement_event_code t <=? 4) with true by (destruct t; reflexivity).
  replace (k <=? 1) with false by (symmetry; apply N.leb_gt; lia). reflexivity.
Qed.

Lemma neighbour_lost : exists count a b v,
  air_report_ok a /\ air_report_ok b /\ air_report_value a = Some v
  /\ event_new F V (framed 0x3E ([0x02; count] ++ flat_map air_report_bytes [a; b]))
     = Err (EBadLeAddressType 2).
Proof.
  exists 2, public_entry, identity_entry, (Build_le_advertisement AdvScan (BdPublic [1; 2; 3; 4; 5; 6]) [2; 1; 6] (Some (-40)%Z)).
  assert (O1 : air_report_ok public_entry) by (repeat constructor; discriminate).
  assert (O2 : air_report_ok identity_entry) by (repeat constructor; discriminate).
  split; [exact O1|]. split; [exact O2|]. split; [reflexivity|].
  apply (reports_refused 2 [public_entry] identity_entry []).
  - apply Forall_cons; [exact O1|]. apply Forall_cons; [exact O2|]. constructor.
  - apply Nat.leb_le. reflexivity.
  - repeat constructor.
  - discriminate.
Qed.
End Core.
