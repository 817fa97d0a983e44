(** * Conforming packets. *)
From Verif Require Import Base Model_Types Model_EventBase Model_Command Model_Event Spec_Wire
  Spec_Errors Spec_Report Spec_Example Spec_FlagNames Spec_Core Spec_Versions Spec_Conform Proofs_Base Proofs_Bits
  Proofs_Event Proofs_Command Proofs_Report Proofs_Errors Proofs_Complete Proofs_Panic Proofs_Loss
  Proofs_Streams Proofs_FlagNames Proofs_Core.
Open Scope list_scope.
Open Scope N_scope.

(** ** Fields *)
Definition field_length (f : field) : nat :=
  match f with Status | Octet _ _ => 1 | Word _ _ => 2 | Octets n | Flags n _ => n end%nat.
Definition field_fits (f : field) : bool :=
  match f with Octet _ hi => hi <? 256 | Word _ hi => hi <? 65536 | _ => true end.

Lemma last_status_byte F b : b <= last_status F -> byte b.
Proof. unfold last_status, byte. destruct (version_5_0 F); lia. Qed.

Lemma field_is F f bs : field_fits f = true -> field_matches F f bs ->
  bytes bs /\ length bs = field_length f.
Proof.
  destruct f as [|lo hi|lo hi|n|n bits]; cbn [field_fits field_matches field_length]; intros Hf H.
  - destruct H as (b & Hb & ->). split; [|reflexivity]. apply bytes_cons.
    split; [now apply (last_status_byte F)|apply bytes_nil].
  - destruct H as (b & _ & Hb & ->). split; [|reflexivity]. apply bytes_cons.
    apply N.ltb_lt in Hf. split; [unfold byte; lia|apply bytes_nil].
  - destruct H as (v & _ & _ & ->). split; [apply le_is_bytes|apply le_length].
  - tauto.
  - tauto.
Qed.

Lemma matches_is F fs : forallb field_fits fs = true -> forall bs, matches F fs bs ->
  bytes bs /\ length bs = list_sum (map field_length fs).
Proof.
  induction fs as [|f fs IH]; intros Hf bs H.
  - cbn [matches] in H. subst bs. split; [apply bytes_nil|reflexivity].
  - cbn [forallb] in Hf. apply Bool.andb_true_iff in Hf. destruct Hf as [Hf Hfs].
    destruct H as (b & bs' & -> & Hb & Hbs). destruct (field_is F f b Hf Hb) as [B1 L1].
    destruct (IH Hfs bs' Hbs) as [B2 L2]. split; [apply bytes_app; now split|].
    rewrite app_length, L1, L2. reflexivity.
Qed.

Lemma layouts_fit code fs p F : In (code, fs) (event_layouts ++ return_layouts) -> matches F fs p ->
  bytes p /\ (length p <= 65)%nat /\ code < 65536.
Proof.
  intros Hin H.
  assert (K : forallb (fun e => forallb field_fits (snd e)
                        && Nat.leb (list_sum (map field_length (snd e))) 65 && (fst e <? 65536))
                (event_layouts ++ return_layouts) = true) by (vm_compute; reflexivity).
  rewrite forallb_forall in K. specialize (K _ Hin). cbn [fst snd] in K.
  apply Bool.andb_true_iff in K. destruct K as [K K3].
  apply Bool.andb_true_iff in K. destruct K as [K1 K2].
  destruct (matches_is F fs K1 p H) as [B L]. split; [exact B|].
  rewrite L. split; [now apply Nat.leb_le|now apply N.ltb_lt].
Qed.

Lemma pair_bytes_length l : length (flat_map pair_bytes l) = (4 * length l)%nat.
Proof.
  induction l as [|x l IH]; [reflexivity|]. cbn [flat_map length]. rewrite app_length, IH.
  unfold pair_bytes. rewrite app_length, !le_length. lia.
Qed.
Lemma pairs_bytes l : bytes (flat_map pair_bytes l).
Proof.
  induction l as [|x l IH]; [apply bytes_nil|]. cbn [flat_map]. apply bytes_app. split; [|exact IH].
  unfold pair_bytes. apply bytes_app. split; apply le_is_bytes.
Qed.

Lemma framed_is_bytes code p : byte code -> bytes p -> (length p <= 255)%nat -> bytes (framed code p).
Proof.
  intros Hc Hp Hl. unfold framed. apply bytes_cons. split; [exact Hc|].
  apply bytes_cons. split; [unfold byte; lia|exact Hp].
Qed.

Lemma conforming_is F code p : conforming F code p ->
  byte code /\ bytes p /\ (length p <= 255)%nat.
Proof.
  intros H. destruct H.
  - assert (Hc : byte code).
    { repeat (destruct H as [E|H]; [injection E as <- _; reflexivity|]). destruct H. }
    destruct (layouts_fit code fs p F) as (B & L & _); [apply in_or_app; now left|assumption|].
    split; [exact Hc|]. split; [exact B|]. lia.
  - destruct (layouts_fit op fs ret F) as (B & L & _); [apply in_or_app; now right|assumption|].
    split; [reflexivity|]. split.
    + apply bytes_app. split; [apply bytes_cons; split; [assumption|apply bytes_nil]|].
      apply bytes_app. split; [apply le_is_bytes|exact B].
    + rewrite !app_length, le_length. cbn [length]. lia.
  - split; [reflexivity|]. split.
    + apply bytes_app. split; [apply bytes_cons; split; [assumption|apply bytes_nil]|]. apply le_is_bytes.
    + rewrite app_length, le_length. cbn [length]. lia.
  - split; [reflexivity|]. split.
    + apply bytes_cons. split; [unfold byte; lia|apply pairs_bytes].
    + cbn [length]. rewrite pair_bytes_length. lia.
  - split; [reflexivity|]. split.
    + apply bytes_cons. split; [reflexivity|]. apply bytes_cons. split; [unfold byte; lia|].
      now apply air_list_bytes.
    + rewrite app_length. cbn [length]. lia.
  - split; [reflexivity|]. unfold connection_body. split.
    + do 2 (apply bytes_cons; split; [unfold byte; lia|]).
      apply bytes_app. split; [apply le_is_bytes|].
      do 2 (apply bytes_cons; split; [unfold byte; lia|]).
      apply bytes_app. split; [assumption|].
      do 3 (apply bytes_app; split; [apply le_is_bytes|]).
      apply bytes_cons. split; [unfold byte; lia|apply bytes_nil].
    + rewrite !app_length, !le_length. cbn [length]. lia.
  - split; [reflexivity|]. unfold update_body. split.
    + do 2 (apply bytes_cons; split; [unfold byte; lia|]).
      do 3 (apply bytes_app; split; [apply le_is_bytes|]). apply le_is_bytes.
    + rewrite !app_length, !le_length. cbn [length]. lia.
  - split; [reflexivity|]. split.
    + apply bytes_cons. split; [reflexivity|]. apply bytes_cons.
      split; [now apply (last_status_byte F)|assumption].
    + rewrite app_length. cbn [length]. lia.
  - split; [reflexivity|]. split.
    + apply bytes_cons. split; [reflexivity|]. apply bytes_cons.
      split; [now apply (last_status_byte F)|assumption].
    + rewrite app_length. cbn [length]. lia.
Qed.

(** ** Field values *)
Lemma octet_value l : length l = 1%nat -> bytes l -> exists b, byte b /\ l = [b].
Proof. intros H Hb. destruct_len H. apply bytes_cons in Hb. destruct Hb. eauto. Qed.
Lemma word_value l : length l = 2%nat -> bytes l -> exists v, u16 v /\ l = le 2 v.
Proof.
  intros H Hb. destruct_len H. bytes_inv. eexists. split; [|symmetry; now apply le_2_of_bytes].
  now apply u16_of_bytes.
Qed.
Lemma long_value l : length l = 8%nat -> bytes l -> exists v, u64 v /\ l = le 8 v.
Proof.
  intros H Hb. destruct_len H. bytes_inv. eexists. split; [|symmetry; now apply le_8_of_bytes].
  now apply u64_of_bytes.
Qed.
Lemma link_type_value b : b <= 1 -> exists t, b = link_type_code t.
Proof. intros H. destruct (N.eq_dec b 0) as [->|]; [now exists Sco|exists Acl; cbn; lia]. Qed.
Lemma flag_value b : b <= 1 -> exists t, b = flag t.
Proof. intros H. destruct (N.eq_dec b 0) as [->|]; [now exists false|exists true; cbn; lia]. Qed.
Lemma encryption_value b : b <= 2 -> exists t, b = encryption_code t.
Proof.
  intros H. destruct (N.eq_dec b 0) as [->|]; [now exists EncOff|].
  destruct (N.eq_dec b 1) as [->|]; [now exists EncOn|exists EncOnAesCcmForBrEdr; cbn; lia].
Qed.
Lemma phy_value b : b <= 2 -> exists t, b = phy_code t.
Proof.
  intros H. destruct (N.eq_dec b 0) as [->|]; [now exists Le1M|].
  destruct (N.eq_dec b 1) as [->|]; [now exists Le2M|exists LeCoded; cbn; lia].
Qed.

Section Conform.
Context (F : features) (V : vendor).

Lemma status_value b : b <= last_status F -> exists s, status_byte F V b s.
Proof.
  intros H. unfold status_byte.
  destruct (nth_error (assigned_statuses F) (N.to_nat b)) as [s|] eqn:E; [now exists s|].
  apply nth_error_None in E. unfold last_status in H. unfold assigned_statuses in E.
  rewrite app_length in E. destruct (version_5_0 F); cbn [length] in E; lia.
Qed.
Lemma success_value : status_byte F V 0 Success.
Proof. reflexivity. Qed.

(** ** Refused *)
Lemma sub_only code p ev sub rest : event_new F V (framed code p) = Ok ev -> p = sub :: rest ->
  event_code ev = code /\ match event_subcode ev with Some x => x = sub | None => True end.
Proof.
  intros H ->. destruct (event_of_code F V _ ev H) as (q & Hq & Hs).
  unfold framed in Hq. apply cons_inv in Hq. destruct Hq as [Hc Hq].
  apply cons_inv in Hq. destruct Hq as [_ <-]. split; [congruence|].
  destruct (event_subcode ev); [|exact I]. destruct Hs as [r Hs]. apply cons_inv in Hs.
  symmetry. exact (proj1 Hs).
Qed.

Lemma failed_connection_refused sb body ev : byte sb -> bytes body -> length body = 17%nat ->
  ~ connection_fields_ok body -> event_new F V (framed 0x3E ([0x01; sb] ++ body)) = Ok ev -> False.
Proof.
  intros Hs Hb Hl Hf H. destruct (sub_only _ _ ev _ _ H eq_refl) as [E1 E2].
  assert (Hev : exists s, status_byte F V sb s).
  { destruct ev; try discriminate E1; try discriminate E2. clear E1 E2.
    match type of H with _ = Ok (EvLeConnectionComplete ?x) => destruct x end.
    apply le_connection_complete_packet in H.
    - destruct H as (sb' & iv & Hs' & _ & _ & _ & E). unfold framed in E. cbn [app] in E.
      do 3 (apply cons_inv in E; destruct E as [_ E]). apply cons_inv in E. destruct E as [-> _]. eauto.
    - apply framed_is_bytes; [reflexivity| |cbn [app length]; lia].
      cbn [app]. apply bytes_cons. split; [reflexivity|]. apply bytes_cons. now split. }
  destruct Hev as [s Hev]. destruct (connection_lost F V body Hb Hl Hf) as (e & K).
  cbn [app] in H. rewrite (K sb s Hev) in H. discriminate H.
Qed.
Lemma failed_update_refused sb body ev : byte sb -> bytes body -> length body = 8%nat ->
  ~ update_fields_ok body -> event_new F V (framed 0x3E ([0x03; sb] ++ body)) = Ok ev -> False.
Proof.
  intros Hs Hb Hl Hf H. destruct (sub_only _ _ ev _ _ H eq_refl) as [E1 E2].
  assert (Hev : exists s, status_byte F V sb s).
  { destruct ev; try discriminate E1; try discriminate E2. clear E1 E2.
    match type of H with _ = Ok (EvLeConnectionUpdateComplete ?x) => destruct x end.
    apply le_connection_update_packet in H.
    - destruct H as (sb' & iv & Hs' & _ & _ & E). unfold framed in E. cbn [app] in E.
      do 3 (apply cons_inv in E; destruct E as [_ E]). apply cons_inv in E. destruct E as [-> _]. eauto.
    - apply framed_is_bytes; [reflexivity| |cbn [app length]; lia].
      cbn [app]. apply bytes_cons. split; [reflexivity|]. apply bytes_cons. now split. }
  destruct Hev as [s Hev]. destruct (update_lost F V body Hb Hl Hf) as (e & K).
  cbn [app] in H. rewrite (K sb s Hev) in H. discriminate H.
Qed.

Lemma first_identity rs : Forall air_report_ok rs -> Exists (fun r => 2 <= ar_address_kind r) rs ->
  exists before a after, rs = before ++ a :: after
    /\ Forall (fun b => ar_address_kind b < 2) before /\ 2 <= ar_address_kind a.
Proof.
  intros _ H. induction rs as [|r rs IH]; [inversion H|].
  destruct (N.lt_ge_cases (ar_address_kind r) 2) as [Hr|Hr].
  - destruct IH as (b & a & c & -> & Hb & Ha).
    + inversion H as [? ? K|? ? K]; [lia|exact K].
    + exists (r :: b), a, c. split; [reflexivity|]. split; [now constructor|exact Ha].
  - exists [], r, rs. split; [reflexivity|]. split; [constructor|exact Hr].
Qed.

Lemma le_2_inj a b : u16 a -> u16 b -> le 2 a = le 2 b -> a = b.
Proof.
  intros Ha Hb E. rewrite !le_2 in E. apply cons_inv in E. destruct E as [E1 E2].
  apply cons_inv in E2. destruct E2 as [E2 _].
  rewrite <- (read_le_2 a Ha), <- (read_le_2 b Hb). congruence.
Qed.

Lemma refused_not_accepted code p ev : byte code -> bytes p -> (length p <= 255)%nat ->
  refused_event code p -> event_new F V (framed code p) = Ok ev -> False.
Proof.
  intros Hc Hb Hl Hr H. destruct Hr as [head acc L|head L|sb body Hsb L Hf|sb body Hsb L Hf
    |sb h0 h1 tx rx Hx|count rs Hrs Hx|n sb m Hx].
  - apply (failed_connection_refused 0 (head ++ le 2 10 ++ [acc]) ev); [reflexivity| | | |exact H].
    + do 2 apply bytes_cons, proj2 in Hb. exact Hb.
    + rewrite !app_length, L. reflexivity.
    + destruct_len L. intros (_ & _ & (_ & _ & _ & _ & K & _) & _). vm_compute in K. discriminate K.
  - apply (failed_update_refused 0 (head ++ le 2 10) ev); [reflexivity| | | |exact H].
    + do 2 apply bytes_cons, proj2 in Hb. exact Hb.
    + rewrite !app_length, L. reflexivity.
    + destruct_len L. intros (_ & _ & _ & _ & K & _). vm_compute in K. discriminate K.
  - cbn [app] in Hb. bytes_inv. now apply (failed_connection_refused sb body ev).
  - cbn [app] in Hb. bytes_inv. now apply (failed_update_refused sb body ev).
  - destruct (sub_only _ _ ev _ _ H eq_refl) as [E1 E2].
    destruct ev; try discriminate E1; try discriminate E2. clear E1 E2.
    match type of H with _ = Ok (EvLePhyUpdateComplete ?x) => destruct x as [s h tx' rx'] end.
    apply le_phy_update_packet in H; [|now apply framed_is_bytes].
    destruct H as (sb' & _ & _ & E). rewrite le_2 in E. unfold framed in E. cbn [app] in E.
    injection E as _ _ _ E3 E4. subst tx rx. destruct tx', rx'; cbn in Hx; lia.
  - destruct (first_identity rs Hrs Hx) as (b & a & c & -> & Hlow & Ha).
    rewrite (reports_refused F V count b a c Hrs) in H; try assumption; [discriminate H|].
    rewrite app_length in Hl. cbn [length] in Hl. lia.
  - destruct (sub_only _ _ ev _ _ H eq_refl) as [E1 E2].
    destruct ev; try discriminate E1; try discriminate E2. clear E1 E2.
    match type of H with _ = Ok (EvCommandComplete ?x) => destruct x as [n' r] end.
    apply command_complete_dispatch_iff in H; [|now apply framed_is_bytes].
    destruct H as (op & ret & Hop & E & H). unfold framed in E. cbn [app] in E.
    do 2 (apply cons_inv in E; destruct E as [_ E]). apply cons_inv in E. destruct E as [_ E].
    assert (E1 := f_equal (firstn 2) E). assert (E2 := f_equal (skipn 2) E).
    rewrite !le_2 in E1, E2. cbn [app firstn skipn] in E1, E2. clear E. subst ret.
    rewrite <- !le_2 in E1. apply le_2_inj in E1; [|vm_compute; reflexivity|exact Hop]. subst op.
    destruct H as [H|(v & H & _)]; [|vm_compute in H; discriminate H].
    destruct r; cbn [wire_return] in H;
      try (exfalso; exact H);
      try (destruct H as [H _]; vm_compute in H; discriminate H);
      try (vm_compute in H; discriminate H).
    all: try (destruct H as (_ & H & _); vm_compute in H; discriminate H).
    destruct H as (_ & L & K & sb' & _ & E). apply cons_inv in E. destruct E as [_ ->].
    apply Bool.orb_true_iff in Hx. destruct Hx as [Hx|Hx]; apply K in Hx;
      rewrite undeclared_not_defined in Hx by (cbn; tauto); discriminate Hx.
Qed.

(** ** Accepted *)
Ltac fields :=
  repeat match goal with
  | H : matches _ (_ :: _) _ |- _ => destruct H as (? & ? & -> & ? & H)
  | H : matches _ [] _ |- _ => cbn [matches] in H; subst
  | H : field_matches _ Handle _ |- _ => destruct H as (? & _ & ? & ->)
  | H : field_matches _ (Code _) _ |- _ => destruct H as (? & ? & ? & ->)
  | H : field_matches _ Status _ |- _ =>
      let K := fresh "K" in destruct H as (? & K & ->);
      apply status_value in K; destruct K as [? K]
  | H : field_matches _ (Octet _ _) _ |- _ => destruct H as (? & ? & ? & ->)
  | H : field_matches _ (Word _ _) _ |- _ => destruct H as (? & ? & ? & ->)
  | H : field_matches _ (Octets 1) _ |- _ =>
      destruct H as [? H]; apply octet_value in H; [|assumption]; destruct H as (? & ? & ->)
  | H : field_matches _ (Octets 2) _ |- _ =>
      destruct H as [? H]; apply word_value in H; [|assumption]; destruct H as (? & ? & ->)
  | H : field_matches _ (Octets 8) _ |- _ =>
      destruct H as [? H]; apply long_value in H; [|assumption]; destruct H as (? & ? & ->)
  | H : field_matches _ (Octets _) _ |- _ => destruct H as [? H]
  | H : field_matches _ (Flags _ _) _ |- _ => destruct H as (? & ? & H)
  end.

Lemma returned n op ret r : byte n -> bytes ret -> (length ret <= 65)%nat -> u16 op ->
  wire_return F V r op ret ->
  exists ev, event_new F V (framed 0x0E ([n] ++ le 2 op ++ ret)) = Ok ev.
Proof.
  intros Hn Hb Hl Hop H. exists (EvCommandComplete (Build_command_complete n r)).
  apply command_complete_dispatch_iff.
  - apply framed_is_bytes; [reflexivity| |rewrite !app_length, le_length; cbn [length]; lia].
    apply bytes_app. split; [apply bytes_cons; split; [assumption|apply bytes_nil]|].
    apply bytes_app. split; [apply le_is_bytes|exact Hb].
  - exists op, ret. split; [exact Hop|]. split; [|now left].
    unfold framed. rewrite !app_length, le_length. reflexivity.
Qed.

Lemma handle_u16 h : h <= 0x0EFF -> u16 h.
Proof. unfold u16. change (2 ^ 16) with 65536. lia. Qed.
Lemma in_single {A B} (a b : A) (c d : B) (P : Prop) :
  ((a, c) = (b, d) \/ P) -> (b = a /\ d = c) \/ P.
Proof. intros [E|H]; [left; injection E as -> ->; now split|now right]. Qed.

(** Events with independent fields: all but those with a coded PHY. *)
Lemma layout_accepted code fs p : In (code, fs) event_layouts -> matches F fs p ->
  (forall sb h0 h1 tx rx, code = 0x3E -> p = [0x0C; sb; h0; h1; tx; rx] -> tx <> 3 /\ rx <> 3) ->
  exists ev, event_new F V (framed code p) = Ok ev.
Proof.
  intros Hin H Hphy.
  assert (Hb : bytes (framed code p)).
  { destruct (conforming_is F code p) as (B1 & B2 & B3); [now apply (conforming_event F code fs)|].
    now apply framed_is_bytes. }
  unfold event_layouts in Hin. cbn [In] in Hin.
  repeat match goal with K : (_, _) = _ \/ _ |- _ =>
    apply in_single in K; destruct K as [[-> ->]|K] end; [..|destruct Hin].
  - fields. match goal with A : ?b <= 1, B : ?c <= 1 |- context [[?b] ++ [?c] ++ []] =>
      destruct (link_type_value b A) as [lt Elt]; destruct (flag_value c B) as [en Een] end.
    subst. eexists. apply connection_complete_packet; [assumption|].
    eexists. split; [eassumption|]. split; [apply handle_u16; eassumption|]. split; [eassumption|].
    unfold framed. rewrite !app_length, le_length. cbn [length]. 
    match goal with L : length _ = 6%nat |- _ => rewrite L end. reflexivity.
  - fields. eexists. apply disconnection_complete_packet; [assumption|].
    eexists _, _. split; [|split; [|split; [|unfold framed; rewrite !app_length, le_length; reflexivity]]];
      [eassumption|now apply handle_u16|eassumption].
  - fields. match goal with A : ?b <= 2 |- _ => destruct (encryption_value b A) as [e Ee] end. subst.
    eexists. apply encryption_change_packet; [assumption|].
    eexists. split; [eassumption|]. split; [apply handle_u16; eassumption|].
    unfold framed. rewrite !app_length, le_length. reflexivity.
  - fields. eexists. apply remote_version_packet; [assumption|].
    eexists. split; [eassumption|]. split; [apply handle_u16; eassumption|].
    split; [|split; [|unfold framed; rewrite !app_length, !le_length; reflexivity]]; assumption.
  - fields. eexists. apply command_status_packet; [assumption|].
    eexists. split; [eassumption|].
    split; [|unfold framed; rewrite !app_length, !le_length; reflexivity]; assumption.
  - fields. eexists. apply hardware_error_packet; [assumption|]. reflexivity.
  - fields. match goal with A : ?b <= 1 |- _ => destruct (link_type_value b A) as [lt Elt] end. subst.
    eexists. apply data_buffer_overflow_packet; [assumption|]. reflexivity.
  - fields. eexists. apply encryption_key_refresh_packet; [assumption|].
    eexists. split; [eassumption|]. split; [apply handle_u16; eassumption|].
    unfold framed. rewrite !app_length, !le_length, app_nil_r. reflexivity.
  - fields. match goal with A : ?lo <= ?x, B : ?x <= ?lo |- _ => pose proof (N.le_antisymm _ _ A B) end. subst.
    match goal with L : length ?l = 8%nat |- _ => destruct (long_value l L) as (v & Hv & ->); [assumption|] end.
    eexists. apply le_used_features_packet; [assumption|].
    eexists. split; [eassumption|]. split; [apply handle_u16; eassumption|]. split; [exact Hv|].
    split; [|unfold framed; rewrite !app_length, !le_length, app_nil_r; reflexivity].
    intros i Hi. match goal with K : only_defined _ _ |- _ => apply K end. now rewrite le8_bit.
  - fields. match goal with A : ?lo <= ?x, B : ?x <= ?lo |- _ => pose proof (N.le_antisymm _ _ A B) end. subst.
    eexists. apply le_ltk_request_packet; [assumption|].
    split; [apply handle_u16; eassumption|]. split; [|split];
    [| |unfold framed; rewrite !app_length, !le_length, app_nil_r; reflexivity]; assumption.
  - fields. match goal with A : ?lo <= ?x, B : ?x <= ?lo |- _ => pose proof (N.le_antisymm _ _ A B) end. subst.
    eexists. apply le_data_length_change_packet; [assumption|].
    split; [apply handle_u16; eassumption|].
    split; [|split; [|split; [|split; [|unfold framed; rewrite !app_length, !le_length, app_nil_r; reflexivity]]]];
      unfold u16; change (2 ^ 16) with 65536; lia.
  - fields. match goal with A : ?lo <= ?x, B : ?x <= ?lo |- _ => pose proof (N.le_antisymm _ _ A B) end. subst.
    match goal with Hb : bytes (framed _ (_ ++ [?sb] ++ le 2 ?h ++ [?tx] ++ [?rx] ++ [])) |- _ =>
      destruct (Hphy sb (h mod 256) (h / 256 mod 256) tx rx) as [Htx Hrx]; [reflexivity|now rewrite le_2|];
      destruct (phy_value tx) as [tx' Etx]; [lia|]; destruct (phy_value rx) as [rx' Erx]; [lia|]
    end. subst. eexists. apply le_phy_update_packet; [assumption|].
    eexists. split; [eassumption|]. split; [apply handle_u16; eassumption|].
    unfold framed. rewrite !app_length, !le_length. reflexivity.
Qed.

Lemma wire_status (mk : status (VStatus V) -> return_parameters V) op sb s :
  (status_first F V s [sb] -> wire_return F V (mk s) op [sb]) -> status_byte F V sb s ->
  exists r, wire_return F V r op [sb].
Proof. intros H Hs. exists (mk s). apply H. exists sb, []. now split. Qed.

Ltac st mk := match goal with K : status_byte _ _ _ ?s |- _ => apply (wire_status mk _ _ s); [now split|exact K] end.

Section Returns.
Context (sb : N) (s : status (VStatus V)) (Hs : status_byte F V sb s).

Ltac body := exists sb; split; [exact Hs|reflexivity].

Lemma wr_tx_power h b : u16 h -> byte b ->
  exists r, wire_return F V r (hci_opcode 0x03 0x02D) (sb :: le 2 h ++ [b]).
Proof.
  intros Hh Hb. destruct (signed_of_byte b Hb) as [Z1 Z2].
  exists (RetReadTxPowerLevel (Build_tx_power_level s h (u8_as_i8 b))).
  split; [reflexivity|]. split; [exact Hh|]. split; [exact Z1|].
  cbn [txp_status txp_conn_handle txp_dbm]. rewrite Z2. body.
Qed.
Lemma wr_version a v b w x : u16 v -> u16 w -> u16 x ->
  exists r, wire_return F V r (hci_opcode 0x04 0x001) (sb :: a :: le 2 v ++ b :: le 2 w ++ le 2 x).
Proof.
  intros Hv Hw Hx.
  exists (RetReadLocalVersionInformation (Build_local_version_info s a v b w x)).
  split; [reflexivity|]. split; [exact Hv|]. split; [exact Hw|]. split; [exact Hx|]. body.
Qed.
Lemma wr_commands m : length m = 64%nat -> only_defined (assigned_command_bit F) (array_bit m) ->
  (array_bit m (31 * 8 + 4) || array_bit m (31 * 8 + 5))%bool = false ->
  exists r, wire_return F V r (hci_opcode 0x04 0x002) (sb :: m).
Proof.
  intros Hl Hm Hx. exists (RetReadLocalSupportedCommands (Build_local_supported_commands s m)).
  split; [reflexivity|]. split; [exact Hl|]. split; [|body].
  apply declared_only; [exact Hm|]. apply Bool.orb_false_iff in Hx. destruct Hx as [E1 E2].
  intros i [<-|[<-|[]]]; assumption.
Qed.
Lemma wr_features v : u64 v -> exists r, wire_return F V r (hci_opcode 0x04 0x003) (sb :: le 8 v).
Proof.
  intros Hv. destruct (masked_exists v lmp_feature_defined Hv) as [w Hw].
  exists (RetReadLocalSupportedFeatures (Build_local_supported_features s w)).
  split; [reflexivity|]. exists v. split; [exact Hv|]. split; [exact Hw|]. body.
Qed.
Lemma wr_bd_addr a : length a = 6%nat -> exists r, wire_return F V r (hci_opcode 0x04 0x009) (sb :: a).
Proof.
  intros Ha. exists (RetReadBdAddr (Build_read_bd_addr_params s a)).
  split; [reflexivity|]. split; [exact Ha|]. body.
Qed.
Lemma wr_rssi h b : u16 h -> byte b ->
  exists r, wire_return F V r (hci_opcode 0x05 0x005) (sb :: le 2 h ++ [b]).
Proof.
  intros Hh Hb. destruct (signed_of_byte b Hb) as [Z1 Z2].
  exists (RetReadRssi (Build_read_rssi_params s h (u8_as_i8 b))).
  split; [reflexivity|]. split; [exact Hh|]. split; [exact Z1|].
  cbn [rssi_status rssi_conn_handle rssi_rssi]. rewrite Z2. body.
Qed.
Lemma wr_buffer v b : u16 v -> exists r, wire_return F V r (hci_opcode 0x08 0x002) (sb :: le 2 v ++ [b]).
Proof.
  intros Hv. exists (RetLeReadBufferSize (Build_le_read_buffer_size_params s v b)).
  split; [reflexivity|]. split; [exact Hv|]. body.
Qed.
Lemma wr_le_features v : u64 v -> exists r, wire_return F V r (hci_opcode 0x08 0x003) (sb :: le 8 v).
Proof.
  intros Hv. destruct (masked_exists v (le_feature_defined F) Hv) as [w Hw].
  exists (RetLeReadLocalSupportedFeatures (Build_le_supported_features s w)).
  split; [reflexivity|]. exists v. split; [exact Hv|]. split; [exact Hw|]. body.
Qed.
Lemma wr_channel_tx_power b : byte b -> exists r, wire_return F V r (hci_opcode 0x08 0x007) [sb; b].
Proof.
  intros Hb. destruct (signed_of_byte b Hb) as [Z1 Z2].
  exists (RetLeReadAdvertisingChannelTxPower (Build_le_advertising_channel_tx_power s (u8_as_i8 b))).
  split; [reflexivity|]. split; [exact Z1|]. cbn [lat_status lat_power]. rewrite Z2. body.
Qed.
Lemma wr_white_list b : exists r, wire_return F V r (hci_opcode 0x08 0x00F) [sb; b].
Proof.
  exists (RetLeReadWhiteListSize s b). split; [reflexivity|].
  exists sb, []. split; [exact Hs|reflexivity].
Qed.
Lemma wr_channel_map h m : u16 h -> length m = 5%nat -> only_defined channel_defined (array_bit m) ->
  exists r, wire_return F V r (hci_opcode 0x08 0x015) (sb :: le 2 h ++ m).
Proof.
  intros Hh Hl Hm. exists (RetLeReadChannelMap (Build_channel_map_parameters s h m)).
  split; [reflexivity|]. split; [exact Hh|]. split; [exact Hl|]. split; [exact Hm|]. body.
Qed.
Lemma wr_encrypt d : length d = 16%nat -> exists r, wire_return F V r (hci_opcode 0x08 0x017) (sb :: d).
Proof.
  intros Hd. exists (RetLeEncrypt (Build_encrypted_return_parameters s d)).
  split; [reflexivity|]. split; [exact Hd|]. body.
Qed.
Lemma wr_rand v : u64 v -> exists r, wire_return F V r (hci_opcode 0x08 0x018) (sb :: le 8 v).
Proof.
  intros Hv. exists (RetLeRand (Build_le_random s v)). split; [reflexivity|]. split; [exact Hv|]. body.
Qed.
Lemma wr_key_reply h : u16 h -> exists r, wire_return F V r (hci_opcode 0x08 0x01A) (sb :: le 2 h).
Proof.
  intros Hh. exists (RetLeLongTermKeyRequestReply (Build_le_ltk_request_reply s h)).
  split; [reflexivity|]. split; [exact Hh|]. body.
Qed.
Lemma wr_negative_reply h : u16 h -> exists r, wire_return F V r (hci_opcode 0x08 0x01B) (sb :: le 2 h).
Proof.
  intros Hh. exists (RetLeLongTermKeyRequestNegativeReply (Build_le_ltk_request_reply s h)).
  split; [reflexivity|]. split; [exact Hh|]. body.
Qed.
Lemma wr_states m : length m = 8%nat -> bytes m -> only_defined le_state_defined (array_bit m) ->
  exists r, wire_return F V r (hci_opcode 0x08 0x01C) (sb :: m).
Proof.
  intros Hl Hb Hm. destruct (long_value m Hl Hb) as (v & Hv & ->).
  exists (RetLeReadSupportedStates (Build_le_read_supported_states_params s v)).
  split; [reflexivity|]. split; [exact Hv|]. split; [|body].
  intros i Hi. apply Hm. now rewrite le8_bit.
Qed.
Lemma wr_test_end v : u16 v -> exists r, wire_return F V r (hci_opcode 0x08 0x01F) (sb :: le 2 v).
Proof.
  intros Hv. exists (RetLeTestEnd (Build_le_test_end_params s v)).
  split; [reflexivity|]. split; [exact Hv|]. body.
Qed.
End Returns.

Lemma return_accepted n op fs p : byte n -> In (op, fs) return_layouts -> matches F fs p ->
  (op = hci_opcode 0x04 0x002 -> (array_bit (tl p) (31 * 8 + 4) || array_bit (tl p) (31 * 8 + 5))%bool = false) ->
  exists ev, event_new F V (framed 0x0E ([n] ++ le 2 op ++ p)) = Ok ev.
Proof.
  intros Hn Hin H Hc.
  destruct (layouts_fit op fs p F) as (B & L & Hop); [apply in_or_app; now right|exact H|].
  enough (exists r, wire_return F V r op p) as [r Hr].
  { now apply (returned n op p r). }
  clear Hn L Hop. revert B. unfold return_layouts in Hin. cbn [In] in Hin.
  repeat match goal with K : (_, _) = _ \/ _ |- _ =>
    apply in_single in K; destruct K as [[-> ->]|K] end; [..|destruct Hin]; fields; intros B;
    cbn [app] in *; rewrite ?app_nil_r in *.
  all: repeat match goal with A : ?h <= 0x0EFF |- _ => apply handle_u16 in A end.
  - st (@RetSetEventMask V).
  - st (@RetReset V).
  - eapply wr_tx_power; eassumption.
  - eapply wr_version; eassumption.
  - eapply wr_commands; [eassumption..|]. now apply Hc.
  - eapply wr_features; eassumption.
  - eapply wr_bd_addr; eassumption.
  - eapply wr_rssi; eassumption.
  - st (@RetLeSetEventMask V).
  - eapply wr_buffer; eassumption.
  - eapply wr_le_features; eassumption.
  - st (@RetLeSetRandomAddress V).
  - st (@RetLeSetAdvertisingParameters V).
  - eapply wr_channel_tx_power; eassumption.
  - st (@RetLeSetAdvertisingData V).
  - st (@RetLeSetScanResponseData V).
  - match goal with K : status_byte _ _ _ ?s |- _ =>
      destruct (version_5_0 F) eqn:EF;
        [apply (wire_status (@RetLeSetAdvertisingEnable V) _ _ s)
        |apply (wire_status (@RetLeSetAdvertiseEnable V) _ _ s)]; try exact K end;
      intros K1; (split; [exact EF|now split]).
  - st (@RetLeSetScanParameters V).
  - st (@RetLeSetScanEnable V).
  - st (@RetLeCreateConnectionCancel V).
  - eapply wr_white_list; eassumption.
  - st (@RetLeClearWhiteList V).
  - st (@RetLeAddDeviceToWhiteList V).
  - st (@RetLeRemoveDeviceFromWhiteList V).
  - st (@RetLeSetHostChannelClassification V).
  - eapply wr_channel_map; eassumption.
  - eapply wr_encrypt; eassumption.
  - eapply wr_rand; eassumption.
  - eapply wr_key_reply; eassumption.
  - eapply wr_negative_reply; eassumption.
  - eapply wr_states; eassumption.
  - st (@RetLeReceiverTest V).
  - st (@RetLeTransmitterTest V).
  - eapply wr_test_end; eassumption.
Qed.
Lemma reports_values rs : Forall air_report_ok rs ->
  Exists (fun r => 2 <= ar_address_kind r) rs \/ exists l, map air_report_value rs = map Some l.
Proof.
  induction 1 as [|r rs Hr _ IH]; [right; now exists []|].
  destruct (N.le_gt_cases 2 (ar_address_kind r)) as [K|K]; [left; now apply Exists_cons_hd|].
  destruct IH as [IH|[l IH]]; [left; now apply Exists_cons_tl|]. right.
  assert (E : exists v, air_report_value r = Some v).
  { unfold air_report_value. destruct (N.eq_dec (ar_address_kind r) 0) as [->|]; [eauto|].
    replace (ar_address_kind r) with 1 by lia. eauto. }
  destruct E as [v E]. exists (v :: l). cbn [map]. now rewrite E, IH.
Qed.

Lemma ranges_legal h interval latency timeout : parameter_ranges h interval latency timeout ->
  legal_parameters interval interval latency timeout \/ timeout = 10.
Proof.
  intros (_ & H1 & H2 & H3 & H4). unfold timeout_suffices in H4.
  destruct (N.eq_dec timeout 10) as [E|E]; [now right|left]. unfold legal_parameters.
  repeat match goal with |- _ /\ _ => split end; lia.
Qed.

Lemma conforming_accepted code p : conforming F code p -> ~ refused_event code p ->
  exists ev, event_new F V (framed code p) = Ok ev.
Proof.
  intros H Hr. pose proof (conforming_is F code p H) as (B1 & B2 & B3).
  destruct H as [code fs p Hin H|n op fs ret Hn Hin H|n Hn|l Hl H|rs H Hlen Hl
    |h role kind interval latency timeout accuracy addr Hp Hro Hk La Ba Hacc|h interval latency timeout Hp
    |sb body Hsb H L Bb|sb body Hsb H L Bb].
  - apply (layout_accepted code fs p Hin H). intros sb h0 h1 tx rx -> ->.
    destruct (N.eq_dec tx 3) as [E|E]; [exfalso; apply Hr; apply refused_phy; now left|].
    destruct (N.eq_dec rx 3) as [E'|E']; [exfalso; apply Hr; apply refused_phy; now right|]. now split.
  - apply (return_accepted n op fs ret Hn Hin H). intros ->.
    destruct (_ || _)%bool eqn:E; [exfalso|reflexivity]. apply Hr.
    assert (Hret : exists sb, ret = [sb] ++ tl ret).
    { destruct ret as [|sb ret]; [|now exists sb]. exfalso. cbn [tl] in E.
      vm_compute in E. discriminate E. }
    destruct Hret as [sb Hret]. rewrite Hret. now apply refused_commands.
  - rewrite <- (app_nil_r (le 2 0)).
    apply (returned n 0 [] RetSpontaneous); try reflexivity; [exact Hn|apply bytes_nil|cbn; lia].
  - destruct (proj2 (completed_packets_packet F V (framed 0x13 (N.of_nat (length l) :: flat_map pair_bytes l)) l
      (framed_is_bytes _ _ B1 B2 B3))) as (ev & E & _); [|eauto].
    split.
    + eapply Forall_impl; [|exact H]. intros x [K1 K2]. split; [now apply handle_u16|exact K2].
    + unfold framed. cbn [length]. rewrite pair_bytes_length. reflexivity.
  - destruct (reports_values rs H) as [K|[l K]].
    + exfalso. apply Hr. now apply refused_report.
    + destruct (reports_delivered F V (N.of_nat (length rs)) rs l) as (r & E & _); try assumption; [|eauto].
      unfold byte. lia.
  - destruct (ranges_legal _ _ _ _ Hp) as [K|K].
    + destruct (connection_delivered F V (connection_body h role kind interval latency timeout accuracy addr))
        with (sb := 0) (s := @Success (VStatus V)) as (ev & E & _).
      * do 2 apply bytes_cons, proj2 in B2. exact B2.
      * unfold connection_body. rewrite !app_length, !le_length, La. reflexivity.
      * destruct Hp as (Hh & Hi & Hla & Ht & _). unfold connection_body. rewrite !le_2. destruct_len La.
        unfold connection_fields_ok, u16_le, at_. cbn [app nth Nat.add].
        rewrite !read_le_2 by (unfold u16; change (2 ^ 16) with 65536; lia).
        split; [exact Hro|]. split; [exact Hk|]. now split.
      * reflexivity.
      * eauto.
    + exfalso. apply Hr. subst timeout. unfold connection_body.
      rewrite (app_assoc (le 2 interval)), (app_assoc addr), (app_assoc [role; kind]), (app_assoc (le 2 h)).
      apply refused_timeout_connection. rewrite !app_length, !le_length, La. reflexivity.
  - destruct (ranges_legal _ _ _ _ Hp) as [K|K].
    + destruct (update_delivered F V (update_body h interval latency timeout))
        with (sb := 0) (s := @Success (VStatus V)) as (ev & E & _).
      * do 2 apply bytes_cons, proj2 in B2. exact B2.
      * unfold update_body. rewrite !app_length, !le_length. reflexivity.
      * destruct Hp as (Hh & Hi & Hla & Ht & _). unfold update_body. rewrite !le_2.
        unfold update_fields_ok, u16_le, at_. cbn [app nth Nat.add].
        rewrite !read_le_2 by (unfold u16; change (2 ^ 16) with 65536; lia). exact K.
      * reflexivity.
      * eauto.
    + exfalso. apply Hr. subst timeout. unfold update_body.
      rewrite (app_assoc (le 2 interval)), (app_assoc (le 2 h)).
      apply refused_timeout_update. rewrite !app_length, !le_length. reflexivity.
  - destruct (status_value sb H) as [s Hs].
    assert (D : connection_fields_ok body \/ ~ connection_fields_ok body).
    { unfold connection_fields_ok, legal_parameters. lia. }
    destruct D as [D|D]; [|exfalso; apply Hr; now apply refused_failed_connection].
    destruct (connection_delivered F V body Bb L D sb s Hs) as (ev & E & _). eauto.
  - destruct (status_value sb H) as [s Hs].
    assert (D : update_fields_ok body \/ ~ update_fields_ok body).
    { unfold update_fields_ok, legal_parameters. lia. }
    destruct D as [D|D]; [|exfalso; apply Hr; now apply refused_failed_update].
    destruct (update_delivered F V body Bb L D sb s Hs) as (ev & E & _). eauto.
Qed.

Lemma conforming_exactly code p : conforming F code p ->
  ((exists ev, event_new F V (framed code p) = Ok ev) <-> ~ refused_event code p).
Proof.
  intros H. pose proof (conforming_is F code p H) as (B1 & B2 & B3). split.
  - intros [ev E] Hr. now apply (refused_not_accepted code p ev).
  - now apply conforming_accepted.
Qed.
End Conform.

(** The events that a controller may send and that are refused. *)
Lemma conforming_refusals F V : exists code p, conforming F code p /\ forall ev, event_new F V (framed code p) <> Ok ev.
Proof.
  exists 0x3E, ([0x03; 0x00] ++ update_body 1 6 0 10). split.
  - apply conforming_update. unfold parameter_ranges, timeout_suffices. lia.
  - intros ev H. apply (refused_not_accepted F V 0x3E ([0x03; 0x00] ++ update_body 1 6 0 10) ev);
      [reflexivity|repeat constructor|cbn; lia| |exact H].
    exact (refused_timeout_update (le 2 1 ++ le 2 6 ++ le 2 0) eq_refl).
Qed.

(** ** Examples *)
Lemma conforming_refused_cases :
  (conforming F41 0x3E ([0x01; 0x00] ++ connection_body 1 0 1 24 0 10 5 [1; 2; 3; 4; 5; 6])
   /\ refused_event 0x3E ([0x01; 0x00] ++ connection_body 1 0 1 24 0 10 5 [1; 2; 3; 4; 5; 6]))
  /\ (conforming F41 0x3E ([0x01; 0x3E] ++ repeat 0 17) /\ refused_event 0x3E ([0x01; 0x3E] ++ repeat 0 17))
  /\ (conforming F41 0x3E ([0x03; 0x3B] ++ repeat 0 8) /\ refused_event 0x3E ([0x03; 0x3B] ++ repeat 0 8))
  /\ (conforming F41 0x3E [0x0C; 0; 1; 0; 3; 1] /\ refused_event 0x3E [0x0C; 0; 1; 0; 3; 1])
  /\ (conforming F41 0x3E ([0x02; 2] ++ flat_map air_report_bytes [public_entry; identity_entry])
      /\ refused_event 0x3E ([0x02; 2] ++ flat_map air_report_bytes [public_entry; identity_entry]))
  /\ (conforming F41 0x0E ([1] ++ le 2 (hci_opcode 0x04 0x002) ++ [0] ++ repeat 0 31 ++ [0x10] ++ repeat 0 32)
      /\ refused_event 0x0E ([1] ++ le 2 (hci_opcode 0x04 0x002) ++ [0] ++ repeat 0 31 ++ [0x10] ++ repeat 0 32)).
Proof.
  assert (Hrs : Forall air_report_ok [public_entry; identity_entry]).
  { apply Forall_cons; [|apply Forall_cons; [|apply Forall_nil]]; unfold air_report_ok; cbn;
      (split; [lia|]); (split; [reflexivity|]);
      (split; [repeat (apply Forall_cons; [reflexivity|]); apply Forall_nil|]);
      (split; [repeat (apply Forall_cons; [reflexivity|]); apply Forall_nil|]);
      (split; [lia|]); try exact I. unfold is_i8. split; [lia|discriminate]. }
  split; [|split; [|split; [|split; [|split]]]]; split.
  - apply conforming_connection; try lia; [|reflexivity|repeat (apply Forall_cons; [reflexivity|]); apply Forall_nil].
    unfold parameter_ranges, timeout_suffices. lia.
  - exact (refused_timeout_connection (le 2 1 ++ [0; 1] ++ [1; 2; 3; 4; 5; 6] ++ le 2 24 ++ le 2 0) 5 eq_refl).
  - apply conforming_failed_connection; [lia|vm_compute; discriminate|reflexivity|
      repeat (apply Forall_cons; [reflexivity|]); apply Forall_nil].
  - apply refused_failed_connection; [lia|reflexivity|]. intros (_ & _ & (K & _) & _). vm_compute in K. now apply K.
  - apply conforming_failed_update; [lia|vm_compute; discriminate|reflexivity|
      repeat (apply Forall_cons; [reflexivity|]); apply Forall_nil].
  - apply refused_failed_update; [lia|reflexivity|]. intros (K & _). vm_compute in K. now apply K.
  - apply (conforming_event F41 0x3E [Code 0x0C; Status; Handle; Octet 1 3; Octet 1 3]); [cbn; tauto|].
    exists [0x0C], [0; 1; 0; 3; 1]. split; [reflexivity|]. split; [exists 0x0C; split; [|split]; (reflexivity || lia)|].
    exists [0], [1; 0; 3; 1]. split; [reflexivity|]. split; [exists 0; split; [apply N.le_0_l|reflexivity]|].
    exists [1; 0], [3; 1]. split; [reflexivity|]. split; [exists 1; split; [|split]; (reflexivity || lia)|].
    exists [3], [1]. split; [reflexivity|]. split; [exists 3; split; [|split]; (reflexivity || lia)|].
    exists [1], []. split; [reflexivity|]. split; [exists 1; split; [|split]; (reflexivity || lia)|]. reflexivity.
  - apply refused_phy. now left.
  - apply (conforming_reports F41 [public_entry; identity_entry]); [exact Hrs|cbn; lia|cbn; lia].
  - apply refused_report; [exact Hrs|]. apply Exists_cons_tl, Exists_cons_hd. cbn. lia.
  - apply (conforming_return F41 1 (hci_opcode 0x04 0x002) [Status; Flags 64 assigned_command_bit]
      ([0] ++ repeat 0 31 ++ [0x10] ++ repeat 0 32)); [reflexivity|cbn; tauto|].
    exists [0], (repeat 0 31 ++ [0x10] ++ repeat 0 32). split; [reflexivity|].
    split; [exists 0; split; [apply N.le_0_l|reflexivity]|].
    exists (repeat 0 31 ++ [0x10] ++ repeat 0 32), []. split; [reflexivity|]. split; [|reflexivity].
    split; [reflexivity|]. split; [repeat (apply Forall_cons; [reflexivity|]); apply Forall_nil|].
    intros i Hi. destruct (N.lt_ge_cases i 512) as [K|K].
    + assert (G : forallb (fun j => implb (array_bit (repeat 0 31 ++ [0x10] ++ repeat 0 32) (N.of_nat j))
                                       (assigned_command_bit F41 (N.of_nat j))) (seq 0 512) = true)
        by (vm_compute; reflexivity).
      rewrite forallb_forall in G. specialize (G (N.to_nat i)). rewrite N2Nat.id, Hi in G.
      apply G. apply in_seq. lia.
    + exfalso. unfold array_bit in Hi. replace (nth_error _ _) with (@None N) in Hi; [discriminate Hi|].
      symmetry. apply nth_error_None. cbn [length app repeat]. lia.
  - exact (refused_commands 1 0 (repeat 0 31 ++ [0x10] ++ repeat 0 32) eq_refl).
Qed.

Lemma conforming_cases :
  conforming F41 0x08 [0; 1; 0; 2] /\ ~ refused_event 0x08 [0; 1; 0; 2]
  /\ conforming F41 0x3E ([0x01; 0x00] ++ connection_body 1 0 1 24 0 11 5 [1; 2; 3; 4; 5; 6])
  /\ ~ refused_event 0x3E ([0x01; 0x00] ++ connection_body 1 0 1 24 0 11 5 [1; 2; 3; 4; 5; 6])
  /\ conforming F41 0x0E ([1] ++ le 2 (hci_opcode 0x08 0x018) ++ [0; 1; 2; 3; 4; 5; 6; 7; 8]).
Proof.
  split; [|split; [|split; [|split]]].
  - apply (conforming_event F41 0x08 [Status; Handle; Octet 0 2]); [cbn; tauto|].
    exists [0], [1; 0; 2]. split; [reflexivity|]. split; [exists 0; split; [apply N.le_0_l|reflexivity]|].
    exists [1; 0], [2]. split; [reflexivity|]. split; [exists 1; split; [|split]; (reflexivity || lia)|].
    exists [2], []. split; [reflexivity|]. split; [exists 2; split; [|split]; (reflexivity || lia)|]. reflexivity.
  - intros H. inversion H.
  - apply conforming_connection; try lia; [|reflexivity|repeat (apply Forall_cons; [reflexivity|]); apply Forall_nil].
    unfold parameter_ranges, timeout_suffices. lia.
  - intros H. refine (refused_not_accepted F41 test_vendor _ _ _ _ _ _ H _); [reflexivity| | |];
      [repeat (apply Forall_cons; [reflexivity|]); apply Forall_nil|cbn; lia|vm_compute; reflexivity].
  - apply (conforming_return F41 1 (hci_opcode 0x08 0x018) [Status; Octets 8] [0; 1; 2; 3; 4; 5; 6; 7; 8]);
      [reflexivity|cbn; tauto|].
    exists [0], [1; 2; 3; 4; 5; 6; 7; 8]. split; [reflexivity|].
    split; [exists 0; split; [apply N.le_0_l|reflexivity]|].
    exists [1; 2; 3; 4; 5; 6; 7; 8], []. split; [reflexivity|]. split; [|reflexivity].
    split; [reflexivity|]. repeat (apply Forall_cons; [reflexivity|]); apply Forall_nil.
Qed.
