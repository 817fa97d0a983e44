(** * Following the connections of a controller (proofs). *)
From Verif Require Import Base Model_Types Model_Intervals Model_EventBase Model_Command Model_Event Model_Host
  Spec_Wire Spec_Errors Spec_Report Spec_Host Spec_Link Spec_Split Spec_Core Spec_Conform Spec_Pass Spec_Follow
  Proofs_Base Proofs_Event Proofs_Panic Proofs_Complete Proofs_Link Proofs_Split Proofs_Sent Proofs_Conform Proofs_Command Proofs_Streams.
Open Scope list_scope.
Open Scope N_scope.

(** ** Lists that agree *)
Lemma agree_other cs ks h : Forall2 describes cs ks ->
  Forall2 describes (other_than c_handle h cs) (other_than k_handle h ks).
Proof.
  unfold other_than. induction 1 as [|c k cs ks D _ IH]; [constructor|]. cbn [filter].
  replace (k_handle k) with (c_handle c) by apply D. destruct (negb _); [constructor; assumption|exact IH].
Qed.
Lemma agree_changed cs ks h f g : (forall c k, describes c k -> describes (f c) (g k)) ->
  Forall2 describes cs ks -> Forall2 describes (changed c_handle h f cs) (changed k_handle h g ks).
Proof.
  intros Hf. unfold changed. induction 1 as [|c k cs ks D _ IH]; [constructor|]. cbn [map].
  constructor; [|exact IH]. replace (k_handle k) with (c_handle c) by apply D.
  destruct (_ =? _); [now apply Hf|exact D].
Qed.

Section Steps.
Context (F : features) (V : vendor).

Lemma success_byte sb (s : status (VStatus V)) : status_byte F V sb s ->
  (sb =? 0) = match s with Success => true | _ => false end.
Proof.
  unfold status_byte. intros H. destruct (N.eqb_spec sb 0) as [->|Hn].
  - change (s = Success) in H. now subst s.
  - destruct (nth_error _ _) as [s'|] eqn:Es; [subst s'|destruct H as (v & _ & ->); reflexivity].
    destruct s; try reflexivity. exfalso.
    assert (K : forallb (fun x : status (VStatus V) => match x with Success => false | _ => true end)
                  (tl (assigned_statuses F)) = true).
    { unfold assigned_statuses. destruct (version_5_0 F); vm_compute; reflexivity. }
    rewrite forallb_forall in K. specialize (K Success). cbv beta iota in K.
    enough (I : In Success (tl (@assigned_statuses (VStatus V) F))) by (specialize (K I); discriminate K).
    destruct (N.to_nat sb) as [|m] eqn:Em; [lia|].
    destruct (@assigned_statuses (VStatus V) F) as [|x l]; [discriminate Es|]. cbn in Es |- *.
    now apply nth_error_In in Es.
Qed.

(** An event that concerns no connection. *)
Definition about (pkt : list N) : bool :=
  le_success 0x01 pkt || ((at_ pkt 0 =? 0x03) && (at_ pkt 2 =? 0x00)) || le_success 0x03 pkt || ((at_ pkt 0 =? 0x05) && (at_ pkt 2 =? 0x00))
  || ((at_ pkt 0 =? 0x08) && (at_ pkt 2 =? 0x00))
  || ((at_ pkt 0 =? 0x0E) && (u16_le pkt 3 =? hci_opcode 0x03 0x003) && (at_ pkt 5 =? 0x00)).
Lemma not_about cs pkt : about pkt = false -> happened cs pkt = cs.
Proof.
  unfold about, happened. intros H. apply orb_false_elim in H. destruct H as [H H5].
  apply orb_false_elim in H. destruct H as [H H4]. apply orb_false_elim in H. destruct H as [H H3].
  apply orb_false_elim in H. destruct H as [H H2]. apply orb_false_elim in H. destruct H as [H1 H0].
  now rewrite H1, H0, H2, H3, H4, H5.
Qed.

(** ** The same packet, read *)
Lemma word_back v : u16 v -> v mod 256 + 256 * (v / 256 mod 256) = v.
Proof. unfold u16. change (2 ^ 16) with 65536. intros H. lia. Qed.
Lemma legal_words i l t : legal_parameters i i l t -> u16 i /\ u16 l /\ u16 t.
Proof. unfold legal_parameters, u16. change (2 ^ 16) with 65536. lia. Qed.

Lemma step_connection pkt e cs ks : bytes pkt -> event_new F V pkt = Ok (EvLeConnectionComplete e) ->
  Forall2 describes cs ks -> Forall2 describes (happened cs pkt) (follow (V := V) ks (EvLeConnectionComplete e)).
Proof.
  intros Hb H A. destruct e as [st h role peer ci acc].
  apply (le_connection_complete_packet F V pkt st h role peer ci acc Hb) in H.
  destruct H as (sb & iv & Hs & Hh & Hp & (i & t & L & Hi & Ht & ->) & ->).
  apply success_byte in Hs. cbn [follow lcc_status lcc_conn_handle lcc_role lcc_peer_bd_addr lcc_conn_interval].
  assert (La : exists a0 a1 a2 a3 a4 a5 a6, address_bytes peer = [a0; a1; a2; a3; a4; a5; a6]).
  { assert (La : length (address_bytes peer) = 7%nat) by (destruct peer; cbn in Hp |- *; now rewrite Hp).
    destruct (address_bytes peer) as [|a0 [|a1 [|a2 [|a3 [|a4 [|a5 [|a6 [|a7 l]]]]]]]]; try discriminate La.
    now do 7 eexists. }
  destruct La as (a0 & a1 & a2 & a3 & a4 & a5 & a6 & Ea). rewrite Ea, !le_2. cbn [app].
  unfold happened, le_success, u16_le, at_. cbn [nth Nat.add]. rewrite Hs. cbn [N.eqb andb].
  destruct st; try exact A. cbn [andb]. destruct (legal_words _ _ _ L) as (W1 & W2 & W3).
  rewrite !word_back by assumption.
  constructor; [|now apply agree_other].
  unfold describes. cbn. rewrite Ea. repeat split; auto.
Qed.
Lemma step_update pkt e cs ks : bytes pkt -> event_new F V pkt = Ok (EvLeConnectionUpdateComplete e) ->
  Forall2 describes cs ks ->
  Forall2 describes (happened cs pkt) (follow (V := V) ks (EvLeConnectionUpdateComplete e)).
Proof.
  intros Hb H A. destruct e as [st h ci].
  apply (le_connection_update_packet F V pkt st h ci Hb) in H.
  destruct H as (sb & iv & Hs & Hh & (i & t & L & Hi & Ht & ->) & ->).
  apply success_byte in Hs. cbn [follow lcu_status lcu_conn_handle lcu_conn_interval].
  rewrite !le_2. cbn [app].
  unfold happened, le_success, u16_le, at_. cbn [nth Nat.add]. rewrite Hs. cbn [N.eqb Pos.eqb andb].
  destruct st; try exact A. cbn [andb]. destruct (legal_words _ _ _ L) as (W1 & W2 & W3).
  rewrite !word_back by assumption.
  apply agree_changed; [|exact A]. intros c k (D1 & D2 & D3).
  unfold describes. cbn [c_handle k_handle c_kind k_kind c_encrypted k_encrypted].
  split; [exact D1|]. split; [|exact D3].
  destruct (c_kind c), (k_kind k); cbn [same_kind with_parameters with_known_parameters] in D2 |- *;
    try contradiction; [exact D2|]. destruct D2 as (D4 & D5 & _). auto.
Qed.
Lemma step_classic pkt e cs ks : bytes pkt -> event_new F V pkt = Ok (EvConnectionComplete e) ->
  Forall2 describes cs ks -> Forall2 describes (happened cs pkt) (follow (V := V) ks (EvConnectionComplete e)).
Proof.
  intros Hb H A. destruct e as [st h a lt en].
  apply (connection_complete_packet F V pkt st h a lt en Hb) in H. destruct H as (sb & Hs & Hh & La & ->).
  apply success_byte in Hs. cbn [follow cnc_status cnc_conn_handle cnc_bd_addr cnc_link_type cnc_encryption_enabled].
  destruct a as [|a0 [|a1 [|a2 [|a3 [|a4 [|a5 [|a6 l]]]]]]]; try discriminate La.
  rewrite !le_2. cbn [app]. unfold happened, le_success, u16_le, at_. cbn [nth Nat.add]. rewrite Hs.
  cbn [N.eqb Pos.eqb andb]. destruct st; try exact A. cbn [andb]. rewrite !word_back by assumption.
  constructor; [|now apply agree_other]. unfold describes. cbn. now destruct en.
Qed.
Lemma step_disconnection pkt e cs ks : bytes pkt -> event_new F V pkt = Ok (EvDisconnectionComplete e) ->
  Forall2 describes cs ks ->
  Forall2 describes (happened cs pkt) (follow (V := V) ks (EvDisconnectionComplete e)).
Proof.
  intros Hb H A. destruct e as [st h r].
  apply (disconnection_complete_packet F V pkt st h r Hb) in H.
  destruct H as (sb & rb & Hs & Hh & _ & ->).
  apply success_byte in Hs. cbn [follow dsc_status dsc_conn_handle]. rewrite !le_2. cbn [app].
  unfold happened, le_success, u16_le, at_. cbn [nth Nat.add]. rewrite Hs. cbn [N.eqb Pos.eqb andb].
  destruct st; try exact A. cbn [andb]. rewrite !word_back by assumption. now apply agree_other.
Qed.
Lemma step_encryption pkt e cs ks : bytes pkt -> event_new F V pkt = Ok (EvEncryptionChange e) ->
  Forall2 describes cs ks -> Forall2 describes (happened cs pkt) (follow (V := V) ks (EvEncryptionChange e)).
Proof.
  intros Hb H A. destruct e as [st h en].
  apply (encryption_change_packet F V pkt st h en Hb) in H. destruct H as (sb & Hs & Hh & ->).
  apply success_byte in Hs. cbn [follow ech_status ech_conn_handle ech_encryption]. rewrite !le_2. cbn [app].
  unfold happened, le_success, u16_le, at_. cbn [nth Nat.add]. rewrite Hs. cbn [N.eqb Pos.eqb andb].
  destruct st; try exact A. cbn [andb]. rewrite !word_back by assumption.
  apply agree_changed; [|exact A]. intros c k D. unfold describes in *. cbn.
  repeat (split; [tauto|]). now destruct en.
Qed.
Lemma step_complete pkt e cs ks : bytes pkt -> event_new F V pkt = Ok (EvCommandComplete e) ->
  Forall2 describes cs ks -> Forall2 describes (happened cs pkt) (follow (V := V) ks (EvCommandComplete e)).
Proof.
  intros Hb H A. destruct e as [n r].
  apply (command_complete_dispatch_iff F V pkt n r Hb) in H. destruct H as (op & ret & U & -> & W).
  cbn [follow cc_return_params]. rewrite le_2. cbn [app].
  unfold happened, le_success, u16_le, at_. cbn [nth Nat.add]. cbn [N.eqb Pos.eqb andb].
  rewrite word_back by exact U.
  assert (Q : op <> hci_opcode 0x03 0x003 ->
    (op =? hci_opcode 0x03 0x003) = false) by apply N.eqb_neq.
  destruct W as [W|(v & Ho & _ & ->)].
  2: { rewrite Q by (intros ->; discriminate Ho). exact A. }
  destruct r; cbn [wire_return] in W;
    lazymatch type of W with
    | op = hci_opcode 0x03 0x003 /\ _ =>
        destruct W as [-> (sb & rest & Hs & ->)]; apply success_byte in Hs; cbn [nth]; rewrite Hs
    | _ => rewrite Q by (intros ->; first [contradiction W | discriminate W | decompose [and] W; discriminate]);
           exact A
    end.
  rewrite N.eqb_refl. destruct s; try exact A. constructor.
Qed.
Lemma step_ok pkt ev cs ks : bytes pkt -> event_new F V pkt = Ok ev ->
  Forall2 describes cs ks -> Forall2 describes (happened cs pkt) (follow ks ev).
Proof.
  intros Hb H A.
  destruct ev; try (now apply step_connection) || (now apply step_classic) || (now apply step_update) || (now apply step_disconnection)
    || (now apply step_encryption) || (now apply step_complete);
    (rewrite not_about; [exact A|]); destruct (event_of_code F V _ _ H) as (p & -> & Hp);
    cbn [event_code event_subcode] in *; first [reflexivity | destruct Hp as [rest ->]; reflexivity].
Qed.

(** ** What is not read *)
Lemma read_shown pkt ev : bytes pkt -> event_new F V pkt = Ok ev -> hidden pkt = false.
Proof.
  intros Hb H. destruct ev;
    try (destruct (event_of_code F V _ _ H) as (p & -> & Hp); cbn [event_code event_subcode] in *;
         first [reflexivity | destruct Hp as [rest ->]; reflexivity]).
  - destruct e as [st h role peer ci acc].
    apply (le_connection_complete_packet F V pkt st h role peer ci acc Hb) in H.
    destruct H as (sb & iv & _ & _ & Hp & (i & t & L & _ & _ & ->) & ->).
    assert (La : length (address_bytes peer) = 7%nat) by (destruct peer; cbn in Hp |- *; now rewrite Hp).
    destruct (address_bytes peer) as [|a0 [|a1 [|a2 [|a3 [|a4 [|a5 [|a6 [|a7 l]]]]]]]]; try discriminate La.
    rewrite !le_2. cbn [app]. unfold hidden, le_success, u16_le, at_. cbn [nth Nat.add].
    destruct (legal_words _ _ _ L) as (W1 & W2 & W3). rewrite !word_back by assumption.
    replace (t =? 10) with false by (symmetry; apply N.eqb_neq; unfold legal_parameters in L; lia).
    destruct (sb =? 0); reflexivity.
  - destruct e as [st h ci]. apply (le_connection_update_packet F V pkt st h ci Hb) in H.
    destruct H as (sb & iv & _ & _ & (i & t & L & _ & _ & ->) & ->).
    rewrite !le_2. cbn [app]. unfold hidden, le_success, u16_le, at_. cbn [nth Nat.add].
    destruct (legal_words _ _ _ L) as (W1 & W2 & W3). rewrite !word_back by assumption.
    replace (t =? 10) with false by (symmetry; apply N.eqb_neq; unfold legal_parameters in L; lia).
    destruct (sb =? 0); reflexivity.
Qed.
Lemma refused_nothing code p : refused_event code p -> hidden (framed code p) = false ->
  about (framed code p) = false.
Proof.
  intros H. destruct H as [head acc L|head L|sb body Hs _ _|sb body Hs _ _|sb h0 h1 tx rx _|count rs _ _|n sb m _].
  - do 14 (destruct head as [|? head]; [discriminate L|]). destruct head; [|discriminate L]. discriminate.
  - do 6 (destruct head as [|? head]; [discriminate L|]). destruct head; [|discriminate L]. discriminate.
  - intros _. unfold about, le_success, framed, at_. cbn [app nth]. destruct sb; [lia|reflexivity].
  - intros _. unfold about, le_success, framed, at_. cbn [app nth]. destruct sb; [lia|reflexivity].
  - reflexivity.
  - reflexivity.
  - reflexivity.
Qed.

Definition one (pkt : list N) : list (event V) := match event_new F V pkt with Ok ev => [ev] | _ => [] end.
Lemma step pkt cs ks : conforming_packet F pkt -> Forall2 describes cs ks ->
  Forall2 describes (if hidden pkt then cs else happened cs pkt) (fold_left follow (one pkt) ks).
Proof.
  intros (code & p & -> & Hc) A. destruct (conforming_is F code p Hc) as (B1 & B2 & B3).
  pose proof (framed_is_bytes code p B1 B2 B3) as Hb. unfold one.
  destruct (event_new F V (framed code p)) as [ev|e|] eqn:E.
  - rewrite (read_shown _ _ Hb E). now apply step_ok.
  - destruct (hidden _) eqn:Hh; [exact A|]. rewrite not_about; [exact A|].
    destruct (about _) eqn:Ha; [|reflexivity]. exfalso.
    destruct (proj2 (conforming_exactly F V code p Hc)) as [ev E'].
    { intros R. pose proof (refused_nothing _ _ R Hh). congruence. }
    congruence.
  - destruct (hidden _) eqn:Hh; [exact A|]. rewrite not_about; [exact A|].
    destruct (about _) eqn:Ha; [|reflexivity]. exfalso.
    destruct (proj2 (conforming_exactly F V code p Hc)) as [ev E'].
    { intros R. pose proof (refused_nothing _ _ R Hh). congruence. }
    congruence.
Qed.
Lemma steps ps : Forall (conforming_packet F) ps -> forall cs ks, Forall2 describes cs ks ->
  Forall2 describes (fold_left happened (filter (fun p => negb (hidden p)) ps) cs)
    (fold_left follow (flat_map one ps) ks).
Proof.
  induction 1 as [|p ps Hp _ IH]; intros cs ks A; [exact A|]. cbn [filter flat_map].
  rewrite fold_left_app. pose proof (step p cs ks Hp A) as S. destruct (hidden p); cbn [negb fold_left]; now apply IH.
Qed.
End Steps.

(** ** Sessions *)
Lemma conforming_event_packet F pkt : conforming_packet F pkt -> event_packet pkt.
Proof.
  intros (code & p & -> & H). destruct (conforming_is F code p H) as (B1 & B2 & B3). now exists code, p.
Qed.
Lemma framed_split c p c' p' x y : framed c p ++ x = framed c' p' ++ y ->
  (length p <= 255)%nat -> (length p' <= 255)%nat -> framed c p = framed c' p' /\ x = y.
Proof.
  unfold framed. cbn [app]. intros H _ _. injection H as -> L H. apply Nat2N.inj in L.
  destruct (app_inv_len _ _ _ _ L H) as [-> ->]. now split.
Qed.
Lemma same_uart ps : forall qs x y, Forall event_packet ps -> Forall event_packet qs ->
  flat_map uart_frame ps ++ x = flat_map uart_frame qs ++ y ->
  length (flat_map uart_frame ps) = length (flat_map uart_frame qs) -> ps = qs.
Proof.
  induction ps as [|p ps IH]; intros [|q qs] x y Hp Hq H L; [reflexivity| | |]; try discriminate L.
  inversion Hp as [|? ? (c & a & -> & _ & _ & La) Hp']; subst.
  inversion Hq as [|? ? (d & b & -> & _ & _ & Lb) Hq']; subst.
  cbn [flat_map] in H, L. unfold uart_frame at 1 3 in H. unfold uart_frame at 1 3 in L.
  rewrite <- !app_assoc in H. apply (f_equal (@tl N)) in H. cbn [tl app] in H.
  apply framed_split in H; [|assumption|assumption]. destruct H as [E H].
  rewrite E in L |- *. f_equal. apply (IH qs x y Hp' Hq' H). cbn in L. rewrite !app_length in L. lia.
Qed.
Lemma same_link ps : forall qs x y, Forall event_packet ps -> Forall event_packet qs ->
  concat ps ++ x = concat qs ++ y -> length (concat ps) = length (concat qs) -> ps = qs.
Proof.
  induction ps as [|p ps IH]; intros [|q qs] x y Hp Hq H L; [reflexivity| | |].
  - inversion Hq as [|? ? (d & b & -> & _) _]; subst. discriminate L.
  - inversion Hp as [|? ? (d & b & -> & _) _]; subst. discriminate L.
  - inversion Hp as [|? ? (c & a & -> & _ & _ & La) Hp']; subst.
    inversion Hq as [|? ? (d & b & -> & _ & _ & Lb) Hq']; subst.
    cbn [concat] in H, L. rewrite <- !app_assoc in H.
    apply framed_split in H; [|assumption|assumption]. destruct H as [E H].
    rewrite E in L |- *. f_equal. apply (IH qs x y Hp' Hq' H). rewrite !app_length in L. lia.
Qed.

Section Sessions.
Context (F : features) (V : vendor) {St E : Type} (C : controller St E) (h : history St).

Lemma uart_events (log : list (operation V * report V E)) ps :
  received_packets log = map (uart_result F V) ps -> events_read log = flat_map (one F V) ps.
Proof.
  intros H.
  transitivity (flat_map (fun r => match r with Ok (PEvent ev) => [ev] | _ => [] end) (received_packets log)).
  - unfold events_read, received_packets. clear H. induction log as [|[o r] log IH]; [reflexivity|].
    cbn [flat_map]. rewrite flat_map_app, <- IH. f_equal.
    destruct r as [r|r]; [reflexivity|]. destruct r as [[ev]|[[]|]|]; reflexivity.
  - rewrite H. clear H. induction ps as [|p ps IH]; [reflexivity|]. cbn [map flat_map]. rewrite IH. f_equal.
    unfold uart_result, one. now destruct (event_new F V p).
Qed.
Lemma split_events (log : list (operation V * split_report V E)) ps :
  split_received log = map (link_result F V) ps -> split_events_read log = flat_map (one F V) ps.
Proof.
  intros H.
  transitivity (flat_map (fun r => match r with Ok ev => [ev] | _ => [] end) (split_received log)).
  - unfold split_events_read, split_received. clear H. induction log as [|[o r] log IH]; [reflexivity|].
    cbn [flat_map]. rewrite flat_map_app, <- IH. f_equal.
    destruct r as [r|r]; [reflexivity|]. destruct r as [ev|[[]|]|]; reflexivity.
  - rewrite H. clear H. induction ps as [|p ps IH]; [reflexivity|]. cbn [map flat_map]. rewrite IH. f_equal.
    unfold link_result, one. now destruct (event_new F V p).
Qed.

Lemma followed_uart os s ps more cs ks : contract C h -> Forall (typed_operation F) os -> possible h s ->
  Forall (conforming_packet F) ps -> Forall2 describes cs ks ->
  let (s', log) := session F V C os s in
  pending h s s' = flat_map uart_frame ps ++ more ->
  consumed h s' = (consumed h s + length (flat_map uart_frame ps))%nat ->
  Forall2 describes (fold_left happened (filter (fun p => negb (hidden p)) ps) cs)
    (fold_left follow (events_read log) ks).
Proof.
  intros HC Ho Hs Hp A. pose proof (session_spec F V C h HC os s Ho Hs) as S.
  destruct (session F V C os s) as [s' log]. intros P N0.
  destruct S as (_ & _ & qs & Hq & (more' & P') & N1 & R).
  assert (ps = qs) as <-.
  { apply (same_uart ps qs more more'); [|exact Hq|congruence|lia].
    eapply Forall_impl; [|exact Hp]. apply conforming_event_packet. }
  rewrite (uart_events log ps R). now apply steps.
Qed.
Lemma followed_split os s ps more cs ks : contract C h -> Forall (typed_operation F) os -> possible h s ->
  Forall (conforming_packet F) ps -> Forall2 describes cs ks ->
  let (s', log) := split_session F V C os s in
  pending h s s' = concat ps ++ more ->
  consumed h s' = (consumed h s + length (concat ps))%nat ->
  Forall2 describes (fold_left happened (filter (fun p => negb (hidden p)) ps) cs)
    (fold_left follow (split_events_read log) ks).
Proof.
  intros HC Ho Hs Hp A. pose proof (split_session_spec F V C h HC os s Ho Hs) as S.
  destruct (split_session F V C os s) as [s' log]. intros P N0.
  destruct S as (_ & _ & _ & qs & Hq & (more' & P') & N1 & R).
  assert (ps = qs) as <-.
  { apply (same_link ps qs more more'); [|exact Hq|congruence|lia].
    eapply Forall_impl; [|exact Hp]. apply conforming_event_packet. }
  rewrite (split_events log ps R). now apply steps.
Qed.
End Sessions.

(** ** A connection that is missed *)
Definition short_connection : list N :=
  [0x3E; 19; 0x01; 0; 0x40; 0; 0; 0; 1; 2; 3; 4; 5; 6; 6; 0; 0; 0; 10; 0; 0].
Lemma short_conforms F : conforming_packet F short_connection.
Proof.
  exists 0x3E, ([0x01; 0x00] ++ connection_body 0x40 0 0 6 0 10 0 [1; 2; 3; 4; 5; 6]). split; [reflexivity|].
  apply conforming_connection; try (unfold parameter_ranges, timeout_suffices; lia); [reflexivity|].
  repeat constructor.
Qed.
Lemma missed F V : exists os s ps, Forall (typed_operation F) os /\ possible queue_history s
  /\ Forall (conforming_packet F) ps
  /\ let (s', log) := session F V queue_controller os s in
     pending queue_history s s' = flat_map uart_frame ps
     /\ consumed queue_history s' = (consumed queue_history s + length (flat_map uart_frame ps))%nat
     /\ ~ Forall2 describes (fold_left happened ps []) (fold_left follow (events_read log) []).
Proof.
  exists [Receive], {| q_received := uart_frame short_connection; q_consumed := 0; q_arrivals := [];
                       q_written := []; q_ready := [] |}, [short_connection].
  split; [repeat constructor|]. split; [cbn; repeat split; repeat constructor; lia|].
  split; [constructor; [apply short_conforms|constructor]|].
  destruct (session F V queue_controller _ _) as [s' log] eqn:Es.
  destruct F as [v4 v5]. vm_compute in Es. injection Es as <- <-.
  split; [reflexivity|]. split; [reflexivity|]. intros H. vm_compute in H. inversion H.
Qed.
