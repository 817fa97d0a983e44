(** * Requests for keys and their answers (proofs). *)
From Coq Require Import Lia.
From Verif Require Import Base Model_Types Model_Intervals Model_EventBase Model_Command Model_Event Model_Host
  Spec_Wire Spec_Errors Spec_Report Spec_Host Spec_Link Spec_Split Spec_Conform Spec_Follow Spec_Credit Spec_Facts Spec_Data Spec_Window Spec_Turns
  Spec_Keys
  Proofs_Base Proofs_Event Proofs_Report Proofs_Panic Proofs_Complete Proofs_Command Proofs_Link Proofs_Conform Proofs_Follow Proofs_Credit
  Proofs_Facts Proofs_Data Proofs_Window Proofs_Turns.
Open Scope list_scope.
Open Scope N_scope.

Section Keys.
Context (key_for : N -> N -> N -> option (list N)) (F : features) (V : vendor).
Definition as_packet (c : command V) : N * list N := (0x01, link_bytes c).

(** ** Packets *)
Lemma key_commands (c : command V) : is_key_reply (as_packet c) = is_key_call c.
Proof.
  unfold is_key_reply, as_packet, link_bytes. rewrite le_2. cbn [fst snd app]. unfold at_. cbn [nth].
  destruct c; reflexivity.
Qed.
Lemma request_ok pkt ev : (forall h r d k, key_for h r d = Some k -> length k = 16%nat) ->
  bytes pkt -> event_new F V pkt = Ok ev ->
  map as_packet (key_call key_for ev) = if is_key_request (0x04, pkt) then [key_reply key_for (0x04, pkt)] else [].
Proof.
  intros HK Hb H. destruct ev;
    try (destruct (event_of_code F V _ _ H) as (p & -> & Hp); cbn [event_code event_subcode] in *;
         first [reflexivity | destruct Hp as (q & ->); reflexivity | destruct p; [contradiction|]; cbn in Hp; subst; reflexivity]).
  destruct e as [h r d]. apply (le_ltk_request_packet F V pkt h r d Hb) in H. destruct H as (Hh & Hr & Hd & ->).
  unfold is_key_request, key_reply. cbn [fst snd app at_ nth].
  change (firstn 2 (skipn 3 (0x3E :: 13 :: 0x05 :: le 2 h ++ le 8 r ++ le 2 d))) with (firstn 2 (le 2 h ++ le 8 r ++ le 2 d)).
  change (firstn 8 (skipn 5 (0x3E :: 13 :: 0x05 :: le 2 h ++ le 8 r ++ le 2 d))) with (firstn 8 (skipn 2 (le 2 h ++ le 8 r ++ le 2 d))).
  change (firstn 2 (skipn 13 (0x3E :: 13 :: 0x05 :: le 2 h ++ le 8 r ++ le 2 d))) with (firstn 2 (skipn 10 (le 2 h ++ le 8 r ++ le 2 d))).
  assert (A : firstn 2 (le 2 h ++ le 8 r ++ le 2 d) = le 2 h) by (rewrite le_2; reflexivity).
  assert (B : firstn 8 (skipn 2 (le 2 h ++ le 8 r ++ le 2 d)) = le 8 r) by (rewrite le_2, le_8; reflexivity).
  assert (D : firstn 2 (skipn 10 (le 2 h ++ le 8 r ++ le 2 d)) = le 2 d) by (rewrite le_2, le_8, (le_2 d); reflexivity).
  rewrite A, B, D. rewrite (number_le_le 2 h Hh), (u64_number r Hr), (number_le_le 2 d Hd).
  change (4 =? 4) with true. change (0x3E =? 0x3E) with true. change (5 =? 5) with true. cbn [andb].
  cbn [key_call ltk_conn_handle ltk_random_value ltk_encrypted_diversifier].
  destruct (key_for h r d) as [key|] eqn:Kf; cbn [map as_packet]; unfold as_packet, link_bytes; do 2 f_equal.
  cbn [command_params]. rewrite app_length, le_length, (HK _ _ _ _ Kf). reflexivity.
Qed.
Lemma request_refused pkt : conforming_packet F pkt -> (forall ev, event_new F V pkt <> Ok ev) ->
  is_key_request (0x04, pkt) = false.
Proof.
  intros (code & p & -> & Hc) No. destruct (is_key_request (0x04, framed code p)) eqn:A; [|reflexivity]. exfalso.
  destruct (proj2 (conforming_exactly F V code p Hc)) as [ev Ev]; [|exact (No ev Ev)].
  intros H. destruct H; discriminate A.
Qed.
Lemma requests_read ps : (forall h r d k, key_for h r d = Some k -> length k = 16%nat) -> Forall (conforming_packet F) ps ->
  map as_packet (flat_map (key_call key_for) (flat_map (one F V) ps))
  = map (key_reply key_for) (filter is_key_request (map (pair 0x04) ps)).
Proof.
  intros HK. induction 1 as [|p ps Hp _ IH]; [reflexivity|]. cbn [flat_map map filter]. rewrite flat_map_app, map_app, IH.
  unfold one. destruct (event_new F V p) as [ev|e|] eqn:En.
  - cbn [flat_map]. rewrite app_nil_r, (request_ok p ev HK (packet_bytes F p Hp) En).
    now destruct (is_key_request (0x04, p)).
  - rewrite request_refused; [reflexivity|exact Hp|congruence].
  - rewrite request_refused; [reflexivity|exact Hp|congruence].
Qed.
Lemma requests_sent ws : filter is_key_request ws = filter is_key_request (map (pair 0x04) (events_in ws)).
Proof.
  unfold events_in. induction ws as [|[t p] ws IH]; [reflexivity|]. cbn [filter fst].
  assert (A : is_key_request (t, p) = ((t =? 4) && is_key_request (0x04, p))%bool).
  { unfold is_key_request. cbn [fst snd]. now rewrite <- andb_assoc. }
  rewrite A.
  destruct (N.eqb_spec t 0x04) as [->|Ht]; cbn [andb map filter snd]; [|exact IH].
  destruct (is_key_request (4, p)); now rewrite IH.
Qed.

(** ** The host *)
Context {St E : Type} (C : controller St E) (h : history St) (HC : contract C h).
Lemma replies_sent (log : list (data_operation V * @data_report V E)) :
  Forall (typed_data_operation F V) (map fst log) ->
  filter is_key_reply (put_out V log) = map as_packet (key_calls log).
Proof.
  induction log as [|[o r] log IH]; intros H; [reflexivity|]. cbn [map fst] in H. inversion H as [|? ? H1 H2]; subst.
  specialize (IH H2). unfold put_out, key_calls. cbn [flat_map].
  fold (put_out V log). fold (key_calls log). rewrite filter_app, map_app, IH. f_equal.
  destruct o as [c|w|], r as [r|[u|e|]|a]; try reflexivity.
  - destruct (succeeded r); [|reflexivity]. cbn [filter andb]. change (1, link_bytes c) with (as_packet c).
    rewrite key_commands. now destruct (is_key_call c).
  - cbn [filter]. destruct H1 as (a & b & data & _ & _ & _ & [[-> _]|[-> _]]); reflexivity.
Qed.

Lemma keys_answered os s d : (forall c r d k, key_for c r d = Some k -> length k = 16%nat) ->
  Forall (typed_data_operation F V) os -> possible h s -> conforming_device F d ->
  let (s', log) := data_session F V C os s in
  answers_keys key_for log ->
  (exists rest, written h s' = written h s ++ flat_map wire_bytes (taken d) ++ rest) ->
  (exists rest, flat_map wire_bytes (sent_by d) = pending h s s' ++ rest) ->
  (exists later, map (key_reply key_for) (filter is_key_request (sent_by d)) = filter is_key_reply (taken d) ++ later)
  /\ (written h s' = written h s ++ flat_map wire_bytes (taken d) ->
      consumed h s' = (consumed h s + length (flat_map wire_bytes (sent_by d)))%nat ->
      flat_map (key_call key_for) (events_got log) = key_calls log ->
      map (key_reply key_for) (filter is_key_request (sent_by d)) = filter is_key_reply (taken d)).
Proof.
  intros HK Ho Hs [D1 D2].
  assert (D3 : Forall incoming_packet (sent_by d)).
  { eapply Forall_impl; [|exact D2]. intros w H. apply H. }
  assert (D4 : Forall (conforming_packet F) (events_in (sent_by d))).
  { apply Forall_forall. intros p I. unfold events_in in I. apply in_map_iff in I. destruct I as (w & <- & I).
    apply filter_In in I. destruct I as [I Ht]. apply N.eqb_eq in Ht. now apply (proj1 (Forall_forall _ _) D2 w I). }
  pose proof (both_streams F V C h HC os s d Ho Hs D1 D3) as K. destruct (data_session F V C os s) as [s' log].
  intros [later HA] W R. destruct (K W R) as (Hos & (more & P) & ps & rest & Hps & Hev & W' & M). clear K.
  rewrite <- Hos in Ho. pose proof (replies_sent log Ho) as RS.
  rewrite Hps in D4. apply Forall_app in D4. destruct D4 as [D4 _].
  pose proof (requests_read ps HK D4) as RR. rewrite <- Hev in RR.
  rewrite requests_sent, Hps, map_app, filter_app, map_app, <- RR.
  split.
  - rewrite P, filter_app in RS. rewrite HA, map_app, <- RS. rewrite <- !app_assoc. now eexists.
  - intros Hw Hc He. specialize (M Hc). subst rest. rewrite He, <- RS, (W' Hw). cbn [map filter]. apply app_nil_r.
Qed.
End Keys.
