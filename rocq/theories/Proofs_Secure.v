(** * Encryption between two hosts (proofs). *)
From Coq Require Import Lia.
From Verif Require Import Base Model_Types Model_Intervals Model_EventBase Model_Command Model_Event Model_Host
  Spec_Wire Spec_Errors Spec_Report Spec_Host Spec_Link Spec_Split Spec_Conform Spec_Follow Spec_Credit Spec_Facts Spec_Data Spec_Window Spec_Turns
  Spec_Own Spec_Keys Spec_Secure
  Proofs_Base Proofs_Event Proofs_Report Proofs_Panic Proofs_Complete Proofs_Command Proofs_Link Proofs_Streams Proofs_Conform Proofs_Follow Proofs_Credit
  Proofs_Facts Proofs_Data Proofs_Window Proofs_Turns Proofs_Own Proofs_Keys.
Open Scope list_scope.
Open Scope N_scope.

Lemma u16_number p i : (i + 2 <= length p)%nat -> number_le (firstn 2 (skipn i p)) = u16_le p i.
Proof.
  intros L. unfold u16_le, at_. revert p L. induction i as [|i IH]; intros p L.
  - destruct p as [|a [|b p]]; cbn [length] in L; try lia. unfold number_le. cbn. lia.
  - destruct p as [|a p]; cbn [length] in L; [lia|]. cbn [skipn]. rewrite IH by lia. reflexivity.
Qed.
Lemma handle_in h rest : u16 h -> u16_le ([0; 0; 0] ++ le 2 h ++ rest) 3 = h.
Proof. intros H. rewrite le_2. unfold u16_le, at_. cbn [app nth Nat.add]. now apply word_back. Qed.

Section Secure.
Context (key_for : N -> N -> N -> option (list N)).
Lemma reply_on w handle : (5 <= length (snd w))%nat -> on handle (key_reply key_for w) = on handle w.
Proof.
  intros L. unfold on. f_equal. unfold key_reply. destruct w as [t p]. cbn [snd] in *.
  destruct p as [|p0 [|p1 [|p2 [|a [|b p]]]]]; cbn [length] in L; try lia. cbn [skipn firstn].
  destruct (key_for _ _ _); reflexivity.
Qed.
Lemma reply_is_reply w : is_key_reply (key_reply key_for w) = true.
Proof. unfold key_reply. destruct (key_for _ _ _); reflexivity. Qed.
Lemma replies_on handle ws : Forall (fun w => is_key_request w = true -> (5 <= length (snd w))%nat) ws ->
  filter (on handle) (map (key_reply key_for) (filter is_key_request ws))
  = map (key_reply key_for) (filter (fun w => is_key_request w && on handle w)%bool ws).
Proof.
  induction 1 as [|w ws L _ IH]; [reflexivity|]. cbn [filter]. destruct (is_key_request w); cbn [andb map filter].
  - rewrite reply_on by (now apply L). destruct (on handle w); cbn [map]; now rewrite IH.
  - exact IH.
Qed.
Lemma filter_both {A} (f g : A -> bool) l : filter g (filter f l) = filter (fun x => f x && g x)%bool l.
Proof.
  induction l as [|x l IH]; [reflexivity|]. cbn [filter]. destruct (f x); cbn [filter andb]; [|exact IH].
  destruct (g x); now rewrite IH.
Qed.

(** ** The central *)
Section Central.
Context (F : features) (V : vendor) {St E : Type} (C : controller St E) (h : history St) (HC : contract C h).
Lemma start_commands (c : command V) handle : arguments_typed F c ->
  (is_start (as_packet V c) && on handle (as_packet V c))%bool
  = match c with CLeStartEncryption q => enc_conn_handle q =? handle | _ => false end.
Proof.
  intros T. unfold is_start, as_packet, link_bytes. rewrite le_2. cbn [fst snd app]. unfold at_. cbn [nth].
  destruct c; try reflexivity. cbn [command_params]. destruct T as (T & _).
  unfold on. cbn [snd]. unfold u16_le, at_. rewrite le_2. cbn [app nth Nat.add]. rewrite (word_back _ T). reflexivity.
Qed.
Lemma starts_sent handle (log : list (data_operation V * @data_report V E)) :
  Forall (typed_data_operation F V) (map fst log) ->
  filter (fun w => is_start w && on handle w)%bool (put_out V log)
  = map (fun q => as_packet V (CLeStartEncryption q)) (start_calls handle log)
  /\ Forall (fun q => arguments_typed F (@CLeStartEncryption V q)) (start_calls handle log).
Proof.
  induction log as [|[o r] log IH]; intros H; [split; constructor|]. cbn [map fst] in H. inversion H as [|? ? H1 H2]; subst.
  destruct (IH H2) as [I1 I2]. unfold put_out, start_calls. cbn [flat_map].
  fold (put_out V log). fold (start_calls handle log). rewrite filter_app, map_app, I1.
  destruct o as [c|w|].
  - destruct r as [r|[u|e|]|a]; try (destruct c; now split). destruct (succeeded r) eqn:Sr.
    2:{ destruct c; now split. }
    cbn [filter]. change (1, link_bytes c) with (as_packet V c). rewrite (start_commands c handle H1).
    destruct c; try (now split). cbn [andb]. destruct (enc_conn_handle _ =? handle); [|now split].
    split; [reflexivity|]. constructor; assumption.
  - destruct r as [r|[u|e|]|a]; try (now split). split; [|exact I2].
    cbn [filter]. destruct H1 as (a & b & data & _ & _ & _ & [[-> _]|[-> _]]); reflexivity.
  - destruct r as [r|[u|e|]|a]; now split.
Qed.
Lemma central_start os s d handle : Forall (typed_data_operation F V) os -> possible h s ->
  Forall outgoing_packet (taken d) ->
  let (s', log) := data_session F V C os s in
  (exists rest, written h s' = written h s ++ flat_map wire_bytes (taken d) ++ rest) ->
  Forall (fun q => arguments_typed F (@CLeStartEncryption V q)) (start_calls handle log)
  /\ exists more, map (fun q => as_packet V (CLeStartEncryption q)) (start_calls handle log) = starts handle d ++ more.
Proof.
  intros Ho Hs T1. pose proof (data_session_spec F V C h HC os s Ho Hs) as K.
  destruct (data_session F V C os s) as [s' log]. destruct K as (Hos & (out & W & P) & _).
  intros (r1 & W1). rewrite W in W1. apply app_inv_head in W1. subst out.
  assert (T : Forall self_delimiting (taken d)).
  { eapply Forall_impl; [|exact T1]. intros w. apply outgoing_delimited. }
  destruct (parse_start _ T _ _ _ P) as [more M].
  rewrite <- Hos in Ho. destruct (starts_sent handle log Ho) as [A1 A2]. split; [exact A2|].
  rewrite <- A1, M, filter_app. now eexists.
Qed.
End Central.

(** ** Both *)
Lemma request_length F (V : vendor) (w : N * list N) : (fst w = 0x04 -> conforming_packet F (snd w)) -> is_key_request w = true ->
  exists hb rb db, snd w = [0x3E; 13; 0x05] ++ hb ++ rb ++ db /\ length hb = 2%nat /\ length rb = 8%nat /\ length db = 2%nat.
Proof.
  intros Hc H. pose proof H as H0. unfold is_key_request in H. apply andb_prop in H. destruct H as [H H3]. apply andb_prop in H.
  destruct H as [H1 H2]. apply N.eqb_eq in H1, H2, H3. specialize (Hc H1).
  assert (Ex : exists ev, event_new F V (snd w) = Ok ev).
  { destruct (event_new F V (snd w)) as [ev|e|] eqn:En; [now exists ev| |]; exfalso.
    - assert (Q : is_key_request (0x04, snd w) = false) by (apply (request_refused F V); [exact Hc|congruence]).
      destruct w as [t p]. cbn [fst snd] in *. subst t. congruence.
    - assert (Q : is_key_request (0x04, snd w) = false) by (apply (request_refused F V); [exact Hc|congruence]).
      destruct w as [t p]. cbn [fst snd] in *. subst t. congruence. }
  destruct Ex as [ev En]. pose proof (packet_bytes F _ Hc) as Hb.
  assert (R : map (as_packet V) (key_call (fun _ _ _ => None) (V := V) ev) <> []).
  { rewrite (request_ok (fun _ _ _ => None) F V (snd w) ev); [|discriminate|exact Hb|exact En].
    destruct w as [t p]. cbn [fst snd] in *. subst t. rewrite H0. discriminate. }
  destruct ev; try (now contradiction R). destruct e as [hh r d].
  apply (le_ltk_request_packet F V _ hh r d Hb) in En. destruct En as (_ & _ & _ & ->).
  exists (le 2 hh), (le 8 r), (le 2 d). rewrite !le_length. auto.
Qed.

Lemma start_fields V (q : encryption_parameters) :
  number_and_diversifier (as_packet V (CLeStartEncryption q)) = le 8 (enc_random_number q) ++ le 2 (enc_encrypted_diversifier q)
  /\ skipn 15 (snd (as_packet V (CLeStartEncryption q))) = enc_long_term_key q.
Proof.
  unfold number_and_diversifier, as_packet, link_bytes. cbn [snd command_params]. rewrite !le_2, !le_8. split; reflexivity.
Qed.
Lemma map_nth_back {A B} (f : A -> B) l k y : nth_error (map f l) k = Some y -> exists x, nth_error l k = Some x /\ f x = y.
Proof.
  revert k. induction l as [|a l IH]; intros [|k] H; try discriminate.
  - injection H as <-. now exists a.
  - exact (IH k H).
Qed.

Lemma secured F V {St E} (C : controller St E) h os s d handle F' V' {St' E'} (C' : controller St' E') h' os' s' d' handle' :
  contract C h -> contract C' h' ->
  (forall c r e k, key_for c r e = Some k -> length k = 16%nat) ->
  Forall (typed_data_operation F V) os -> possible h s -> Forall outgoing_packet (taken d) ->
  Forall (typed_data_operation F' V') os' -> possible h' s' -> conforming_device F' d' ->
  over_the_air handle d handle' d' ->
  let (t, log) := data_session F V C os s in
  let (t', log') := data_session F' V' C' os' s' in
  (exists rest, written h t = written h s ++ flat_map wire_bytes (taken d) ++ rest) ->
  answers_keys key_for log' ->
  (exists rest, written h' t' = written h' s' ++ flat_map wire_bytes (taken d') ++ rest) ->
  (exists rest, flat_map wire_bytes (sent_by d') = pending h' s' t' ++ rest) ->
  forall k reply, nth_error (replies handle' d') k = Some reply ->
  exists start q, nth_error (starts handle d) k = Some start /\ nth_error (start_calls handle log) k = Some q
  /\ (same_key start reply
      <-> key_for handle' (enc_random_number q) (enc_encrypted_diversifier q) = Some (enc_long_term_key q)).
Proof.
  intros HC HC' HK Ho Hs T Ho' Hs' D' [air A].
  pose proof (central_start F V C h HC os s d handle Ho Hs T) as K1.
  pose proof (keys_answered key_for F' V' C' h' HC' os' s' d' HK Ho' Hs' D') as K2.
  destruct (data_session F V C os s) as [t log]. destruct (data_session F' V' C' os' s') as [t' log'].
  intros W HA W' R'. destruct (K1 W) as [TY [more M]]. destruct (K2 HA W' R') as [[later L] _]. clear K1 K2.
  intros k reply Hr.
  destruct D' as [_ D'].
  assert (Q : Forall (fun w => is_key_request w = true -> (5 <= length (snd w))%nat) (sent_by d')).
  { eapply Forall_impl; [|exact D']. intros w [_ Hc] Hw.
    destruct (request_length F' V' w Hc Hw) as (hb & rb & db & -> & L1 & L2 & L3). rewrite !app_length, L1. cbn. lia. }
  apply (f_equal (filter (on handle'))) in L. rewrite (replies_on _ _ Q), filter_app, filter_both in L.
  fold (requests handle' d') in L. fold (replies handle' d') in L.
  assert (H1 : nth_error (map (key_reply key_for) (requests handle' d')) k = Some reply).
  { rewrite L. now apply nth_prefix. }
  apply map_nth_back in H1. destruct H1 as (req & H1 & <-).
  assert (H2 : nth_error (map number_and_diversifier (starts handle d)) k = Some (number_and_diversifier req)).
  { rewrite A. apply nth_prefix. now apply map_nth_error. }
  apply map_nth_back in H2. destruct H2 as (start & H2 & E2).
  assert (H3 : nth_error (map (fun q => as_packet V (CLeStartEncryption q)) (start_calls handle log)) k = Some start).
  { rewrite M. now apply nth_prefix. }
  apply map_nth_back in H3. destruct H3 as (q & H3 & <-).
  exists (as_packet V (CLeStartEncryption q)), q. split; [exact H2|]. split; [exact H3|].
  destruct (start_fields V q) as [S1 S2]. rewrite S1 in E2. unfold same_key. rewrite S2.
  assert (Tq : arguments_typed F (@CLeStartEncryption V q)).
  { apply (proj1 (Forall_forall _ _) TY). now apply (nth_error_In _ k). }
  destruct Tq as (_ & Tr & Td & Tk & _).
  assert (I : In req (requests handle' d')) by now apply (nth_error_In _ k).
  unfold requests in I. apply filter_In in I. destruct I as [I B]. apply andb_prop in B. destruct B as [B1 B2].
  destruct (proj1 (Forall_forall _ _) D' req I) as [_ Hc].
  destruct (request_length F' V' req Hc B1) as (hb & rb & db & Er & L1 & L2 & L3).
  unfold number_and_diversifier in E2. unfold on in B2. apply N.eqb_eq in B2. rewrite <- u16_number in B2.
  2:{ rewrite Er, !app_length, L1. cbn. lia. }
  unfold key_reply. rewrite Er in *. clear Er.
  assert (X1 : firstn 2 (skipn 3 ([0x3E; 13; 0x05] ++ hb ++ rb ++ db)) = hb).
  { cbn [app skipn]. rewrite firstn_app, L1, firstn_all2 by lia. cbn [firstn Nat.sub]. apply app_nil_r. }
  assert (X2 : firstn 8 (skipn 5 ([0x3E; 13; 0x05] ++ hb ++ rb ++ db)) = rb).
  { destruct hb as [|a [|b [|]]]; try discriminate L1. cbn [app skipn]. rewrite firstn_app, L2, firstn_all2 by lia.
    cbn [firstn Nat.sub]. apply app_nil_r. }
  assert (X3 : firstn 2 (skipn 13 ([0x3E; 13; 0x05] ++ hb ++ rb ++ db)) = db).
  { destruct hb as [|a [|b [|]]]; try discriminate L1.
    change (firstn 2 (skipn 8 (rb ++ db)) = db). rewrite skipn_app, L2, skipn_all2 by lia. cbn [app Nat.sub skipn]. apply firstn_all2. lia. }
  assert (X4 : firstn 10 (skipn 5 ([0x3E; 13; 0x05] ++ hb ++ rb ++ db)) = rb ++ db).
  { destruct hb as [|a [|b [|]]]; try discriminate L1. cbn [app skipn]. apply firstn_all2. rewrite app_length. lia. }
  rewrite X4 in E2. rewrite X1 in B2.
  assert (E3 : rb = le 8 (enc_random_number q) /\ db = le 2 (enc_encrypted_diversifier q)).
  { apply app_inv_len; [rewrite le_length; exact L2|now symmetry]. }
  destruct E3 as [-> ->].
  cbv zeta. rewrite X1, X2, X3. rewrite B2, (u64_number _ Tr), (number_le_le 2 _ Td).
  destruct (key_for handle' (enc_random_number q) (enc_encrypted_diversifier q)) as [key|] eqn:Kf; cbn [snd].
  - destruct hb as [|a [|b [|]]]; try discriminate L1. cbn [app skipn]. split.
    + intros [_ ->]. reflexivity.
    + intros H. injection H as ->. split; reflexivity.
  - split; [intros [H _]; discriminate H|discriminate].
Qed.
End Secure.
