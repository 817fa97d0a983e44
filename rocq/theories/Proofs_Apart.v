(** * Several commands at a time over separate links (proofs). *)
From Coq Require Import Lia.
From Verif Require Import Base Model_Types Model_Intervals Model_EventBase Model_Command Model_Event Model_Host
  Spec_Wire Spec_Errors Spec_Report Spec_Host Spec_Link Spec_Split Spec_Conform Spec_Follow Spec_Credit Spec_Facts Spec_Data Spec_Window Spec_Turns
  Spec_Own Spec_Apart
  Proofs_Base Proofs_Event Proofs_Report Proofs_Panic Proofs_Complete Proofs_Command Proofs_Link Proofs_Streams Proofs_Split Proofs_Conform Proofs_Follow Proofs_Credit
  Proofs_Facts Proofs_Data Proofs_Window Proofs_Turns Proofs_Own.
Open Scope list_scope.
Open Scope N_scope.

(** ** Streams *)
Lemma apart_app d e : apart (d ++ e) -> apart d /\ apart e.
Proof.
  unfold apart. rewrite taken_app, sent_by_app, !Forall_app. tauto.
Qed.
Lemma bare_events ws : Forall (fun w : N * list N => fst w = 0x04) ws -> flat_map bare_bytes ws = concat (events_in ws).
Proof.
  induction 1 as [|w ws H _ IH]; [reflexivity|]. cbn [flat_map]. rewrite IH. unfold events_in at 2. cbn [filter].
  rewrite H. reflexivity.
Qed.
Lemma commands_start {V} vs : Forall outgoing_packet vs -> Forall (fun w => fst w = 0x01) vs ->
  forall (cs : list (command V)) rest, flat_map link_bytes cs = flat_map bare_bytes vs ++ rest ->
  exists more, map (fun c => (0x01, link_bytes c)) cs = vs ++ more.
Proof.
  induction vs as [|v vs IH]; intros Ho Ht cs rest H; [now eexists|].
  inversion Ho as [|? ? O1 O2]; subst. inversion Ht as [|? ? T1 T2]; subst.
  destruct O1 as [(a & b & data & _ & _ & _ & [[-> _]|[-> _]])|(a & b & params & -> & _)]; try discriminate T1.
  cbn [flat_map] in H. unfold bare_bytes at 1 in H. cbn [snd app] in H.
  destruct cs as [|c cs]; [discriminate H|]. cbn [flat_map] in H. unfold link_bytes at 1 in H. rewrite le_2 in H.
  rewrite <- !app_assoc in H. cbn [app] in H. injection H as Ha Hb L H. apply Nat2N.inj in L.
  destruct (app_inv_len _ _ _ _ L H) as [P H']. destruct (IH O2 T2 cs rest H') as [more M].
  exists more. cbn [map app]. rewrite M. do 2 f_equal. unfold link_bytes. rewrite le_2. cbn [app].
  now rewrite Ha, Hb, L, P.
Qed.
Lemma packets_start ps : Forall event_packet ps -> forall qs rest, Forall event_packet qs ->
  concat qs = concat ps ++ rest -> exists more, qs = ps ++ more /\ rest = concat more.
Proof.
  induction 1 as [|p ps Hp _ IH]; intros qs rest Hq H; cbn [concat app] in *.
  - exists qs. now rewrite H.
  - destruct Hp as (c & a & -> & _ & _ & La). destruct Hq as [|q qs (d & b & -> & _ & _ & Lb) Hq]; [discriminate|].
    cbn [concat] in H. rewrite <- app_assoc in H. apply framed_split in H; [|assumption|assumption].
    destruct H as [E H]. destruct (IH qs rest Hq H) as (more & -> & ->). exists more. now rewrite E.
Qed.

Section Apart.
Context (F : features) (V : vendor) {St E : Type} (C : controller St E) (h : history St) (HC : contract C h).

Lemma links_out_at (log : list (operation V * split_report V E)) : forall ws (w : N * list N) more,
  links_out log = ws ++ w :: more ->
  exists l1 c r l2, log = l1 ++ (Send c, r) :: l2 /\ links_out l1 = ws.
Proof.
  induction log as [|x log IH]; intros ws w more H; [now destruct ws|].
  change (x :: log) with ([x] ++ log) in H. unfold links_out, split_sent in H. rewrite flat_map_app, map_app in H.
  change (links_out [x] ++ links_out log = ws ++ w :: more) in H.
  assert (A : forall l, links_out (x :: l) = links_out [x] ++ links_out l).
  { intros l. unfold links_out, split_sent. change (x :: l) with ([x] ++ l). now rewrite flat_map_app, map_app. }
  assert (O : links_out [x] = [] \/ exists c r v, x = (Send c, r) /\ links_out [x] = [v]).
  { unfold links_out, split_sent. cbn [flat_map]. rewrite app_nil_r.
    destruct x as [[c|] [r|r]]; try (now left). destruct (succeeded r); [right; now eexists _, _, _|now left]. }
  destruct O as [O|(c & r & v & X & O)]; rewrite O in H; cbn [app] in H.
  - destruct (IH _ _ _ H) as (l1 & c & r & l2 & -> & P). exists (x :: l1), c, r, l2. split; [reflexivity|].
    now rewrite A, O, P.
  - destruct ws as [|v' ws]; cbn [app] in H.
    + exists [], c, r, log. split; [now rewrite X|reflexivity].
    + injection H as -> H. destruct (IH _ _ _ H) as (l1 & c' & r' & l2 & -> & P). exists (x :: l1), c', r', l2.
      split; [reflexivity|]. now rewrite A, O, P.
Qed.

Lemma both_links os s d : Forall (typed_operation F) os -> possible h s -> apart d ->
  Forall outgoing_packet (taken d) -> Forall incoming_packet (sent_by d) ->
  let (s', log) := split_session F V C os s in
  (exists rest, written h s' = written h s ++ flat_map bare_bytes (taken d) ++ rest) ->
  (exists rest, flat_map bare_bytes (sent_by d) = pending h s s' ++ rest) ->
  (exists more, links_out log = taken d ++ more)
  /\ exists ps more, events_in (sent_by d) = ps ++ more /\ split_events_read log = flat_map (one F V) ps
     /\ (written h s' = written h s ++ flat_map bare_bytes (taken d) -> links_out log = taken d)
     /\ (consumed h s' = (consumed h s + length (flat_map bare_bytes (sent_by d)))%nat -> more = []).
Proof.
  intros Ho Hs [A1 A2] T1 D1. pose proof (split_session_spec F V C h HC os s Ho Hs) as K.
  destruct (split_session F V C os s) as [s' log].
  destruct K as (_ & W & _ & ps & Hps & (rest & Hp) & Hc & G).
  intros (r1 & W1) (r2 & W2). rewrite W in W1. apply app_inv_head in W1.
  destruct (commands_start _ T1 A1 _ _ W1) as [more M]. split; [exists more; exact M|].
  rewrite (bare_events _ A2) in *. rewrite Hp, <- app_assoc in W2.
  assert (Hq : Forall event_packet (events_in (sent_by d))).
  { apply Forall_forall. intros p I. unfold events_in in I. apply in_map_iff in I. destruct I as (w & <- & I).
    apply filter_In in I. destruct I as [I Ht]. apply N.eqb_eq in Ht.
    pose proof (proj1 (Forall_forall _ _) D1 w I) as Q. destruct Q as [[_ Q]|Q]; [exact Q|].
    destruct Q as (a & b & data & _ & _ & _ & [[-> _]|[-> _]]); discriminate Ht. }
  destruct (packets_start ps Hps _ _ Hq W2) as (m & M1 & M2).
  exists ps, m. split; [exact M1|]. split; [now apply split_events|]. split.
  - intros W'. rewrite W' in W. apply app_inv_head in W. rewrite <- W in W1.
    assert (r1 = []) as ->.
    { apply (f_equal (@length N)) in W1. rewrite app_length in W1. destruct r1; [reflexivity|cbn in W1; lia]. }
    assert (B : flat_map bare_bytes more = []).
    { apply (f_equal (flat_map bare_bytes)) in M. rewrite flat_map_app in M.
      assert (X : forall cs : list (command V), flat_map bare_bytes (map (fun c => (0x01, link_bytes c)) cs) = flat_map link_bytes cs).
      { induction cs as [|c cs IH]; [reflexivity|]. cbn [map flat_map]. now rewrite IH. }
      rewrite X, <- W in M. apply (f_equal (@length N)) in M. rewrite app_length in M.
      destruct (flat_map bare_bytes more); [reflexivity|cbn in M; lia]. }
    unfold links_out. rewrite M. destruct more as [|w more]; [apply app_nil_r|].
    exfalso. assert (I : In w (map (fun c => (0x01, link_bytes c)) (split_sent log))).
    { rewrite M. apply in_or_app. right. now left. }
    apply in_map_iff in I. destruct I as (c & <- & _). cbn [flat_map] in B. unfold bare_bytes at 1 in B. cbn [snd] in B.
    unfold link_bytes in B. rewrite le_2 in B. discriminate B.
  - intros Hc'. rewrite M1, concat_app, app_length in Hc'. destruct m as [|p m]; [reflexivity|].
    rewrite M1 in Hq. apply Forall_app in Hq. destruct Hq as [_ Hq]. inversion Hq as [|? ? (c & a & -> & _) _]; subst.
    cbn [concat] in Hc'. unfold framed in Hc'. rewrite !app_length in Hc'. cbn [length] in Hc'. lia.
Qed.

Lemma commands_counted log : split_commands (V := V) (E := E) log = how_many is_command (links_out log).
Proof.
  unfold split_commands, how_many, links_out. induction (split_sent log) as [|c cs IH]; [reflexivity|].
  cbn [map filter]. change (is_command (0x01, link_bytes c)) with true. cbn [length]. lia.
Qed.
Lemma split_read_app (a b : list (operation V * split_report V E)) :
  split_events_read (a ++ b) = split_events_read a ++ split_events_read b.
Proof. apply flat_map_app. Qed.

Lemma split_never_early os s d w : Forall (typed_operation F) os -> possible h s ->
  fair F (d ++ [Takes w]) -> apart (d ++ [Takes w]) ->
  let (s', log) := split_session F V C os s in
  split_patient log ->
  (exists rest, written h s' = written h s ++ flat_map bare_bytes (taken (d ++ [Takes w])) ++ rest) ->
  (exists rest, flat_map bare_bytes (sent_by d) = pending h s s' ++ rest) ->
  0 < allowed d.
Proof.
  intros Ho Hs Hd Ha. pose proof (both_links os s _ Ho Hs Ha (proj1 Hd) (proj1 (fair_packets F _ Hd))) as K.
  destruct (split_session F V C os s) as [s' log]. intros Hpat W R.
  rewrite sent_by_app in K. cbn [sent_by flat_map] in K. rewrite app_nil_r in K.
  destruct (K W R) as ((more & P) & ps & later & Hps & Hev & _). clear K.
  rewrite taken_app, <- app_assoc in P. cbn [taken flat_map app] in P.
  destruct (links_out_at log _ _ _ P) as (l1 & c & r & l2 & -> & P1).
  specialize (Hpat l1 c r l2 eq_refl).
  rewrite split_read_app in Hev. symmetry in Hev. destruct (read_before F V ps _ _ Hev) as (ps1 & ps2 & -> & E1).
  rewrite <- app_assoc in Hps. destruct (sent_until d _ _ Hps) as (d1 & d2 & -> & E2).
  pose proof (fair_before F _ _ Hd) as Hd'.
  pose proof (allowed_read F V d1 (fair_before F _ _ Hd')) as A1. rewrite E2, <- E1 in A1.
  pose proof (allowed_later F d1 d2 Hd') as A2.
  rewrite commands_counted, P1 in Hpat. unfold split_answers, split_number in Hpat.
  unfold answers_in in A1. lia.
Qed.

Lemma split_turn_known os s d : Forall (typed_operation F) os -> possible h s -> fair F d -> apart d ->
  Forall (fun w => reserved_address_commands (snd w) = false) (sent_by d) ->
  let (s', log) := split_session F V C os s in
  written h s' = written h s ++ flat_map bare_bytes (taken d) ->
  pending h s s' = flat_map bare_bytes (sent_by d) ->
  consumed h s' = (consumed h s + length (flat_map bare_bytes (sent_by d)))%nat ->
  split_commands log - split_answers log = how_many is_command (taken d) - how_many is_reply (sent_by d)
  /\ (how_many is_reply (sent_by d) = how_many is_command (taken d) -> split_number log = allowed d).
Proof.
  intros Ho Hs Hd Ha Hr. pose proof (both_links os s d Ho Hs Ha (proj1 Hd) (proj1 (fair_packets F _ Hd))) as K.
  destruct (split_session F V C os s) as [s' log].
  intros W R Hcon. destruct K as (_ & ps & later & Hps & Hev & P & M).
  { exists []. now rewrite app_nil_r. }
  { exists []. now rewrite app_nil_r, R. }
  specialize (P W). specialize (M Hcon). subst later. rewrite app_nil_r in Hps.
  destruct (fair_packets F d Hd) as [_ D]. rewrite Hps in D.
  assert (Q : Forall (fun p => reserved_address_commands p = false) ps).
  { rewrite <- Hps. unfold events_in. apply Forall_forall. intros p I. apply in_map_iff in I. destruct I as (w & <- & I).
    apply filter_In in I. exact (proj1 (Forall_forall _ _) Hr w (proj1 I)). }
  unfold split_answers, split_number. rewrite commands_counted, P, Hev. fold (answers_in V (flat_map (one F V) ps)).
  rewrite (proj2 (answers_all F V ps D) Q). rewrite how_many_replies, Hps. split; [reflexivity|].
  intros A. rewrite (room_steps F V ps D).
  rewrite (allowed_exact F d Hd) by (now rewrite how_many_replies, Hps). rewrite Hps. f_equal.
  clear - Q. induction Q as [|p ps Hp _ IH]; [reflexivity|]. cbn [filter]. rewrite Hp. cbn [negb]. now rewrite IH.
Qed.

Lemma split_own_answer os s d (c : command V) : Forall (typed_operation F) os -> possible h s -> orderly F d -> apart d ->
  Forall (fun w => reserved_address_commands (snd w) = false) (sent_by d) ->
  let (s', log) := split_session F V C os s in
  (exists rest, written h s' = written h s ++ flat_map bare_bytes (taken d) ++ rest) ->
  (exists rest, flat_map bare_bytes (sent_by d) = pending h s s' ++ rest) ->
  (forall k ev, nth_error (filter (answer_to (command_opcode c)) (split_events_read log)) k = Some ev ->
     exists pkt cmd, nth_error (filter (reply_with (command_opcode c)) (sent_by d)) k = Some (0x04, pkt)
     /\ event_new F V pkt = Ok ev
     /\ nth_error (filter (command_with (command_opcode c)) (links_out log)) k = Some cmd
     /\ nth_error (filter (command_with (command_opcode c)) (taken d)) k = Some cmd)
  /\ (consumed h s' = (consumed h s + length (flat_map bare_bytes (sent_by d)))%nat ->
      length (filter (answer_to (command_opcode c)) (split_events_read log))
      = length (filter (reply_with (command_opcode c)) (sent_by d))).
Proof.
  intros Ho Hs Hd Ha Hr. destruct (own_opcode c) as [Z NV]. set (op := command_opcode c) in *. clearbody op.
  destruct (orderly_packets F d Hd) as [D1 D2].
  pose proof (both_links os s d Ho Hs Ha (proj1 Hd) D1) as K. destruct (split_session F V C os s) as [s' log].
  intros W R. destruct (K W R) as ((more & P) & ps & later & Hps & Hev & _ & M). clear K.
  assert (Q : Forall (fun p => reserved_address_commands p = false) ps).
  { apply Forall_forall. intros p I. assert (I' : In p (events_in (sent_by d))) by (rewrite Hps; apply in_or_app; now left).
    unfold events_in in I'. apply in_map_iff in I'. destruct I' as (w & <- & I').
    apply filter_In in I'. exact (proj1 (Forall_forall _ _) Hr w (proj1 I')). }
  rewrite Hps in D2. apply Forall_app in D2. destruct D2 as [D2 _].
  pose proof (own_answers F V op ps Z NV D2 Q) as A. rewrite Hev.
  assert (L : filter (reply_with op) (sent_by d)
    = map (pair 0x04) (filter (reply_of op) ps) ++ map (pair 0x04) (filter (reply_of op) later)).
  { now rewrite own_replies, Hps, filter_app, map_app. }
  split.
  - intros k ev H. destruct (nth_both _ _ _ A k ev H) as (pkt & H1 & H2).
    assert (H3 : nth_error (filter (reply_with op) (sent_by d)) k = Some (0x04, pkt)).
    { rewrite L. apply nth_prefix. now apply map_nth_error. }
    assert (B : (k < length (filter (command_with op) (taken d)))%nat).
    { pose proof (orderly_bound F op d Z Hd) as B. unfold how_many in B.
      assert (k < length (filter (reply_with op) (sent_by d)))%nat by (apply nth_error_Some; congruence). lia. }
    destruct (nth_error (filter (command_with op) (taken d)) k) as [cmd|] eqn:Hc.
    2:{ apply nth_error_None in Hc. lia. }
    exists pkt, cmd. split; [exact H3|]. split; [exact H2|]. split; [|reflexivity].
    rewrite P, filter_app. now apply nth_prefix.
  - intros Hcon. specialize (M Hcon). subst later. rewrite L. cbn [filter map]. rewrite app_nil_r, map_length.
    clear -A. induction A; cbn [length]; congruence.
Qed.
End Apart.
