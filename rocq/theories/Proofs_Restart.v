(** * Programs that are started after others were stopped (proofs). *)
From Coq Require Import Lia.
From Verif Require Import Base Model_Types Model_Intervals Model_EventBase Model_Command Model_Event Model_Host
  Spec_Wire Spec_Errors Spec_Report Spec_Host Spec_Link Spec_Split Spec_Conform Spec_Follow Spec_Credit Spec_Facts Spec_Data Spec_Window Spec_Turns
  Spec_Own Spec_Apart Spec_Crash Spec_Restart
  Proofs_Base Proofs_Event Proofs_Report Proofs_Panic Proofs_Complete Proofs_Command Proofs_Link Proofs_Conform Proofs_Follow Proofs_Credit
  Proofs_Facts Proofs_Data Proofs_Window Proofs_Turns Proofs_Own Proofs_Apart Proofs_Loop Proofs_Crash.
Open Scope list_scope.
Open Scope N_scope.

Lemma commands_wire V (cs : list (command V)) : flat_map command_bytes cs = flat_map wire_bytes (map command_wire cs).
Proof.
  induction cs as [|c cs IH]; [reflexivity|]. cbn [flat_map map]. rewrite IH, (Proofs_Split.command_bytes_link c). reflexivity.
Qed.
Lemma frames_wire ps : flat_map uart_frame ps = flat_map wire_bytes (map event_wire ps).
Proof. induction ps as [|p ps IH]; [reflexivity|]. cbn [flat_map map]. now rewrite IH. Qed.
Lemma events_in_wire ps : events_in (map event_wire ps) = ps.
Proof. unfold events_in. induction ps as [|p ps IH]; [reflexivity|]. cbn [map filter event_wire fst]. change (4 =? 4) with true. cbn [map snd event_wire]. f_equal. exact IH. Qed.
Lemma replies_wire op ps : filter (reply_with op) (map event_wire ps) = map event_wire (filter (reply_of op) ps).
Proof. rewrite own_replies, events_in_wire. reflexivity. Qed.
Lemma wires_delimited F V (cs : list (command V)) : Forall (good F) cs -> Forall self_delimiting (map command_wire cs).
Proof.
  induction 1 as [|c cs [HA HR] _ IH]; [constructor|]. cbn [map]. constructor; [|exact IH].
  exact (order_delimited F V c HA HR).
Qed.
Lemma packets_delimited ps : Forall event_packet ps -> Forall self_delimiting (map event_wire ps).
Proof.
  induction 1 as [|p ps Hp _ IH]; [constructor|]. cbn [map]. constructor; [|exact IH].
  apply incoming_delimited. left. now split.
Qed.
Lemma taken_start V (cs : list (command V)) (d : list device_step) rest :
  Forall self_delimiting (map command_wire cs) -> Forall self_delimiting (taken d) ->
  flat_map wire_bytes (map command_wire cs) = flat_map wire_bytes (taken d) ++ rest ->
  exists more, map command_wire cs = taken d ++ more.
Proof. intros H1 H2 H. destruct (stream_start _ H2 _ _ H1 H) as (m & M & _). now exists m. Qed.
Lemma skipn_nth {A} n : forall (l : list A) k, nth_error (skipn n l) k = nth_error l (n + k).
Proof. induction n as [|n IH]; intros [|x l] k; cbn; [reflexivity|reflexivity|now destruct k|apply IH]. Qed.

Section Restart.
Context (F : features) (V : vendor) {St E : Type} (C : controller St E) (h : history St) (HC : contract C h).

Lemma reached_streams s s' (cs : list (command V)) ps d : Forall (good F) cs -> Forall event_packet ps -> orderly F d ->
  exchanged h s s' (flat_map command_bytes cs) (flat_map uart_frame ps) -> reached h s s' d ->
  (exists more, map command_wire cs = taken d ++ more) /\ (exists more, sent_by d = map event_wire ps ++ more).
Proof.
  intros Hc Hp Hd (_ & _ & (x & X) & _ & W) ((o1 & O1) & (o2 & O2)). destruct (orderly_packets F d Hd) as [D1 _]. split.
  - rewrite O1 in W. apply app_inv_head in W. rewrite commands_wire in W.
    eapply taken_start; [exact (wires_delimited F V cs Hc)| |symmetry; exact W].
    eapply Forall_impl; [|exact (proj1 Hd)]. intros w. apply outgoing_delimited.
  - rewrite X, <- app_assoc, frames_wire in O2.
    destruct (stream_start _ (packets_delimited ps Hp) (sent_by d) (x ++ o2)) as (m & M & _); [|exact O2|now exists m].
    eapply Forall_impl; [|exact D1]. intros w. apply incoming_delimited.
Qed.

Lemma received_events (log : list (operation V * report V E)) ps : Forall event_packet ps ->
  received_packets log = map (uart_result F V) ps -> events_read log = flat_map (one F V) ps.
Proof.
  intros _. unfold events_read.
  assert (G : flat_map (fun x : operation V * report V E => match x with (_, Received (Ok (PEvent ev))) => [ev] | _ => [] end) log
    = flat_map (fun r => match r with Ok (PEvent ev) => [ev] | _ => [] end) (received_packets log)).
  { unfold received_packets. induction log as [|[o r] log IH]; [reflexivity|]. cbn [flat_map]. rewrite IH, flat_map_app. f_equal.
    destruct r as [r|r]; [destruct o; reflexivity|]. destruct r as [[ev]|[[t|x|x]|]|]; destruct o; reflexivity. }
  rewrite G. intros ->. induction ps as [|p ps IH]; [reflexivity|]. cbn [map flat_map]. rewrite IH. f_equal.
  unfold uart_result, one. now destruct (event_new F V p).
Qed.

Lemma orderly_start d d1 : orderly F (d ++ d1) -> orderly F d.
Proof.
  induction d1 as [|x l IH] using rev_ind; [now rewrite app_nil_r|]. rewrite app_assoc. intros H.
  apply IH. exact (orderly_before F _ _ H).
Qed.
Lemma restart_core (cs cs2 : list (command V)) ps qs d d1 m1 m2 m3 m4 (c : command V) : orderly F (d ++ d1) ->
  Forall (fun w => reserved_address_commands (snd w) = false) (sent_by (d ++ d1)) ->
  map command_wire cs = taken d ++ m1 -> sent_by d = map event_wire ps ++ m2 ->
  map command_wire (cs ++ cs2) = taken (d ++ d1) ++ m3 -> sent_by (d ++ d1) = map event_wire (ps ++ qs) ++ m4 ->
  forall k ev, nth_error (filter (answer_to (command_opcode c)) (flat_map (one F V) qs)) k = Some ev ->
     exists pkt cmd, event_new F V pkt = Ok ev
     /\ nth_error (unanswered (command_opcode c) cs ps
                  ++ filter (command_with (command_opcode c)) (map command_wire cs2)) k = Some cmd
     /\ exists n, nth_error (filter (reply_with (command_opcode c)) (sent_by (d ++ d1))) n = Some (0x04, pkt)
        /\ nth_error (filter (command_with (command_opcode c)) (taken (d ++ d1))) n = Some cmd.
Proof.
  intros Hd Hr M1 M2 M3 M4. destruct (own_opcode c) as [Z NV]. set (op := command_opcode c) in *. clearbody op.
  pose proof (orderly_start d d1 Hd) as Hd0.
  destruct (orderly_packets F _ Hd) as [_ D2].
  assert (Hev : events_in (sent_by (d ++ d1)) = ps ++ qs ++ events_in m4).
  { rewrite M4, events_in_app, events_in_wire. now rewrite <- app_assoc. }
  assert (Dq : Forall (conforming_packet F) qs).
  { rewrite Hev in D2. apply Forall_app in D2. destruct D2 as [_ D2]. apply Forall_app in D2. apply D2. }
  assert (Rq : Forall (fun p => reserved_address_commands p = false) qs).
  { rewrite M4, map_app in Hr. apply Forall_app in Hr. destruct Hr as [Hr _]. apply Forall_app in Hr. destruct Hr as [_ Hr].
    clear -Hr. induction qs as [|q qs IH]; [constructor|]. inversion Hr; subst. constructor; [assumption|now apply IH]. }
  pose proof (own_answers F V op qs Z NV Dq Rq) as A.
  intros k ev Hk. 
  destruct (nth_both _ _ _ A k ev Hk) as (pkt & K1 & K2).
  set (n := length (filter (reply_with op) (map event_wire ps))).
  assert (B1 : (n <= length (filter (command_with op) (map command_wire cs)))%nat).
  { pose proof (orderly_bound F op d Z Hd0) as B. unfold how_many in B. rewrite M2, filter_app, app_length in B.
    rewrite M1, filter_app, app_length. unfold n. lia. }
  assert (P : nth_error (filter (reply_with op) (sent_by (d ++ d1))) (n + k) = Some (0x04, pkt)).
  { rewrite M4, map_app, !filter_app. apply nth_prefix. rewrite nth_error_app2 by (unfold n; lia).
    replace (n + k - _)%nat with k by (unfold n; lia). rewrite replies_wire. exact (map_nth_error event_wire _ _ K1). }
  assert (B2 : (n + k < length (filter (command_with op) (taken (d ++ d1))))%nat).
  { pose proof (orderly_bound F op _ Z Hd) as B. unfold how_many in B.
    assert (n + k < length (filter (reply_with op) (sent_by (d ++ d1))))%nat by (apply nth_error_Some; congruence). lia. }
  destruct (nth_error (filter (command_with op) (taken (d ++ d1))) (n + k)) as [cmd|] eqn:Hc.
  2:{ apply nth_error_None in Hc. lia. }
  exists pkt, cmd. split; [exact K2|]. split; [|exists (n + k)%nat; now split].
  assert (T : nth_error (filter (command_with op) (map command_wire (cs ++ cs2))) (n + k) = Some cmd).
  { rewrite M3, filter_app. now apply nth_prefix. }
  rewrite <- T, map_app, filter_app. unfold unanswered. fold n.
  rewrite <- skipn_nth, skipn_app. replace (n - _)%nat with 0%nat by lia. reflexivity.
Qed.

Lemma restart_answers s logs y os d d1 (c : command V) : possible h s -> lives F V C h s logs y ->
  Forall (typed_operation F) os -> orderly F (d ++ d1) ->
  Forall (fun w => reserved_address_commands (snd w) = false) (sent_by (d ++ d1)) -> reached h s y d ->
  let (s', log) := session F V C os y in reached h s s' (d ++ d1) ->
  exists ends, map fst ends = logs /\ Forall (ended F) ends
  /\ exchanged h s y (flat_map command_bytes (flat_map all_sent ends))
       (flat_map uart_frame (flat_map (fun x => packets_taken (snd x)) ends))
  /\ forall k ev, nth_error (filter (answer_to (command_opcode c)) (events_read log)) k = Some ev ->
     exists pkt cmd, event_new F V pkt = Ok ev
     /\ nth_error (unanswered (command_opcode c) (flat_map all_sent ends) (flat_map (fun x => packets_taken (snd x)) ends)
                  ++ filter (command_with (command_opcode c)) (map command_wire (sent_commands log))) k = Some cmd
     /\ exists n, nth_error (filter (reply_with (command_opcode c)) (sent_by (d ++ d1))) n = Some (0x04, pkt)
        /\ nth_error (filter (command_with (command_opcode c)) (taken (d ++ d1))) n = Some cmd.
Proof.
  intros Hs HL Ho Hd Hr R1.
  destruct (lives_good F V C h HC s logs y Hs HL) as (ends & G1 & G2 & G3 & G4 & G5).
  destruct (session F V C os y) as [s' log] eqn:Q. intros R2.
  exists ends. split; [exact G1|]. split; [exact G2|]. split; [exact G5|].
  destruct (session_end F V C h HC os Ho y s' log (proj1 G5) Q) as (S1 & qs & S2 & S3 & S4).
  destruct (reached_streams _ _ _ _ d G4 G3 (orderly_start d d1 Hd) G5 R1) as ((m1 & M1) & (m2 & M2)).
  pose proof (exchanged_then C h HC _ _ _ _ _ _ _ G5 S4) as X. rewrite <- !(flat_map_app command_bytes), <- !(flat_map_app uart_frame) in X.
  destruct (reached_streams _ _ _ _ (d ++ d1) (proj2 (Forall_app _ _ _) (conj G4 S1)) (proj2 (Forall_app _ _ _) (conj G3 S2)) Hd X R2)
    as ((m3 & M3) & (m4 & M4)).
  rewrite (received_events log qs S2 S3). exact (restart_core _ _ _ _ _ _ _ _ _ _ c Hd Hr M1 M2 M3 M4).
Qed.

Lemma links_reached_streams s s' (cs : list (command V)) ps d : Forall event_packet ps -> orderly F d -> apart d ->
  exchanged h s s' (flat_map link_bytes cs) (concat ps) -> links_reached h s s' d ->
  (exists more, map command_wire cs = taken d ++ more) /\ (exists more, sent_by d = map event_wire ps ++ more).
Proof.
  intros Hp Hd [A1 A2] (_ & _ & (x & X) & _ & W) ((o1 & O1) & (o2 & O2)). destruct (orderly_packets F d Hd) as [D1 _]. split.
  - rewrite O1 in W. apply app_inv_head in W. exact (commands_start _ (proj1 Hd) A1 cs o1 (eq_sym W)).
  - rewrite X, <- app_assoc, (bare_events _ A2) in O2.
    assert (HE : Forall event_packet (events_in (sent_by d)) /\ map event_wire (events_in (sent_by d)) = sent_by d).
    { clear -D1 A2. induction (sent_by d) as [|[t p] ws IH]; [split; [constructor|reflexivity]|].
      inversion D1 as [|? ? I1 I2]; subst. inversion A2 as [|? ? B1 B2]; subst. cbn [fst] in B1. subst t.
      destruct (IH B2 I2) as [J1 J2].
      change (events_in ((0x04, p) :: ws)) with (p :: events_in ws). split; [|cbn [map]; now rewrite J2].
      constructor; [|exact J1]. destruct I1 as [[_ I1]|(a & b & data & _ & _ & _ & [[I1 _]|[I1 _]])]; [exact I1|discriminate I1|discriminate I1]. }
    destruct HE as [H1 H2]. destruct (packets_start ps Hp _ _ H1 O2) as (m & M & _).
    exists (map event_wire m). now rewrite <- H2, M, map_app.
Qed.

Lemma split_received_events (log : list (operation V * split_report V E)) ps :
  split_received log = map (link_result F V) ps -> split_events_read log = flat_map (one F V) ps.
Proof.
  unfold split_events_read.
  assert (G : flat_map (fun x : operation V * split_report V E => match x with (_, SplitReceived (Ok ev)) => [ev] | _ => [] end) log
    = flat_map (fun r => match r with Ok ev => [ev] | _ => [] end) (split_received log)).
  { unfold split_received. induction log as [|[o r] log IH]; [reflexivity|]. cbn [flat_map]. rewrite IH, flat_map_app. f_equal.
    destruct r as [r|r]; [destruct o; reflexivity|]. destruct r as [ev|[[x|x]|]|]; destruct o; reflexivity. }
  rewrite G. intros ->. induction ps as [|p ps IH]; [reflexivity|]. cbn [map flat_map]. rewrite IH. f_equal.
  unfold link_result, one. now destruct (event_new F V p).
Qed.

Lemma split_restart_answers s logs y os d d1 (c : command V) : possible h s -> split_lives F V C h s logs y ->
  Forall (typed_operation F) os -> orderly F (d ++ d1) -> apart (d ++ d1) ->
  Forall (fun w => reserved_address_commands (snd w) = false) (sent_by (d ++ d1)) -> links_reached h s y d ->
  let (s', log) := split_session F V C os y in links_reached h s s' (d ++ d1) ->
  exists ends, map fst ends = logs /\ Forall (split_ended F) ends
  /\ exchanged h s y (flat_map link_bytes (flat_map split_all_sent ends))
       (concat (flat_map (fun x => packets_taken (snd x)) ends))
  /\ forall k ev, nth_error (filter (answer_to (command_opcode c)) (split_events_read log)) k = Some ev ->
     exists pkt cmd, event_new F V pkt = Ok ev
     /\ nth_error (unanswered (command_opcode c) (flat_map split_all_sent ends) (flat_map (fun x => packets_taken (snd x)) ends)
                  ++ filter (command_with (command_opcode c)) (map command_wire (split_sent log))) k = Some cmd
     /\ exists n, nth_error (filter (reply_with (command_opcode c)) (sent_by (d ++ d1))) n = Some (0x04, pkt)
        /\ nth_error (filter (command_with (command_opcode c)) (taken (d ++ d1))) n = Some cmd.
Proof.
  intros Hs HL Ho Hd Ha Hr R1.
  destruct (split_lives_good F V C h HC s logs y Hs HL) as (ends & G1 & G2 & G3 & G4 & G5).
  destruct (split_session F V C os y) as [s' log] eqn:Q. intros R2.
  exists ends. split; [exact G1|]. split; [exact G2|]. split; [exact G5|].
  destruct (split_session_end F V C h HC os Ho y s' log (proj1 G5) Q) as (S1 & qs & S2 & S3 & S4).
  destruct (links_reached_streams _ _ _ _ d G3 (orderly_start d d1 Hd) (proj1 (apart_app _ _ Ha)) G5 R1) as ((m1 & M1) & (m2 & M2)).
  pose proof (exchanged_then C h HC _ _ _ _ _ _ _ G5 S4) as X. rewrite <- (flat_map_app link_bytes), <- concat_app in X.
  destruct (links_reached_streams _ _ _ _ (d ++ d1) (proj2 (Forall_app _ _ _) (conj G3 S2)) Hd Ha X R2)
    as ((m3 & M3) & (m4 & M4)).
  rewrite (split_received_events log qs S3). exact (restart_core _ _ _ _ _ _ _ _ _ _ c Hd Hr M1 M2 M3 M4).
Qed.
End Restart.
