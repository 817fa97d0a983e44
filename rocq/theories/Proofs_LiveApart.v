(** * Runs without an end over separate links (proofs). *)
From Coq Require Import Lia.
From Verif Require Import Base Model_Types Model_Intervals Model_EventBase Model_Command Model_Event Model_Host
  Spec_Wire Spec_Errors Spec_Report Spec_Host Spec_Link Spec_Split Spec_Conform Spec_Follow Spec_Credit Spec_Facts Spec_Data Spec_Window Spec_Turns
  Spec_Own Spec_Apart Spec_Live Spec_LiveOwn Spec_LiveApart Spec_Example
  Proofs_Base Proofs_Event Proofs_Report Proofs_Panic Proofs_Complete Proofs_Command Proofs_Link Proofs_Streams Proofs_Split Proofs_Conform Proofs_Follow Proofs_Credit
  Proofs_Facts Proofs_Data Proofs_Window Proofs_Turns Proofs_Own Proofs_Apart Proofs_Live Proofs_LiveOwn.
Open Scope list_scope.
Open Scope N_scope.

Section Links.
Context (F : features) (V : vendor) {St E : Type} (C : controller St E) (h : history St) (HP : prompt C h).
Context (calls : nat -> operation V) (states : nat -> St) (results : nat -> split_report V E).
Context (run : endless (split_perform F V C) calls states results) (typed : forall n, typed_operation F (calls n)) (start : possible h (states 0%nat)).
Context (d : nat -> list device_step) (con : links_connected h states d).
Let HC : contract C h := prompt_contract _ _ HP.

Lemma links_later n m : (n <= m)%nat -> exists x, d m = d n ++ x.
Proof.
  induction 1 as [|m _ [x IH]]; [exists []; now rewrite app_nil_r|].
  destruct (links_grow _ _ _ con m) as [y ->]. exists (x ++ y). now rewrite IH, app_assoc.
Qed.
Lemma split_until n : split_session F V C (map calls (seq 0 n)) (states 0%nat) = (states n, until calls results n).
Proof. apply (until_session calls results (split_perform F V C) states); [reflexivity|reflexivity|exact run]. Qed.
Lemma split_typed_until n : Forall (typed_operation F) (map calls (seq 0 n)).
Proof. apply Forall_forall. intros o I. apply in_map_iff in I. destruct I as (k & <- & _). apply typed. Qed.
Lemma links_bytes (log : list (operation V * split_report V E)) : flat_map bare_bytes (links_out log) = flat_map link_bytes (split_sent log).
Proof. unfold links_out. induction (split_sent log) as [|c cs IH]; [reflexivity|]. cbn [map flat_map]. now rewrite IH. Qed.
Lemma links_out_app (a b : list (operation V * split_report V E)) : links_out (a ++ b) = links_out a ++ links_out b.
Proof. unfold links_out, split_sent. now rewrite flat_map_app, map_app. Qed.
Lemma sent_event_packets ws : Forall incoming_packet ws -> Forall event_packet (events_in ws).
Proof.
  intros D1. apply Forall_forall. intros p I. unfold events_in in I. apply in_map_iff in I. destruct I as (w & <- & I).
  apply filter_In in I. destruct I as [I Ht]. apply N.eqb_eq in Ht.
  pose proof (proj1 (Forall_forall _ _) D1 w I) as Q. destruct Q as [[_ Q]|Q]; [exact Q|].
  destruct Q as (a & b & data & _ & _ & _ & [[-> _]|[-> _]]); discriminate Ht.
Qed.

(** Both links, at any time. *)
Lemma links_at n : Forall outgoing_packet (taken (d n)) -> Forall incoming_packet (sent_by (d n)) ->
  written h (states n) = written h (states 0%nat) ++ flat_map bare_bytes (links_out (until calls results n))
  /\ (exists more, links_out (until calls results n) = taken (d n) ++ more)
  /\ exists ps more, events_in (sent_by (d n)) = ps ++ more /\ split_received (until calls results n) = map (link_result F V) ps
     /\ split_events_read (until calls results n) = flat_map (one F V) ps.
Proof.
  intros D1 D2. destruct (links_apart _ _ _ con n) as [A1 A2].
  pose proof (split_session_spec F V C h HC _ _ (split_typed_until n) start) as K. rewrite split_until in K.
  destruct K as (_ & W & _ & ps & Hps & (rest & Hp) & _ & G). split; [now rewrite links_bytes|]. split.
  - destruct (commands_under_way _ _ _ con n) as (r & W1). rewrite W in W1. apply app_inv_head in W1.
    exact (commands_start _ D1 A1 _ _ W1).
  - destruct (events_under_way _ _ _ con n) as (r & W2). rewrite (bare_events _ A2), Hp, <- app_assoc in W2.
    destruct (packets_start ps Hps _ _ (sent_event_packets _ D2) W2) as (m & M1 & _).
    exists ps, m. split; [exact M1|]. split; [exact G|]. now apply split_events.
Qed.
(** What was sent by [n] has got there by [n1]. *)
Lemma links_there_by p n n1 more : (n <= n1)%nat -> (forall k, Forall outgoing_packet (taken (d k)) /\ Forall incoming_packet (sent_by (d k))) ->
  written h (states 0%nat) ++ flat_map bare_bytes (taken (d n1)) = written h (states n) ++ more ->
  how_many p (links_out (until calls results n)) <= how_many p (taken (d n1)).
Proof.
  intros L1 D W1. destruct (links_at n (proj1 (D n)) (proj2 (D n))) as (Wn & _).
  destruct (links_at n1 (proj1 (D n1)) (proj2 (D n1))) as (_ & (o1 & O1) & _).
  destruct (until_le calls results n n1 L1) as [l Hl].
  assert (Q : links_out (until calls results n1) = links_out (until calls results n) ++ links_out l) by (rewrite Hl; apply links_out_app).
  rewrite O1 in Q. destruct (two_starts _ _ _ _ (eq_sym Q)) as [[y Y]|(w & y & Y)].
  - rewrite Y, how_many_app. lia.
  - exfalso. assert (I : In w (links_out (until calls results n))) by (rewrite Y; apply in_or_app; right; now left).
    unfold links_out in I. apply in_map_iff in I. destruct I as (c & <- & _).
    apply (f_equal (@length N)) in W1. rewrite Wn, Y, flat_map_app, !app_length in W1. cbn [flat_map] in W1.
    unfold bare_bytes at 3 in W1. cbn [snd] in W1. unfold link_bytes in W1. rewrite le_2 in W1. cbn [app length] in W1. lia.
Qed.
(** All the events that the device has sent by [n] are read by some [m]. *)
Lemma links_read n : again_and_again (fun m => split_read_went (results m) = true) -> Forall incoming_packet (sent_by (d n)) ->
  exists m more, (n <= m)%nat /\ split_received (until calls results m) = map (link_result F V) (events_in (sent_by (d n))) ++ more.
Proof.
  intros Hreads D. destruct (events_arrive _ _ _ con n) as (n1 & more & L & P).
  rewrite (bare_events _ (proj2 (links_apart _ _ _ con n))) in P.
  destruct (link_some_day F V C h HP calls states results run typed start n1 _ more Hreads (sent_event_packets _ D) P) as (m & more' & L' & G).
  exists m, more'. split; [lia|exact G].
Qed.
Lemma split_called n m : (n <= m)%nat ->
  (exists k c, (n <= k < m)%nat /\ calls k = Send c)
  \/ links_out (until calls results m) = links_out (until calls results n).
Proof.
  induction 1 as [|m L [(k & c & Hk & Hc)|IH]]; [now right|left; exists k, c; split; [lia|exact Hc]|].
  destruct (calls m) as [c|] eqn:Ec; [left; exists m, c; split; [lia|exact Ec]|]. right.
  rewrite <- IH, until_S, Ec, links_out_app. apply app_nil_r.
Qed.

(** ** The turn comes *)
Section Turn.
Context (go : links_go_on F h states d).
Lemma split_turn_connected : (forall n, split_patient (until calls results n)) ->
  again_and_again (fun m => split_read_went (results m) = true) ->
  again_and_again (fun n => split_may_send (until calls results n)).
Proof.
  intros Hpat Hreads n.
  assert (D : forall k, Forall outgoing_packet (taken (d k)) /\ Forall incoming_packet (sent_by (d k))).
  { intros k. pose proof (go_on_fair _ _ _ _ go k) as Dk. split; [apply Dk|apply (fair_packets F _ Dk)]. }
  destruct (commands_arrive _ _ _ con n) as (n1 & more1 & L1 & W1).
  destruct (go_on_answers _ _ _ _ go n1) as (n2 & L2 & A2).
  destruct (go_on_room _ _ _ _ go n2) as (n3 & L3 & A3).
  pose proof (go_on_fair _ _ _ _ go n3) as D3.
  destruct (links_read n3 Hreads (proj2 (D n3))) as (m & more5 & L5 & G5).
  destruct (split_called n m) as [(k & c & Hk & Hc)|Same]; [lia| |].
  { exists k. split; [lia|]. apply (Hpat (S k) (until calls results k) c (results k) []). now rewrite until_S, Hc. }
  exists m. split; [lia|].
  destruct (links_later n1 n2 L2) as [x2 H2]. destruct (links_later n2 n3 L3) as [x3 H3].
  destruct (links_later n3 m L5) as [x4 H4].
  destruct (links_at m (proj1 (D m)) (proj2 (D m))) as (_ & (o4 & O4) & ps & later & S4 & G4 & Ev).
  set (sent := how_many is_command (links_out (until calls results n))).
  assert (B1 : sent <= how_many is_command (taken (d n1))) by exact (links_there_by is_command n n1 more1 L1 D W1).
  assert (B4 : how_many is_command (taken (d m)) <= sent) by (unfold sent; rewrite <- Same, O4, how_many_app; lia).
  pose proof B4 as B4'. rewrite H4, H3, H2, !taken_app, !how_many_app in B4'.
  pose proof (replies_bound F _ D3) as R3.
  assert (C3 : how_many is_command (taken (d n3)) = sent) by (rewrite H3, H2, !taken_app, !how_many_app; lia).
  assert (Q3 : how_many is_reply (sent_by (d n3)) = how_many is_command (taken (d n3))).
  { apply N.le_antisymm; [exact R3|]. rewrite C3. rewrite H3, sent_by_app, how_many_app. lia. }
  assert (Room : 0 < allowed (d n3)) by (destruct A3 as [A3|A3]; [lia|exact A3]).
  assert (S3 : exists y, ps = events_in (sent_by (d n3)) ++ y).
  { rewrite H4, sent_by_app, events_in_app in S4. destruct (two_starts _ _ _ _ S4) as [Y|(w & y & Y)]; [exact Y|].
    exfalso. rewrite G4 in G5. apply (f_equal (@length _)) in G5. rewrite app_length, !map_length, Y, app_length in G5.
    cbn [length] in G5. lia. }
  destruct S3 as [y S3].
  assert (Part : exists d', (exists z, d' = d n3 ++ z) /\ (exists z, d m = d' ++ z) /\ events_in (sent_by d') = ps).
  { destruct (sent_until (d m) _ _ S4) as (d1 & d2 & E1 & E2). rewrite E1 in H4.
    destruct (two_starts _ _ _ _ (eq_sym H4)) as [[z Z]|(w & z & Z)].
    - exists d1. split; [now exists z|]. split; [now exists d2|exact E2].
    - exists (d n3). split; [exists []; now rewrite app_nil_r|]. split; [exists x4; now rewrite E1|].
      rewrite S3. rewrite S3, Z, sent_by_app, events_in_app in E2.
      assert (N0 : y = []).
      { apply (f_equal (@length _)) in E2. rewrite !app_length in E2. destruct y; [reflexivity|cbn [length] in E2; lia]. }
      now rewrite N0, app_nil_r. }
  destruct Part as (d' & [z1 Z1] & [z2 Z2] & E').
  pose proof (go_on_fair _ _ _ _ go m) as Dm.
  assert (D' : fair F d') by (apply (fair_before F d' z2); now rewrite <- Z2).
  assert (C' : how_many is_command (taken d') = sent).
  { assert (Y1 : how_many is_command (taken (d n3)) <= how_many is_command (taken d')) by (rewrite Z1, taken_app, how_many_app; lia).
    assert (Y2 : how_many is_command (taken d') <= how_many is_command (taken (d m))) by (rewrite Z2, taken_app, how_many_app; lia). lia. }
  assert (Q' : how_many is_reply (sent_by d') = how_many is_command (taken d')).
  { pose proof (replies_bound F _ D') as X. assert (Y1 : how_many is_reply (sent_by (d n3)) <= how_many is_reply (sent_by d')) by (rewrite Z1, sent_by_app, how_many_app; lia). lia. }
  rewrite Z1 in D'. pose proof (allowed_later F _ _ D') as A'. rewrite <- Z1 in A', D'.
  pose proof (allowed_exact F _ D' Q') as X'. rewrite E' in X'.
  destruct (fair_packets F d' D') as [_ P']. rewrite E' in P'.
  assert (U' : Forall (fun p => reserved_address_commands p = false) ps).
  { rewrite <- E'. unfold events_in. apply Forall_forall. intros p I. apply in_map_iff in I. destruct I as (w & <- & I).
    apply filter_In in I. refine (proj1 (Forall_forall _ _) (go_on_usual _ _ _ _ go m) w _).
    rewrite Z2, sent_by_app. apply in_or_app. left. apply I. }
  unfold split_may_send, split_answers, split_number. rewrite commands_counted, Same. fold sent. rewrite Ev.
  fold (answers_in V (flat_map (one F V) ps)). rewrite (proj2 (answers_all F V _ P') U').
  rewrite <- E' at 1. rewrite <- how_many_replies, Q', C', N.sub_diag.
  rewrite (room_steps F V _ P').
  replace (filter (fun p => negb (reserved_address_commands p)) ps) with ps.
  - rewrite <- X'. lia.
  - clear - U'. induction U' as [|p qs Hp _ IH]; [reflexivity|]. cbn [filter]. rewrite Hp. cbn [negb]. now rewrite <- IH.
Qed.
End Turn.

(** ** The answer comes *)
Section Answer.
Context (c : command V) (all : links_reply F (command_opcode c) h states d).
Let op := command_opcode c.
Lemma split_enough_answers n : again_and_again (fun m => split_read_went (results m) = true) -> exists m, (n <= m)%nat
  /\ (length (filter (command_with op) (links_out (until calls results n)))
      <= length (filter (answer_to op) (split_events_read (until calls results m))))%nat.
Proof.
  intros Hreads.
  assert (D : forall k, Forall outgoing_packet (taken (d k)) /\ Forall incoming_packet (sent_by (d k))).
  { intros k. pose proof (reply_orderly _ _ _ _ _ all k) as H. split; [apply H|apply (orderly_packets F _ H)]. }
  destruct (commands_arrive _ _ _ con n) as (n1 & more1 & L1 & W1).
  destruct (reply_comes _ _ _ _ _ all n1) as (n2 & L2 & A2).
  destruct (links_read n2 Hreads (proj2 (D n2))) as (m & more & L4 & G).
  exists m. split; [lia|].
  pose proof (links_there_by (command_with op) n n1 more1 L1 D W1) as B1.
  destruct (links_at m (proj1 (D m)) (proj2 (D m))) as (_ & _ & ps & later & S4 & G4 & Ev).
  destruct (links_later n2 m L4) as [x4 H4].
  assert (S3 : exists y, ps = events_in (sent_by (d n2)) ++ y).
  { rewrite H4, sent_by_app, events_in_app in S4. destruct (two_starts _ _ _ _ S4) as [Y|(w & y & Y)]; [exact Y|].
    exfalso. rewrite G4 in G. apply (f_equal (@length _)) in G. rewrite app_length, !map_length, Y, app_length in G.
    cbn [length] in G. lia. }
  destruct S3 as [y S3].
  destruct (own_opcode c) as [Z NV]. fold op in Z, NV.
  destruct (orderly_packets F _ (reply_orderly _ _ _ _ _ all n2)) as [_ D2].
  assert (Q : Forall (fun p => reserved_address_commands p = false) (events_in (sent_by (d n2)))).
  { apply Forall_forall. intros p I. unfold events_in in I. apply in_map_iff in I. destruct I as (w & <- & I).
    apply filter_In in I. exact (proj1 (Forall_forall _ _) (reply_usual _ _ _ _ _ all n2) w (proj1 I)). }
  pose proof (own_answers F V op _ Z NV D2 Q) as A.
  rewrite Ev, S3, flat_map_app, filter_app, app_length. apply same_length in A. rewrite <- A.
  unfold how_many in *. rewrite own_replies, map_length in A2. fold op in A2. lia.
Qed.
Lemma split_own_answer_comes n k cmd : again_and_again (fun m => split_read_went (results m) = true) ->
  nth_error (filter (command_with op) (links_out (until calls results n))) k = Some cmd ->
  exists m ev pkt, (n <= m)%nat
  /\ nth_error (filter (answer_to op) (split_events_read (until calls results m))) k = Some ev
  /\ event_new F V pkt = Ok ev
  /\ nth_error (filter (reply_with op) (sent_by (d m))) k = Some (0x04, pkt)
  /\ nth_error (filter (command_with op) (taken (d m))) k = Some cmd.
Proof.
  intros Hreads H. destruct (split_enough_answers n Hreads) as (m & L & A).
  assert (Hk : (k < length (filter (command_with op) (links_out (until calls results n))))%nat) by (apply nth_error_Some; congruence).
  destruct (nth_error (filter (answer_to op) (split_events_read (until calls results m))) k) as [ev|] eqn:Ev; [|apply nth_error_None in Ev; lia].
  pose proof (split_own_answer F V C h HC (map calls (seq 0 m)) (states 0%nat) (d m) c
    (split_typed_until m) start (reply_orderly _ _ _ _ _ all m) (links_apart _ _ _ con m) (reply_usual _ _ _ _ _ all m)) as K.
  rewrite split_until in K.
  destruct (K (commands_under_way _ _ _ con m) (events_under_way _ _ _ con m)) as [K1 _].
  fold op in K1. destruct (K1 k ev Ev) as (pkt & cmd' & R & N & P & T).
  assert (cmd' = cmd).
  { destruct (until_le calls results n m L) as [l Hl].
    assert (Q : links_out (until calls results m) = links_out (until calls results n) ++ links_out l) by (rewrite Hl; apply links_out_app).
    rewrite Q, filter_app, nth_error_app1 in P by exact Hk. congruence. }
  subst cmd'. exists m, ev, pkt. auto.
Qed.
End Answer.
End Links.

(** ** Resets for ever *)
Section LinkResets.
Context (V : vendor).
Let C := link_reset_controller.
Let states := states_of (split_perform F41 V C) link_resets empty_queue.
Let results := results_of (split_perform F41 V C) link_resets empty_queue.
Let dev := answered (fun _ => reset_packet) (fun _ => reset_answer).
Definition after_resets (k : nat) : queue :=
  {| q_received := flat_map bare_bytes (sent_by (dev k)); q_consumed := length (flat_map bare_bytes (sent_by (dev k))); q_arrivals := [];
     q_written := flat_map bare_bytes (taken (dev k)); q_ready := [] |}.
Lemma link_calls_are k : @link_resets V (k + k)%nat = Send CReset /\ @link_resets V (S (k + k)) = Receive.
Proof. unfold link_resets. now rewrite even_double, even_next. Qed.
Lemma link_reset_write s : split_perform F41 V C (Send CReset) s
  = ({| q_received := q_received s ++ reset_answer; q_consumed := q_consumed s; q_arrivals := q_arrivals s;
        q_written := q_written s ++ snd reset_packet; q_ready := q_ready s |}, SplitSent (Plain (Ok tt))).
Proof. vm_compute. reflexivity. Qed.
Lemma link_reset_read l w : split_perform F41 V C Receive
    {| q_received := l ++ reset_answer; q_consumed := length l; q_arrivals := []; q_written := w; q_ready := [] |}
  = ({| q_received := l ++ reset_answer; q_consumed := length l + 6; q_arrivals := []; q_written := w; q_ready := [] |},
     SplitReceived (link_result F41 V reset_answer)).
Proof.
  set (s := {| q_received := _; q_consumed := length l; q_arrivals := _; q_written := _; q_ready := _ |}).
  assert (P : q_pending s = reset_answer) by (unfold q_pending, s; cbn [q_consumed q_received]; now apply skipn_all_app).
  assert (K : ctl_peek C s 1 = (s, Ok 4)).
  { cbn [ctl_peek C link_reset_controller answering_controller queue_controller]. change (q_arrive s) with s. now rewrite P. }
  assert (R : forall buf, length buf = 6%nat -> ctl_read_into C s buf = (q_take 6 s, Ok reset_answer)).
  { intros buf L. cbn [ctl_read_into C link_reset_controller answering_controller queue_controller]. change (q_arrive s) with s. now rewrite P, L. }
  cbn [split_perform]. unfold link_read, read_into_prefix, abind, amap_err, pure. rewrite K. cbn [map_err]. cbv beta iota.
  change (slice (zeros (255 + 2)) 0 (2 + N.to_nat 4)) with (@Ok (nb_error N) _ (zeros 6)). cbv beta iota.
  rewrite R by reflexivity. cbn [map_err]. cbv beta iota. reflexivity.
Qed.
Lemma link_states_even k : states (k + k)%nat = after_resets k.
Proof.
  induction k as [|k IH]; [reflexivity|]. replace (S k + S k)%nat with (S (S (k + k))) by lia.
  unfold states in *. cbn [states_of]. rewrite IH. destruct (link_calls_are k) as [-> ->]. rewrite link_reset_write. cbn [fst].
  unfold after_resets at 1 2 3 4 5. cbn [q_received q_consumed q_arrivals q_written q_ready]. rewrite link_reset_read. cbn [fst].
  unfold after_resets. destruct (answered_S (fun _ => reset_packet) (fun _ => reset_answer) k) as [E1 E2]. fold dev in E1, E2. rewrite E1, E2, !flat_map_app, app_length.
  reflexivity.
Qed.
Lemma link_states_odd k : states (S (k + k)) =
  {| q_received := flat_map bare_bytes (sent_by (dev k)) ++ reset_answer; q_consumed := length (flat_map bare_bytes (sent_by (dev k))); q_arrivals := [];
     q_written := flat_map bare_bytes (taken (dev k)) ++ snd reset_packet; q_ready := [] |}.
Proof.
  pose proof (link_states_even k) as IH. unfold states in *. cbn [states_of]. rewrite IH, (proj1 (link_calls_are k)), link_reset_write. reflexivity.
Qed.
Lemma link_results_are k : results (k + k)%nat = SplitSent (Plain (Ok tt)) /\ results (S (k + k)) = SplitReceived (link_result F41 V reset_answer).
Proof.
  pose proof (link_states_even k) as I1. pose proof (link_states_odd k) as I2. unfold states, results, results_of in *. rewrite I1, I2.
  destruct (link_calls_are k) as [-> ->]. rewrite link_reset_write, link_reset_read. split; reflexivity.
Qed.
Lemma link_device_there n : written queue_history (states n) = flat_map bare_bytes (taken (reset_device n))
  /\ received queue_history (states n) = flat_map bare_bytes (sent_by (reset_device n)).
Proof.
  unfold reset_device. fold dev. destruct (half n) as [k [->| ->]].
  - rewrite half_next, link_states_even. split; reflexivity.
  - replace (S (S (k + k))) with (S k + S k)%nat by lia. rewrite half_double, link_states_odd.
    destruct (answered_S (fun _ => reset_packet) (fun _ => reset_answer) k) as [E1 E2]. fold dev in E1, E2. rewrite E1, E2, !flat_map_app. split; reflexivity.
Qed.
Lemma link_resets_apart k : apart (dev k).
Proof.
  unfold dev. induction k as [|k [A B]]; [split; constructor|]. destruct (answered_S (fun _ => reset_packet) (fun _ => reset_answer) k) as [E1 E2].
  split; [rewrite E2|rewrite E1]; apply Forall_app; split; try assumption; repeat constructor.
Qed.
Lemma link_resets_connected : links_connected queue_history states reset_device.
Proof.
  split.
  - intros n. apply link_resets_apart.
  - exact (device_grows _ _ _ (answers_connected _ _ _ _ (resets_go_on V))).
  - intros n. exists []. rewrite (proj1 (link_device_there n)). rewrite app_nil_r. reflexivity.
  - intros n. exists []. unfold pending. rewrite (proj2 (link_device_there n)), app_nil_r. reflexivity.
  - intros n. exists n, []. split; [lia|]. now rewrite (proj1 (link_device_there n)), app_nil_r.
  - intros n. exists n, []. split; [lia|]. unfold pending. now rewrite (proj2 (link_device_there n)), app_nil_r.
Qed.
Lemma link_resets_go_on : links_go_on F41 queue_history states reset_device.
Proof. destruct (resets_go_on V) as [_ R2 R3 R4 R5]. split; try assumption. exact link_resets_connected. Qed.
Lemma link_resets_reply : links_reply F41 0x0C03 queue_history states reset_device.
Proof. destruct (resets_answered V) as [_ R2 R3 R4]. split; try assumption. exact link_resets_connected. Qed.
Lemma link_resets_read : again_and_again (fun n => split_read_went (results n) = true).
Proof. intros n. exists (S (n + n)). split; [lia|]. rewrite (proj2 (link_results_are n)). reflexivity. Qed.
Lemma link_log_S k : until (@link_resets V) results (S k + S k) = until (@link_resets V) results (k + k)
  ++ [(Send CReset, SplitSent (Plain (Ok tt))); (Receive, SplitReceived (link_result F41 V reset_answer))].
Proof.
  replace (S k + S k)%nat with (S (S (k + k))) by lia. rewrite !until_S, <- app_assoc.
  destruct (link_calls_are k) as [-> ->], (link_results_are k) as [-> ->]. reflexivity.
Qed.
Lemma link_reset_log k : split_commands (until (@link_resets V) results (k + k)) = N.of_nat k
  /\ split_answers (until (@link_resets V) results (k + k)) = N.of_nat k
  /\ split_number (until (@link_resets V) results (k + k)) = 1.
Proof.
  induction k as [|k (I1 & I2 & I3)]; [repeat split|]. rewrite link_log_S. set (log := until _ _ _) in *.
  unfold split_commands, split_answers, split_number, split_sent, split_events_read in *.
  rewrite !flat_map_app, filter_app, fold_left_app, !app_length, !Nat2N.inj_add, I1, I2, I3.
  split; [|split; [|reflexivity]]; match goal with |- _ + ?x = _ => change x with 1 end; lia.
Qed.
Lemma link_reset_patient n : split_patient (until (@link_resets V) results n).
Proof.
  intros before c r after H. destruct (until_at _ _ _ _ _ _ H) as [E1 E2]. injection E2 as E2 _.
  destruct (half (length before)) as [k [Hk|Hk]]; rewrite Hk in E1, E2; [|rewrite (proj2 (link_calls_are k)) in E2; discriminate E2].
  rewrite E1. destruct (link_reset_log k) as (-> & -> & ->). lia.
Qed.
End LinkResets.
