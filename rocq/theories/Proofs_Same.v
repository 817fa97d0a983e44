(** * The same application over a UART and over separate links (proofs). *)
From Verif Require Import Base Model_Types Model_EventBase Model_Command Model_Event Model_Host
  Spec_Wire Spec_Errors Spec_Host Spec_Link Spec_Retry Spec_Split Spec_Same
  Proofs_Base Proofs_Calls Proofs_Link Proofs_Queue Proofs_Retry Proofs_Split.
Open Scope list_scope.
Open Scope N_scope.

Lemma on_uart_app a b : on_uart (a ++ b) = on_uart a ++ on_uart b.
Proof. apply flat_map_app. Qed.
Lemma on_link_app a b : on_link (a ++ b) = on_link a ++ on_link b.
Proof. apply map_app. Qed.
Lemma on_uart_rest l : on_uart (map (fun b => (false, b)) l) = l.
Proof. induction l as [|b l IH]; [reflexivity|]. cbn. f_equal. exact IH. Qed.
Lemma on_link_rest l : on_link (map (fun b => (false, b)) l) = l.
Proof. induction l as [|b l IH]; [reflexivity|]. cbn. f_equal. exact IH. Qed.
Lemma on_uart_mark b p : on_uart (mark (b :: p)) = uart_frame (b :: p).
Proof. cbn. unfold uart_frame. now rewrite on_uart_rest. Qed.
Lemma on_link_mark p : on_link (mark p) = p.
Proof. destruct p as [|b p]; [reflexivity|]. cbn. f_equal. apply on_link_rest. Qed.

(** ** Both find the same packet, or none *)
Lemma short_front code (params l : list N) k : (length l < 2 + length params)%nat ->
  l = firstn k (framed code params) -> link_front l = Incomplete.
Proof.
  intros Hl ->. unfold framed in *. apply link_front_incomplete.
  destruct k as [|[|k]]; cbn [firstn length] in *; [left; lia|left; lia|right].
  exists [code], (N.of_nat (length params)), (firstn k params). split; [reflexivity|]. split; [reflexivity|].
  rewrite Nat2N.id. lia.
Qed.
Lemma fronts l more ps : Forall event_packet ps -> l ++ more = flat_map mark ps ->
  (exists p later l', ps = p :: later /\ event_packet p /\ l = mark p ++ l' /\ l' ++ more = flat_map mark later
     /\ uart_front (on_uart l) = Whole p /\ link_front (on_link l) = Whole p)
  \/ (uart_front (on_uart l) = Incomplete /\ link_front (on_link l) = Incomplete).
Proof.
  intros Hp E. destruct ps as [|p ps].
  { apply app_eq_nil in E. destruct E as [-> _]. right. split; reflexivity. }
  inversion Hp as [|? ? Hp1 Hp2]; subst. pose proof Hp1 as (code & params & Ep & _).
  cbn [flat_map] in E. destruct (Nat.leb_spec (length (mark p)) (length l)) as [H|H].
  - left. exists p, ps, (skipn (length (mark p)) l).
    assert (El : l = mark p ++ skipn (length (mark p)) l).
    { rewrite <- (firstn_skipn (length (mark p)) l) at 1. f_equal.
      apply (f_equal (firstn (length (mark p)))) in E. rewrite firstn_app in E.
      replace (length (mark p) - length l)%nat with O in E by lia. rewrite app_nil_r in E.
      rewrite firstn_app, firstn_all, Nat.sub_diag, app_nil_r in E. exact E. }
    remember (skipn (length (mark p)) l) as l' eqn:Hl'. clear Hl'. subst l.
    split; [reflexivity|]. split; [exact Hp1|]. split; [reflexivity|].
    split; [rewrite <- app_assoc in E; now apply app_inv_head in E|].
    rewrite on_uart_app, on_link_app, on_link_mark, Ep. unfold framed at 1. rewrite on_uart_mark.
    split; [|apply link_front_whole]. exact (link_front_whole code params (on_uart l')).
  - right. assert (El : l = firstn (length l) (mark p)).
    { apply (f_equal (firstn (length l))) in E.
      rewrite !firstn_app, firstn_all, Nat.sub_diag, app_nil_r in E.
      replace (length l - length (mark p))%nat with O in E by lia. rewrite app_nil_r in E. exact E. }
    assert (Lm : length (mark p) = (2 + length params)%nat) by (subst p; cbn; now rewrite map_length).
    assert (Kl : link_front (on_link l) = Incomplete).
    { apply (short_front code params _ (length l)).
      - unfold on_link. rewrite map_length. rewrite Lm in H. exact H.
      - rewrite El at 1. unfold on_link. rewrite <- firstn_map. fold (on_link (mark p)). now rewrite on_link_mark, Ep. }
    split; [|exact Kl]. subst p. destruct l as [|x l]; [reflexivity|].
    cbn [mark framed length firstn] in El. unfold framed in El. cbn [mark map firstn length] in El.
    injection El as -> El.
    change (on_uart ((true, code) :: l)) with (0x04 :: code :: on_uart l).
    change (on_link ((true, code) :: l)) with (code :: on_link l) in Kl.
    cbn [uart_front]. rewrite N.eqb_refl. replace (on_uart l) with (on_link l); [exact Kl|].
    rewrite El.
    change ((false, N.of_nat (length params)) :: map (fun b : N => (false, b)) params)
      with (map (fun b : N => (false, b)) (N.of_nat (length params) :: params)).
    now rewrite firstn_map, on_link_rest, on_uart_rest.
Qed.

(** ** Nothing arrives during a call *)
Definition quiet (s : queue) : Prop := q_arrivals s = [].
Lemma quiet_arrive s : quiet s -> q_arrive s = s.
Proof. intros H. unfold q_arrive. now rewrite H. Qed.
Definition same_front (s s' : queue) : Prop :=
  q_received s' = q_received s /\ q_arrivals s' = q_arrivals s /\ q_ready s' = q_ready s.
Lemma uart_quiet F V s : quiet s ->
  let s' := fst (uart_read F V queue_controller s) in
  quiet s' /\ q_received s' = q_received s /\ q_ready s' = q_ready s.
Proof.
  intros Q. cbv zeta. apply (uart_read_keeps F V queue_controller
    (fun x => quiet x /\ q_received x = q_received s /\ q_ready x = q_ready s)).
  - cbn [ctl_peek queue_controller fst]. rewrite quiet_arrive by assumption. split; [exact Q|split; reflexivity].
  - intros x n (H1 & H2 & H3). cbn [ctl_peek queue_controller fst]. rewrite quiet_arrive by assumption. auto.
  - intros x buf (H1 & H2 & H3). cbn [ctl_read_into queue_controller fst]. rewrite quiet_arrive by assumption.
    destruct (Nat.leb _ _); cbn [fst]; auto.
Qed.
Lemma link_quiet F V s : quiet s ->
  let s' := fst (link_read F V queue_controller s) in
  quiet s' /\ q_received s' = q_received s /\ q_ready s' = q_ready s.
Proof.
  intros Q. cbv zeta. apply (link_read_keeps F V queue_controller
    (fun x => quiet x /\ q_received x = q_received s /\ q_ready x = q_ready s)).
  - cbn [ctl_peek queue_controller fst]. rewrite quiet_arrive by assumption. split; [exact Q|split; reflexivity].
  - intros x buf (H1 & H2 & H3). cbn [ctl_read_into queue_controller fst]. rewrite quiet_arrive by assumption.
    destruct (Nat.leb _ _); cbn [fst]; auto.
Qed.

(** ** Step by step *)
Definition alike (l : list marked) (s s' : queue) : Prop :=
  (quiet s /\ possible queue_history s /\ q_pending s = on_uart l)
  /\ (quiet s' /\ possible queue_history s' /\ q_pending s' = on_link l) /\ q_ready s = q_ready s'.

Lemma packet_bytes p : event_packet p -> bytes p.
Proof. intros (code & params & -> & Hc & Hp & Hl). unfold framed. constructor; [exact Hc|]. constructor; [|exact Hp]. unfold byte. lia. Qed.
Lemma mark_bytes p : bytes p -> Forall (fun x : marked => byte (snd x)) (mark p).
Proof.
  intros H. destruct p as [|b p]; [constructor|]. inversion H; subst. constructor; [assumption|].
  apply Forall_map. assumption.
Qed.
Lemma marks_bytes ps : Forall event_packet ps -> Forall (fun x : marked => byte (snd x)) (flat_map mark ps).
Proof.
  induction 1 as [|p ps Hp _ IH]; [constructor|]. cbn [flat_map]. apply Forall_app. split; [|exact IH].
  now apply mark_bytes, packet_bytes.
Qed.
Lemma on_uart_bytes l : Forall (fun x : marked => byte (snd x)) l -> bytes (on_uart l).
Proof.
  induction 1 as [|[[] b] l Hb _ IH]; [constructor| |]; cbn in *.
  - constructor; [unfold byte; lia|]. now constructor.
  - now constructor.
Qed.
Lemma on_link_bytes l : Forall (fun x : marked => byte (snd x)) l -> bytes (on_link l).
Proof. intros H. apply Forall_map. exact H. Qed.

Lemma deliver_side l s : possible queue_history s -> bytes l ->
  possible queue_history (deliver l s) /\ q_pending (deliver l s) = q_pending s ++ l.
Proof.
  intros (H1 & H2 & H3) Hl. cbn in *. split.
  - split; [apply Forall_app; now split|]. split; [|exact H3]. rewrite app_length. cbn. lia.
  - unfold q_pending. cbn. rewrite skipn_app. f_equal.
    now replace (q_consumed s - length (q_received s))%nat with O by lia.
Qed.
Lemma deliver_alike l x s s' : alike l s s' -> Forall (fun x : marked => byte (snd x)) x ->
  alike (l ++ x) (deliver (on_uart x) s) (deliver (on_link x) s').
Proof.
  intros ((A1 & A2 & A3) & (B1 & B2 & B3) & R) Hx.
  destruct (deliver_side (on_uart x) s A2 (on_uart_bytes x Hx)) as [A4 A5].
  destruct (deliver_side (on_link x) s' B2 (on_link_bytes x Hx)) as [B4 B5].
  split; [split; [exact A1|split; [exact A4|now rewrite A5, A3, on_uart_app]]|].
  split; [split; [exact B1|split; [exact B4|now rewrite B5, B3, on_link_app]]|exact R].
Qed.

Lemma pending_here s s' : q_received s' = q_received s -> pending queue_history s s' = q_pending s.
Proof. intros H. unfold pending. cbn. now rewrite H. Qed.
Lemma took_pending s s' p l : q_received s' = q_received s -> took queue_history s s' p -> q_pending s = p ++ l ->
  possible queue_history s' /\ q_pending s' = l /\ q_written s' = q_written s.
Proof.
  intros Hr (H1 & _ & _ & H2 & H3) Hp. cbn in H2, H3. split; [exact H1|]. split; [|exact H3].
  unfold q_pending in *. rewrite H2, Hr, skipn_add, Hp.
  rewrite skipn_app, skipn_all, Nat.sub_diag. reflexivity.
Qed.
Lemma nothing_pending s s' : q_received s' = q_received s -> nothing queue_history s s' ->
  possible queue_history s' /\ q_pending s' = q_pending s /\ q_written s' = q_written s.
Proof.
  intros Hr (H1 & _ & H2 & H3). cbn in H2, H3. split; [exact H1|]. split; [|exact H3].
  unfold q_pending. now rewrite H2, Hr.
Qed.

Section Steps.
Context (F : features) (V : vendor).

Lemma read_step l more ps s s' : alike l s s' -> Forall event_packet ps -> l ++ more = flat_map mark ps ->
  let (s1, r) := uart_read F V queue_controller s in
  let (s1', r') := link_read F V queue_controller s' in
  uart_seen (Received r) = link_seen (SplitReceived r')
  /\ q_written s1 = q_written s /\ q_written s1' = q_written s'
  /\ exists l1 ps1, alike l1 s1 s1' /\ Forall event_packet ps1 /\ l1 ++ more = flat_map mark ps1.
Proof.
  intros ((A1 & A2 & A3) & (B1 & B2 & B3) & R) Hp E.
  pose proof (uart_read_front F V _ _ queue_buffering s A2) as KA.
  pose proof (link_read_front F V _ _ queue_buffering s' B2) as KB.
  destruct (uart_quiet F V s A1) as (A4 & A5 & A6). destruct (link_quiet F V s' B1) as (B4 & B5 & B6).
  destruct (uart_read F V queue_controller s) as [s1 r]. destruct (link_read F V queue_controller s') as [s1' r'].
  cbn [fst] in *. rewrite (pending_here s s1 A5), A3 in KA. rewrite (pending_here s' s1' B5), B3 in KB.
  destruct (fronts l more ps Hp E) as [(p & later & l' & -> & Hp1 & -> & El & FA & FB)|[FA FB]];
    rewrite FA in KA; rewrite FB in KB; destruct KA as [-> KA]; destruct KB as [-> KB].
  - split; [unfold uart_result, link_result; destruct (event_new F V p); reflexivity|].
    assert (Up : on_uart (mark p) = uart_frame p) by (pose proof Hp1 as (code & params & -> & _); apply on_uart_mark).
    destruct (took_pending s s1 (uart_frame p) (on_uart l') A5 KA) as (A7 & A8 & A9).
    { now rewrite A3, on_uart_app, Up. }
    destruct (took_pending s' s1' p (on_link l') B5 KB) as (B7 & B8 & B9).
    { now rewrite B3, on_link_app, on_link_mark. }
    split; [exact A9|]. split; [exact B9|]. exists l', later.
    split; [|split; [now inversion Hp|exact El]].
    split; [auto|]. split; [auto|]. now rewrite A6, B6.
  - split; [reflexivity|].
    destruct (nothing_pending s s1 A5 KA) as (A7 & A8 & A9).
    destruct (nothing_pending s' s1' B5 KB) as (B7 & B8 & B9).
    split; [exact A9|]. split; [exact B9|]. exists l, ps. split; [|auto].
    split; [rewrite A8; auto|]. split; [rewrite B8; auto|]. now rewrite A6, B6.
Qed.

Lemma write_step c l s s' : alike l s s' -> arguments_typed F c ->
  let (s1, r) := run_command F V uart_header queue_controller c s in
  let (s1', r') := run_command F V cmd_link_header queue_controller c s' in
  r = r' /\ alike l s1 s1'
  /\ exists cs : list (command V), q_written s1 = q_written s ++ flat_map command_bytes cs
      /\ q_written s1' = q_written s' ++ flat_map link_bytes cs.
Proof.
  intros A HA. pose proof A as ((A1 & A2 & A3) & (B1 & B2 & B3) & R).
  assert (HH : In (uart_header, uart_header_bytes) header_formats) by (left; reflexivity).
  pose proof link_header_known as HL.
  destruct (@rejection V N c) as [e|] eqn:HR.
  - rewrite (call_rejected F V _ _ queue_controller HH c s e) by assumption.
    rewrite (call_rejected F V _ _ queue_controller HL c s' e) by assumption.
    split; [reflexivity|]. split; [exact A|]. exists []. now rewrite !app_nil_r.
  - rewrite (call_written F V _ _ queue_controller HH) by assumption.
    rewrite (call_written F V _ _ queue_controller HL) by assumption.
    cbn [ctl_write queue_controller]. rewrite !quiet_arrive by assumption. rewrite <- R.
    assert (K : forall w w' rest, alike l (q_write w rest s) (q_write w' rest s')).
    { intros w w' rest. split; [split; [exact A1|split; [exact A2|exact A3]]|].
      split; [split; [exact B1|split; [exact B2|exact B3]]|reflexivity]. }
    destruct (q_ready s) as [|[| |code] rest].
    + split; [reflexivity|]. split; [exact A|]. exists []. now rewrite !app_nil_r.
    + split; [reflexivity|]. split; [apply K|]. exists [c]. cbn [flat_map q_written q_write].
      rewrite !app_nil_r, link_bytes_header. split; reflexivity.
    + split; [reflexivity|]. split; [apply K|]. exists []. cbn. now rewrite !app_nil_r.
    + split; [reflexivity|]. split; [apply K|]. exists []. cbn. now rewrite !app_nil_r.
Qed.

Lemma turns_alike turns : forall l more ps s s', alike l s s' -> Forall event_packet ps ->
  l ++ flat_map fst turns ++ more = flat_map mark ps -> Forall (fun t => typed_operation F (snd t)) turns ->
  let (s1, rs) := uart_turns F V turns s in
  let (s1', rs') := link_turns F V turns s' in
  map uart_seen rs = map link_seen rs'
  /\ exists cs : list (command V), q_written s1 = q_written s ++ flat_map command_bytes cs
      /\ q_written s1' = q_written s' ++ flat_map link_bytes cs.
Proof.
  induction turns as [|[x o] turns IH]; intros l more ps s s' A Hp E Ht; cbn [uart_turns link_turns].
  { split; [reflexivity|]. exists []. now rewrite !app_nil_r. }
  inversion Ht as [|? ? Ht1 Ht2]; subst. cbn [flat_map fst snd] in *.
  pose proof (marks_bytes ps Hp) as Hm. rewrite <- E in Hm. rewrite <- app_assoc in E.
  assert (Hx : Forall (fun x : marked => byte (snd x)) x).
  { apply Forall_app in Hm. destruct Hm as [_ Hm]. apply Forall_app in Hm. destruct Hm as [Hm _].
    apply Forall_app in Hm. apply Hm. }
  rewrite app_assoc in E. pose proof (deliver_alike l x s s' A Hx) as D.
  destruct o as [c|]; cbn [perform split_perform].
  - pose proof (write_step c _ _ _ D Ht1) as K.
    destruct (run_command F V uart_header queue_controller c _) as [s1 r].
    destruct (run_command F V cmd_link_header queue_controller c _) as [s1' r'].
    destruct K as (-> & D1 & cs & W1 & W2).
    specialize (IH _ more ps s1 s1' D1 Hp E Ht2).
    destruct (uart_turns F V turns s1) as [s2 rs]. destruct (link_turns F V turns s1') as [s2' rs'].
    destruct IH as (I1 & cs' & I2 & I3). split; [cbn; now rewrite I1|]. exists (cs ++ cs').
    rewrite I2, I3, W1, W2, !flat_map_app, !app_assoc. split; reflexivity.
  - pose proof (read_step _ _ ps _ _ D Hp E) as K.
    destruct (uart_read F V queue_controller _) as [s1 r].
    destruct (link_read F V queue_controller _) as [s1' r'].
    destruct K as (Kr & W1 & W2 & l1 & ps1 & D1 & Hp1 & E1).
    specialize (IH l1 more ps1 s1 s1' D1 Hp1 E1 Ht2).
    destruct (uart_turns F V turns s1) as [s2 rs]. destruct (link_turns F V turns s1') as [s2' rs'].
    destruct IH as (I1 & cs' & I2 & I3). split; [cbn [map]; now rewrite I1, Kr|]. exists cs'.
    rewrite I2, I3, W1, W2. split; reflexivity.
Qed.
End Steps.

Lemma idle_alike ready : alike [] (idle ready) (idle ready).
Proof.
  assert (P : possible queue_history (idle ready)) by (split; [constructor|split; [cbn; lia|constructor]]).
  split; [split; [reflexivity|split; [exact P|reflexivity]]|].
  split; [split; [reflexivity|split; [exact P|reflexivity]]|reflexivity].
Qed.

Lemma same_turns F V turns ready : of_packets turns -> Forall (fun t => typed_operation F (snd t)) turns ->
  let (s, rs) := uart_turns F V turns (idle ready) in
  let (s', rs') := link_turns F V turns (idle ready) in
  map uart_seen rs = map link_seen rs'
  /\ exists cs : list (command V), q_written s = flat_map command_bytes cs /\ q_written s' = flat_map link_bytes cs.
Proof.
  intros (ps & more & Hp & E) Ht.
  exact (turns_alike F V turns [] more ps (idle ready) (idle ready) (idle_alike ready) Hp E Ht).
Qed.
