(** * Waiting, newer versions, and the documented read. *)
From Verif Require Import Base Model_Types Model_Bitflags Model_Intervals Model_EventBase Model_Event
  Model_Host Model_Doc Spec_Wire Spec_Errors Spec_Interval Spec_Flags Spec_Host Spec_Link Spec_Versions
  Spec_Retry Proofs_Base Proofs_Event Proofs_Host Proofs_Calls Proofs_Streams Proofs_Link Proofs_Queue.
Open Scope list_scope.
Open Scope N_scope.

(** ** Waiting *)
Section Waiting.
Context (F : features) (V : vendor) {St E : Type} (C : controller St E) (h : history St)
  (HC : contract C h).

Lemma blocked_not_succeeded (r : method_result V E) : method_blocked r = true -> succeeded r = false.
Proof. destruct r as [[|[|]|]|[|[|]|]]; cbn; congruence. Qed.

Lemma wait_command c n s : arguments_typed F c -> possible h s ->
  let (s', r) := waiting method_blocked (run_command F V uart_header C c) n s in
  put h s s' (match r with
              | Some r => if succeeded r then command_bytes c else []
              | None => []
              end).
Proof.
  intros HA. revert s. induction n as [|n IH]; intros s Hs; cbn [waiting].
  - split; [exact Hs|]. split; [apply arrives_refl|]. now rewrite app_nil_r.
  - pose proof (call_contract F V C h HC c s HA Hs) as K.
    destruct (run_command F V uart_header C c s) as [s1 r]. destruct K as (K1 & K2 & K3 & K4).
    destruct (method_blocked r) eqn:Eb; [|now repeat split].
    specialize (IH s1 K1). destruct (waiting _ _ n s1) as [s2 r2]. destruct IH as (I1 & I2 & I3 & I4).
    split; [exact I1|]. split; [eapply arrives_trans; eassumption|]. split; [congruence|].
    rewrite I4, K4, (blocked_not_succeeded r Eb). now rewrite app_nil_r.
Qed.

Lemma wait_read n s : possible h s ->
  let (s', r) := waiting blocked (uart_read F V C) n s in
  match r with
  | Some r =>
      (uart_reports V r = false /\ nothing h s s')
      \/ exists p, event_packet p /\ took h s s' (uart_frame p) /\ r = uart_result F V p
  | None => nothing h s s'
  end.
Proof.
  revert s. induction n as [|n IH]; intros s Hs; cbn [waiting].
  - split; [exact Hs|]. split; [apply arrives_refl|auto].
  - destruct (uart_read_cases F V C h HC s Hs) as (s1 & r & -> & K).
    destruct (blocked r) eqn:Eb.
    + destruct K as [(_ & HN & _)|(p & _ & _ & ->)].
      * assert (Hs1 : possible h s1) by apply HN. specialize (IH s1 Hs1).
        destruct (waiting _ _ n s1) as [s2 [r2|]].
        -- destruct IH as [[I1 I2]|(p & P1 & P2 & P3)].
           ++ left. split; [exact I1|]. eapply nothing_trans; eassumption.
           ++ right. exists p. split; [exact P1|]. split; [|exact P3]. eapply nothing_took; eassumption.
        -- eapply nothing_trans; eassumption.
      * exfalso. unfold uart_result in Eb. destruct (event_new F V p); discriminate Eb.
    + destruct K as [(K1 & K2 & _)|K]; auto.
Qed.

Lemma wait_link n s : possible h s ->
  let (s', r) := waiting blocked (link_read F V C) n s in
  match r with
  | Some r =>
      (link_reports V r = false /\ nothing h s s')
      \/ exists p, event_packet p /\ took h s s' p /\ r = link_result F V p
  | None => nothing h s s'
  end.
Proof.
  revert s. induction n as [|n IH]; intros s Hs; cbn [waiting].
  - split; [exact Hs|]. split; [apply arrives_refl|auto].
  - destruct (link_read_cases F V C h HC s Hs) as (s1 & r & -> & K).
    destruct (blocked r) eqn:Eb.
    + destruct K as [(_ & HN)|(p & _ & _ & ->)].
      * assert (Hs1 : possible h s1) by apply HN. specialize (IH s1 Hs1).
        destruct (waiting _ _ n s1) as [s2 [r2|]].
        -- destruct IH as [[I1 I2]|(p & P1 & P2 & P3)].
           ++ left. split; [exact I1|]. eapply nothing_trans; eassumption.
           ++ right. exists p. split; [exact P1|]. split; [|exact P3]. eapply nothing_took; eassumption.
        -- eapply nothing_trans; eassumption.
      * exfalso. unfold link_result in Eb. destruct (event_new F V p); discriminate Eb.
    + destruct K as [K|K]; auto.
Qed.
End Waiting.

(** ** Waiting ends *)
Lemma uart_front_is l p : uart_front l = Whole p -> exists c q, p = framed c q.
Proof.
  destruct l as [|t l]; [discriminate|]. cbn [uart_front]. destruct (t =? 4); [|discriminate].
  unfold link_front. destruct l as [|c [|k rest]]; try discriminate.
  destruct (Nat.leb_spec (N.to_nat k) (length rest)) as [Hk|]; [|discriminate].
  intros X. injection X as <-. exists c, (firstn (N.to_nat k) rest). unfold framed.
  rewrite firstn_length, Nat.min_l, N2Nat.id by exact Hk. reflexivity.
Qed.
Lemma uart_front_whole code params more :
  uart_front (uart_frame (framed code params) ++ more) = Whole (framed code params).
Proof. cbn [uart_frame app uart_front]. rewrite N.eqb_refl. apply link_front_whole. Qed.

(** What [a ++ b] starts with, if [a] starts with it already. *)
Lemma uart_front_more a b : uart_front a <> Incomplete -> uart_front (a ++ b) = uart_front a.
Proof.
  destruct a as [|t a]; [contradiction|]. cbn [app uart_front]. destruct (t =? 4); [|reflexivity].
  unfold link_front. destruct a as [|c [|k rest]]; try contradiction. cbn [app].
  destruct (Nat.leb_spec (N.to_nat k) (length rest)) as [Hk|]; [|contradiction]. intros _.
  replace (Nat.leb _ _) with true by (symmetry; apply Nat.leb_le; rewrite app_length; lia).
  rewrite firstn_app. replace (N.to_nat k - length rest)%nat with 0%nat by lia.
  cbn [firstn]. now rewrite app_nil_r.
Qed.

Lemma queue_after s s1 : possible queue_history s -> arrives queue_history s s1 ->
  q_total s1 = q_total s ->
  pending queue_history s s1 ++ concat (q_arrivals s1) = q_pending s ++ concat (q_arrivals s).
Proof.
  intros Hs [m Hm] Q1. unfold q_pending, pending. cbn [received consumed queue_history] in *.
  assert (L1 : (q_consumed s <= length (q_received s))%nat) by apply Hs.
  assert (L2 : (q_consumed s <= length (q_received s1))%nat) by (rewrite Hm, app_length; lia).
  unfold q_total in Q1. apply (f_equal (skipn (q_consumed s))) in Q1.
  rewrite !skipn_app in Q1. replace (q_consumed s - length (q_received s))%nat with 0%nat in Q1 by lia.
  replace (q_consumed s - length (q_received s1))%nat with 0%nat in Q1 by lia. exact Q1.
Qed.

Lemma queue_wait_read F V n : forall s p rest, possible queue_history s -> event_packet p ->
  q_pending s ++ concat (q_arrivals s) = uart_frame p ++ rest -> (length (q_arrivals s) < n)%nat ->
  exists s', waiting blocked (uart_read F V queue_controller) n s = (s', Some (uart_result F V p))
    /\ took queue_history s s' (uart_frame p)
    /\ q_pending s' ++ concat (q_arrivals s') = rest.
Proof.
  pose proof queue_buffering as HB.
  induction n as [|n IH]; intros s p rest Hs Hp Htot Hn; [lia|]. cbn [waiting].
  pose proof (uart_read_front F V _ _ HB s Hs) as K.
  pose proof (queue_read_flow F V s) as [Q1 Q2].
  destruct (uart_read F V queue_controller s) as [s1 r]. cbn [fst] in Q1, Q2.
  assert (Ha : arrives queue_history s s1) by (destruct (uart_front _); destruct K as [_ K]; apply K).
  pose proof (queue_after s s1 Hs Ha Q1) as T. rewrite Htot in T.
  pose proof Hp as (code & params & Ep & _).
  pose proof (uart_front_more (pending queue_history s s1) (concat (q_arrivals s1))) as Fm.
  rewrite T, Ep, uart_front_whole in Fm. rewrite <- Ep in Fm.
  destruct (uart_front (pending queue_history s s1)) as [|t|p'] eqn:Ef.
  - destruct K as [-> HN]. cbn [blocked].
    assert (Hs1 : possible queue_history s1) by apply HN.
    assert (C1 : q_consumed s1 = q_consumed s) by apply HN.
    destruct (IH s1 p rest Hs1 Hp) as (s' & -> & HT & HR).
    + rewrite <- T. f_equal. unfold q_pending, pending. cbn. now rewrite C1.
    + destruct (q_arrivals s) as [|c l] eqn:Ea; [|cbn [length pred] in *; lia]. exfalso.
      destruct (q_arrivals s1) as [|? ?]; [|cbn in Q2; lia]. cbn [concat] in T. rewrite app_nil_r in T.
      rewrite T, Ep, uart_front_whole in Ef. discriminate Ef.
    + exists s'. split; [reflexivity|]. split; [eapply nothing_took; eassumption|exact HR].
  - specialize (Fm ltac:(discriminate)). discriminate Fm.
  - specialize (Fm ltac:(discriminate)). injection Fm as <-. destruct K as [-> HT].
    assert (Eb : blocked (uart_result (E := N) F V p) = false)
      by (unfold uart_result; now destruct (event_new F V p)).
    rewrite Eb. exists s1. split; [reflexivity|]. split; [exact HT|].
    destruct HT as (_ & _ & [more M] & C1 & _). rewrite M in T. rewrite <- app_assoc in T.
    apply app_inv_head in T. rewrite <- T. f_equal. unfold q_pending. cbn in C1. rewrite C1.
    change (S (length p)) with (length (uart_frame p)). rewrite skipn_add.
    change (skipn (q_consumed s) (q_received s1) = uart_frame p ++ more) in M. rewrite M.
    now rewrite skipn_all_app.
Qed.

Lemma link_front_is l p : link_front l = Whole p -> exists c q, p = framed c q.
Proof.
  unfold link_front. destruct l as [|c [|k rest]]; try discriminate.
  destruct (Nat.leb_spec (N.to_nat k) (length rest)) as [Hk|]; [|discriminate].
  intros X. injection X as <-. exists c, (firstn (N.to_nat k) rest). unfold framed.
  rewrite firstn_length, Nat.min_l, N2Nat.id by exact Hk. reflexivity.
Qed.
Lemma link_front_more a b : link_front a <> Incomplete -> link_front (a ++ b) = link_front a.
Proof.
  intros H. pose proof (uart_front_more (0x04 :: a) b) as K. cbn [app uart_front] in K.
  rewrite N.eqb_refl in K. exact (K H).
Qed.
Lemma link_front_not_foreign l t : link_front l <> Foreign t.
Proof.
  unfold link_front. destruct l as [|c [|k rest]]; try discriminate. now destruct (Nat.leb _ _).
Qed.

Lemma queue_wait_link F V n : forall s p rest, possible queue_history s -> event_packet p ->
  q_pending s ++ concat (q_arrivals s) = p ++ rest -> (length (q_arrivals s) < n)%nat ->
  exists s', waiting blocked (link_read F V queue_controller) n s = (s', Some (link_result F V p))
    /\ took queue_history s s' p
    /\ q_pending s' ++ concat (q_arrivals s') = rest.
Proof.
  pose proof queue_buffering as HB.
  induction n as [|n IH]; intros s p rest Hs Hp Htot Hn; [lia|]. cbn [waiting].
  pose proof (link_read_front F V _ _ HB s Hs) as K.
  pose proof (queue_link_flow F V s) as [Q1 Q2].
  destruct (link_read F V queue_controller s) as [s1 r]. cbn [fst] in Q1, Q2.
  assert (Ha : arrives queue_history s s1) by (destruct (link_front _); destruct K as [_ K]; apply K).
  pose proof (queue_after s s1 Hs Ha Q1) as T. rewrite Htot in T.
  pose proof Hp as (code & params & Ep & _).
  pose proof (link_front_more (pending queue_history s s1) (concat (q_arrivals s1))) as Fm.
  rewrite T, Ep, link_front_whole in Fm. rewrite <- Ep in Fm.
  destruct (link_front (pending queue_history s s1)) as [|t|p'] eqn:Ef.
  - destruct K as [-> HN]. cbn [blocked].
    assert (Hs1 : possible queue_history s1) by apply HN.
    assert (C1 : q_consumed s1 = q_consumed s) by apply HN.
    destruct (IH s1 p rest Hs1 Hp) as (s' & -> & HT & HR).
    + rewrite <- T. f_equal. unfold q_pending, pending. cbn. now rewrite C1.
    + destruct (q_arrivals s) as [|c l] eqn:Ea; [|cbn [length pred] in *; lia]. exfalso.
      destruct (q_arrivals s1) as [|? ?]; [|cbn in Q2; lia]. cbn [concat] in T. rewrite app_nil_r in T.
      rewrite T, Ep, link_front_whole in Ef. discriminate Ef.
    + exists s'. split; [reflexivity|]. split; [eapply nothing_took; eassumption|exact HR].
  - now apply link_front_not_foreign in Ef.
  - specialize (Fm ltac:(discriminate)). injection Fm as <-. destruct K as [-> HT].
    assert (Eb : blocked (link_result (E := N) F V p) = false)
      by (unfold link_result; now destruct (event_new F V p)).
    rewrite Eb. exists s1. split; [reflexivity|]. split; [exact HT|].
    destruct HT as (_ & _ & [more M] & C1 & _). rewrite M in T. rewrite <- app_assoc in T.
    apply app_inv_head in T. rewrite <- T. f_equal. unfold q_pending. cbn in C1. rewrite C1.
    rewrite skipn_add. change (skipn (q_consumed s) (q_received s1) = p ++ more) in M. rewrite M.
    now rewrite skipn_all_app.
Qed.

Lemma q_arrive_ready s : q_ready (q_arrive s) = q_ready s.
Proof. unfold q_arrive. now destruct (q_arrivals s). Qed.

Lemma queue_wait_command F V c r later n : forall k s, arguments_typed F c -> @rejection V N c = None ->
  q_ready s = repeat Busy k ++ r :: later -> r <> Busy -> (k < n)%nat ->
  exists s', waiting method_blocked (run_command F V uart_header queue_controller c) n s
             = (s', Some (reported c (match r with
                                      | Broken code => Err (Other code)
                                      | _ => Ok tt
                                      end))).
Proof.
  assert (HH : In (uart_header, uart_header_bytes) header_formats) by (left; reflexivity).
  induction n as [|n IH]; intros k s HA HR Hq Hr Hn; [lia|]. cbn [waiting].
  rewrite (call_written F V uart_header uart_header_bytes queue_controller HH) by assumption.
  cbn [ctl_write queue_controller]. rewrite q_arrive_ready, Hq.
  destruct k as [|k]; cbn [repeat app].
  - destruct r as [| |code]; [|contradiction|]; unfold reported; destruct (has_own_errors c);
      cbn [method_blocked blocked]; eauto.
  - assert (Eb : method_blocked (reported (V := V) c (Err (@WouldBlock N))) = true)
      by (unfold reported; now destruct (has_own_errors c)).
    rewrite Eb. apply (IH k); auto. lia.
Qed.

(** ** Newer versions *)
Lemma newer_ai F F' a : newer F F' -> ai_reachable F a -> ai_reachable F' a.
Proof.
  intros HN [(t & mn & mx & H1 & H2 & H3)|H]; [left|now right].
  exists t, mn, mx. split; [exact H1|]. split; [exact H2|]. revert H3. unfold ai_with_range.
  destruct (mn <? from_millis 20); [discriminate|]. destruct HN as [_ HN].
  destruct (version_5_0 F) eqn:E1; [rewrite (HN eq_refl); auto|].
  destruct (version_5_0 F'); cbn [negb andb]; [|auto].
  destruct (advertising_type_eqb t ScannableUndirected && (mn <? from_millis 100))%bool; [discriminate|auto].
Qed.

Lemma channel_flags F F' : ba_flags F ChannelClassification_decl = ba_flags F' ChannelClassification_decl.
Proof. destruct F as [[] []], F' as [[] []]; vm_compute; reflexivity. Qed.
Lemma channel_make F F' m : make F channel_table m = make F' channel_table m.
Proof.
  induction m as [| | | |m IH x|bs]; cbn [make]; try reflexivity.
  - now rewrite IH.
Qed.
Lemma channel_obtainable F F' v : obtainable F channel_table v -> obtainable F' channel_table v.
Proof.
  intros (m & Hm & Hv). exists m. rewrite <- (channel_make F F' m). split; [|exact Hv]. clear Hv. revert Hm.
  assert (Hc : constants F channel_table = constants F' channel_table) by apply (channel_flags F F').
  induction m as [| | | |m IH x|bs]; cbn [well_typed]; rewrite ?Hc; tauto.
Qed.

Lemma newer_any F F' : newer F F' -> any_4_2_5_0 F = true -> any_4_2_5_0 F' = true.
Proof. intros [H _]. exact H. Qed.
Lemma newer_own F F' t : newer F F' -> own_address_type_exists F t = true -> own_address_type_exists F' t = true.
Proof. intros H. destruct t; cbn [own_address_type_exists]; try (intros; reflexivity); now apply newer_any. Qed.
Lemma newer_filter F F' t : newer F F' -> scan_filter_policy_exists F t = true -> scan_filter_policy_exists F' t = true.
Proof. intros H. destruct t; cbn [scan_filter_policy_exists]; try (intros; reflexivity); now apply newer_any. Qed.
Lemma newer_peer F F' t : newer F F' -> peer_addr_type_exists F t = true -> peer_addr_type_exists F' t = true.
Proof. intros H. destruct t; cbn [peer_addr_type_exists]; try (intros; reflexivity); now apply newer_any. Qed.

Lemma newer_typed F F' V (c : command V) : newer F F' -> arguments_typed F c -> arguments_typed F' (renamed F' c).
Proof.
  intros HN. destruct c; cbn [renamed arguments_typed]; try exact id.
  - intros (A & B & C & D). split; [now apply (newer_ai F)|]. split; [now apply (newer_own F)|]. auto.
  - intros _. now destruct (version_5_0 F').
  - intros (A & B & C). split; [exact A|]. split; [now apply (newer_own F)|now apply (newer_filter F)].
  - intros (A & B & C & D & G & I). split; [exact A|]. split; [exact B|]. split; [now apply (newer_peer F)|].
    split; [now apply (newer_own F)|auto].
  - apply channel_obtainable.
Qed.
Lemma newer_exists F F' V (c : command V) : newer F F' -> command_exists F c = true ->
  command_exists F' (renamed F' c) = true.
Proof.
  intros [_ HN]. destruct c; cbn [renamed command_exists]; auto.
  intros _. destruct (version_5_0 F') eqn:E; cbn [command_exists]; rewrite E; reflexivity.
Qed.
Lemma newer_call F F' V St E (C : controller St E) H enc c s : newer F F' -> In (H, enc) header_formats ->
  arguments_typed F c ->
  run_command F' V H C (renamed F' c) s = run_command F V H C c s.
Proof.
  intros HN HH HA. pose proof (newer_typed F F' V c HN HA) as HA'.
  assert (HR : @rejection V E (renamed F' c) = rejection c
               /\ command_opcode (renamed F' c) = command_opcode c
               /\ command_params (renamed F' c) = command_params c
               /\ forall r : outcome (nb_error E) unit, reported (renamed F' c) r = reported c r).
  { destruct c; cbn [renamed]; auto. destruct (version_5_0 F'); auto. }
  destruct HR as (HR & HO & HP & HX).
  destruct (@rejection V E c) as [e|] eqn:Ec.
  - rewrite (call_rejected F V H enc C HH c s e) by assumption.
    now rewrite (call_rejected F' V H enc C HH _ s e) by assumption.
  - rewrite (call_written F V H enc C HH) by assumption.
    rewrite (call_written F' V H enc C HH) by assumption. rewrite HO, HP.
    destruct (ctl_write _ _ _ _) as [s' r]. now rewrite HX.
Qed.

(** ** The documented read *)
Section Documented.
Context {St E : Type} (C : controller St E) (h : history St) (HB : buffering C h).

Lemma documented s b : possible h s -> nth_error (pending h s s) 0 = Some 4 ->
  nth_error (pending h s s) 3 = Some b ->
  let (s', r) := documented_read C s in
  match r with
  | Ok buf => exists data, took h s s' data /\ length data = (2 + N.to_nat b)%nat
                /\ buf = data ++ repeat 0 (255 - N.to_nat b)
  | Err WouldBlock => nothing h s s' /\ (length (pending h s s') < 2 + N.to_nat b)%nat
  | _ => False
  end.
Proof.
  pose proof (buffering_contract _ _ HB) as HC.
  intros Hs H0 H3. unfold documented_read, abind.
  destruct (peek_cases C h HC s 0 Hs) as (s1 & r1 & P1 & N1 & K1).
  pose proof (peek_ready _ _ HB s 0 Hs) as R1. rewrite P1 in *.
  assert (Hc : (consumed h s <= length (received h s))%nat) by now apply (consumed_received _ _ HC).
  assert (A1 : arrives h s s1) by apply N1.
  pose proof (pending_nth h s s s1 0 4 Hc A1 H0) as Q0.
  pose proof (pending_nth h s s s1 3 b Hc A1 H3) as Q3.
  assert (L1 : (0 < length (pending h s s1))%nat) by (apply nth_error_Some; congruence).
  rewrite (proj2 (Nat.ltb_lt _ _) L1) in R1. destruct R1 as [x ->]. destruct K1 as [K1 _].
  assert (x = 4) as -> by congruence. rewrite N.eqb_refl.
  assert (Hs1 : possible h s1) by apply N1. assert (C1 : consumed h s1 = consumed h s) by apply N1.
  destruct (peek_cases C h HC s1 3 Hs1) as (s2 & r2 & P2 & N2 & K2).
  pose proof (peek_ready _ _ HB s1 3 Hs1) as R2. rewrite P2 in *.
  assert (A2 : arrives h s1 s2) by apply N2.
  rewrite (pending_same h s s1 s2 C1) in *.
  assert (Hc1 : (consumed h s <= length (received h s1))%nat)
    by (rewrite <- C1; now apply (consumed_received _ _ HC)).
  pose proof (pending_nth h s s1 s2 3 b Hc1 A2 Q3) as Q3'.
  assert (L2 : (3 < length (pending h s s2))%nat) by (apply nth_error_Some; congruence).
  rewrite (proj2 (Nat.ltb_lt _ _) L2) in R2. destruct R2 as [x ->]. destruct K2 as [K2 Hx].
  assert (x = b) as -> by congruence.
  pose proof (nothing_trans h s s1 s2 N1 N2) as N3.
  assert (Hs2 : possible h s2) by apply N2.
  unfold read_into_prefix, abind, pure, slice.
  assert (Hn : (N.to_nat b <= 255)%nat) by (unfold byte in Hx; lia).
  assert (Hz : length (zeros (255 + 2)) = (255 + 2)%nat) by apply repeat_length.
  rewrite Hz. replace (Nat.leb 0 (2 + N.to_nat b) && Nat.leb (2 + N.to_nat b) (255 + 2))%bool with true
    by (symmetry; apply andb_true_intro; split; apply Nat.leb_le; lia).
  cbn [skipn]. rewrite Nat.sub_0_r.
  set (sub := firstn (2 + N.to_nat b) (zeros (255 + 2))).
  assert (Hsub : length sub = (2 + N.to_nat b)%nat) by (unfold sub; rewrite firstn_length, Hz; lia).
  destruct (read_cases C h HC s2 sub Hs2) as (s3 & r3 & P3 & K3).
  pose proof (read_ready _ _ HB s2 sub Hs2) as R3. rewrite P3 in *.
  destruct N3 as (B1 & B2 & B3 & B4). rewrite (pending_same h s s2 s3 B3) in *. rewrite Hsub in *.
  destruct (Nat.leb_spec (2 + N.to_nat b) (length (pending h s s3))) as [HL|HL].
  - destruct R3 as [data ->]. destruct K3 as (K3 & _ & K4). exists data.
    split; [eapply nothing_took; [|exact K4]; now repeat split|]. split; [exact K3|].
    f_equal. unfold zeros. change (S (S (N.to_nat b))) with (2 + N.to_nat b)%nat.
    replace (255 + 2)%nat with ((2 + N.to_nat b) + (255 - N.to_nat b))%nat by lia.
    rewrite repeat_app, skipn_app, repeat_length, Nat.sub_diag, skipn_all2 by (rewrite repeat_length; lia).
    reflexivity.
  - subst r3. split; [|exact HL]. eapply nothing_trans; [|exact K3]. now repeat split.
Qed.
End Documented.

Section Taken.
Context {St E : Type} (C : controller St E) (h : history St) (HB : buffering C h).

Lemma documented_took s code b params rest s' buf : possible h s ->
  pending h s s = uart_frame (framed code (b :: params)) ++ rest ->
  documented_read C s = (s', Ok buf) ->
  took h s s' (uart_frame (framed code (b :: params))) <-> N.to_nat b = (length params + 2)%nat.
Proof.
  intros Hs Hp Hd. pose proof (documented C h HB s b Hs) as K. rewrite Hp in K.
  specialize (K eq_refl eq_refl). rewrite Hd in K. destruct K as (data & HT & Hl & _). split.
  - intros HT'. destruct HT as (_ & _ & _ & H1 & _), HT' as (_ & _ & _ & H2 & _).
    rewrite H1 in H2. cbn [uart_frame framed length] in H2. lia.
  - intros Hb. destruct HT as (T1 & T2 & [more T3] & T4 & T5).
    pose proof (buffering_contract _ _ HB) as HC.
    destruct (pending_grows h s s s') as [m M]; [now apply (consumed_received _ _ HC)|exact T2|].
    assert (data = uart_frame (framed code (b :: params))) as <-.
    { rewrite T3, Hp in M. rewrite <- app_assoc in M.
      apply (f_equal (firstn (length data))) in M. rewrite firstn_all_app in M by reflexivity. rewrite M.
      rewrite firstn_all_app; [reflexivity|]. cbn [uart_frame framed length]. lia. }
    repeat split; eauto.
Qed.
End Taken.

Lemma documented_refuted : exists s p, possible queue_history s /\ event_packet p
  /\ q_pending s = uart_frame p
  /\ forall n, repeated (documented_read queue_controller) n s = (s, repeat (Err WouldBlock) n).
Proof.
  exists {| q_received := [0x04; 0x10; 0x01; 0x42]; q_consumed := 0; q_arrivals := [];
            q_written := []; q_ready := [] |}, [0x10; 0x01; 0x42].
  split; [split; [repeat constructor|split; [cbn; lia|constructor]]|].
  split; [exists 0x10, [0x42]; repeat split; repeat constructor|]. split; [reflexivity|].
  induction n as [|n IH]; [reflexivity|]. cbn [repeated repeat].
  replace (documented_read queue_controller _) with
    ({| q_received := [0x04; 0x10; 0x01; 0x42]; q_consumed := 0; q_arrivals := [];
        q_written := []; q_ready := [] |}, @Err (nb_error N) (list N) WouldBlock) by (vm_compute; reflexivity).
  now rewrite IH.
Qed.
