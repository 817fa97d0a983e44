(** * Separate links for commands and events, and catching up. *)
From Verif Require Import Base Model_Types Model_Bitflags Model_Intervals Model_EventBase Model_Command
  Model_Event Model_Host Spec_Wire Spec_Errors Spec_Report Spec_Interval Spec_Flags Spec_Host Spec_Link
  Spec_Retry Spec_Dialogue Spec_Split Spec_Example Proofs_Base Proofs_Event Proofs_Errors Proofs_Report
  Proofs_Complete Proofs_Host Proofs_Calls Proofs_Streams Proofs_Link Proofs_Queue Proofs_Retry Proofs_Panic
  Proofs_Dialogue.
Open Scope list_scope.
Open Scope N_scope.

Lemma link_header_known : In (cmd_link_header, cmd_link_header_bytes) header_formats.
Proof. right. now left. Qed.
Lemma link_bytes_header {V} (c : command V) :
  cmd_link_header_bytes (command_opcode c) (length (command_params c)) ++ command_params c = link_bytes c.
Proof. unfold link_bytes, cmd_link_header_bytes. now rewrite <- app_assoc. Qed.
Lemma command_bytes_link {V} (c : command V) : command_bytes c = 0x01 :: link_bytes c.
Proof. unfold command_bytes. rewrite <- link_bytes_header. reflexivity. Qed.

(** ** The stream on a command link *)
Lemma parse_link_step fuel op (ps rest : list N) : u16 op -> (length ps <= 255)%nat ->
  parse_link_commands_fuel (S fuel) (le 2 op ++ [N.of_nat (length ps)] ++ ps ++ rest)
  = match parse_link_commands_fuel fuel rest with
    | Some found => Some ((op, ps) :: found)
    | None => None
    end.
Proof.
  intros Ho Hl.
  change (le 2 op ++ [N.of_nat (length ps)] ++ ps ++ rest)
    with (op / 1 mod 256 :: op / 256 mod 256 :: N.of_nat (length ps) :: ps ++ rest).
  cbn [parse_link_commands_fuel]. rewrite Nat2N.id, app_length.
  replace (Nat.leb _ _) with true by (symmetry; apply Nat.leb_le; lia).
  rewrite skipn_all_app, firstn_all_app by reflexivity.
  replace (op / 1 mod 256 + 256 * (op / 256 mod 256)) with op; [reflexivity|].
  unfold u16 in Ho. rewrite N.div_1_r. lia.
Qed.
Lemma parse_link_all F V (cs : list (command V)) :
  Forall (fun c => arguments_typed F c /\ @rejection V unit c = None) cs ->
  forall fuel, (length cs <= fuel)%nat ->
  parse_link_commands_fuel fuel (flat_map link_bytes cs)
  = Some (map (fun c => (command_opcode c, command_params c)) cs).
Proof.
  induction 1 as [|c cs [HA HR] _ IH]; intros fuel Hf; [now destruct fuel|].
  destruct fuel as [|fuel]; [cbn in Hf; lia|]. cbn [length] in Hf. cbn [flat_map]. unfold link_bytes at 1.
  rewrite <- !app_assoc. destruct (params_ok F V c HA HR) as [Hl _].
  rewrite parse_link_step; [|apply command_opcode_u16|lia]. rewrite IH by lia. reflexivity.
Qed.
Lemma link_stream F V (cs : list (command V)) :
  Forall (fun c => arguments_typed F c /\ @rejection V unit c = None) cs ->
  parse_link_commands (flat_map link_bytes cs)
  = Some (map (fun c => (command_opcode c, command_params c)) cs).
Proof.
  intros H. apply (parse_link_all F V cs H). clear H. induction cs as [|c cs IH]; [cbn; lia|].
  cbn [flat_map]. rewrite app_length.
  assert (1 <= length (link_bytes c))%nat
    by (unfold link_bytes; rewrite !app_length, le_length; cbn [length]; lia).
  cbn [length]. lia.
Qed.

Section Calls.
Context (F : features) (V : vendor) {St E : Type} (C : controller St E) (h : history St) (HC : contract C h).

Lemma link_call c s : arguments_typed F c -> possible h s ->
  let (s', r) := run_command F V cmd_link_header C c s in
  put h s s' (if succeeded r then link_bytes c else [])
  /\ (succeeded r = true -> @rejection V unit c = None).
Proof.
  intros HA Hs. pose proof link_header_known as HH.
  destruct (@rejection V E c) as [e|] eqn:HR.
  - rewrite (call_rejected F V _ _ C HH c s e) by assumption. cbn [succeeded].
    split; [|discriminate]. split; [exact Hs|]. split; [apply arrives_refl|]. now rewrite app_nil_r.
  - rewrite (call_written F V _ _ C HH) by assumption.
    pose proof (write_contract _ _ HC s (cmd_link_header_bytes (command_opcode c) (length (command_params c)))
      (command_params c) Hs) as W.
    destruct (ctl_write _ _ _ _) as [s' r]. destruct W as (W1 & W2 & W3 & W4).
    split; [|intros _; destruct (@rejection V unit c) eqn:HU; [|reflexivity]].
    + split; [exact W1|]. split; [exact W2|]. split; [exact W3|].
      unfold reported. destruct r as [[]|e|]; [|rewrite W4|contradiction].
      * destruct (has_own_errors c); cbn [succeeded]; rewrite W4, link_bytes_header; reflexivity.
      * destruct (has_own_errors c), e; cbn [succeeded]; now rewrite app_nil_r.
    + exfalso. destruct c; cbn [rejection] in HR, HU; try discriminate HU;
        repeat match goal with
        | H : context [if ?b then _ else _] |- _ => destruct b
        | H : context [match ?b with _ => _ end] |- _ => destruct b
        end; discriminate.
Qed.

(** ** Sessions over two links *)
Lemma split_session_spec os s : Forall (typed_operation F) os -> possible h s ->
  let (s', log) := split_session F V C os s in
  map fst log = os
  /\ written h s' = written h s ++ flat_map link_bytes (split_sent log)
  /\ parse_link_commands (flat_map link_bytes (split_sent log))
     = Some (map (fun c => (command_opcode c, command_params c)) (split_sent log))
  /\ exists ps, Forall event_packet ps
      /\ (exists more, pending h s s' = concat ps ++ more)
      /\ consumed h s' = (consumed h s + length (concat ps))%nat
      /\ split_received log = map (link_result F V) ps.
Proof.
  intros H. revert s.
  assert (G : forall s, possible h s ->
    let (s', log) := split_session F V C os s in
    possible h s' /\ arrives h s s' /\
    map fst log = os
    /\ written h s' = written h s ++ flat_map link_bytes (split_sent log)
    /\ Forall (fun c => arguments_typed F c /\ @rejection V unit c = None) (split_sent log)
    /\ exists ps, Forall event_packet ps
        /\ (exists more, pending h s s' = concat ps ++ more)
        /\ consumed h s' = (consumed h s + length (concat ps))%nat
        /\ split_received log = map (link_result F V) ps).
  2: { intros s Hs. specialize (G s Hs). destruct (split_session F V C os s) as [s' log].
       destruct G as (_ & _ & G1 & G2 & G3 & G4). split; [exact G1|]. split; [exact G2|].
       split; [|exact G4]. now apply (link_stream F). }
  induction H as [|o os Ho _ IH]; intros s Hs; cbn [split_session].
  - split; [exact Hs|]. split; [apply arrives_refl|]. split; [reflexivity|]. split; [now rewrite app_nil_r|].
    split; [constructor|].
    exists []. split; [constructor|]. split; [now eexists|]. cbn. split; [lia|reflexivity].
  - destruct o as [c|]; cbn [split_perform].
    + pose proof (link_call c s Ho Hs) as K. destruct (run_command _ _ _ _ _ _) as [s1 r].
      destruct K as ((K1 & K2 & K3 & K4) & K5). specialize (IH s1 K1).
      destruct (split_session F V C os s1) as [s2 log].
      destruct IH as (I1 & I2 & I3 & I4 & IR & ps & I5 & I6 & I7 & I8).
      split; [exact I1|]. split; [eapply arrives_trans; eassumption|]. split; [cbn; now rewrite I3|].
      split; [|split].
      * rewrite I4, K4, <- app_assoc. unfold split_sent. cbn [flat_map].
        destruct (succeeded r); cbn [app flat_map]; reflexivity.
      * unfold split_sent. cbn [flat_map]. destruct (succeeded r); cbn [app]; [|exact IR].
        constructor; [|exact IR]. auto.
      * exists ps. split; [exact I5|]. rewrite <- (pending_same h s s1 s2 K3). split; [exact I6|].
        split; [lia|]. exact I8.
    + destruct (link_read_cases F V C h HC s Hs) as (s1 & r & -> & K).
      destruct K as [(Hf & HN)|(p & Hp & HT & ->)].
      * destruct HN as (K1 & K2 & K3 & K4).
        specialize (IH s1 K1). destruct (split_session F V C os s1) as [s2 log].
        destruct IH as (I1 & I2 & I3 & I4 & IR & ps & I5 & I6 & I7 & I8).
        split; [exact I1|]. split; [eapply arrives_trans; eassumption|]. split; [cbn; now rewrite I3|].
        split; [rewrite I4, K4; reflexivity|]. split; [exact IR|].
        exists ps. split; [exact I5|]. rewrite <- (pending_same h s s1 s2 K3). split; [exact I6|].
        split; [lia|]. unfold split_received. cbn [flat_map]. rewrite Hf. exact I8.
      * pose proof HT as (K1 & K2 & _ & K3 & K4).
        specialize (IH s1 K1). destruct (split_session F V C os s1) as [s2 log].
        destruct IH as (I1 & I2 & I3 & I4 & IR & ps & I5 & I6 & I7 & I8).
        split; [exact I1|]. split; [eapply arrives_trans; eassumption|]. split; [cbn; now rewrite I3|].
        split; [rewrite I4, K4; reflexivity|]. split; [exact IR|].
        exists (p :: ps). split; [now constructor|].
        destruct HT as (_ & _ & [x X] & _). destruct I6 as [y Y].
        destruct (pending_grows h s s1 s2) as [z Z]; [|exact I2|].
        { apply (consumed_received _ _ HC) in K1. lia. }
        assert (W : x ++ z = concat ps ++ y).
        { unfold pending in Y. rewrite K3, skipn_add in Y. fold (pending h s s2) in Y.
          now rewrite Z, X, <- app_assoc, skipn_all_app in Y by reflexivity. }
        split; [exists y; cbn [concat]; rewrite Z, X, <- !app_assoc; f_equal; exact W|].
        split; [cbn [concat]; rewrite app_length; lia|].
        unfold split_received. cbn [flat_map map]. rewrite link_result_reports. cbn [app]. f_equal. exact I8.
Qed.

Lemma link_wait_command c n s : arguments_typed F c -> possible h s ->
  let (s', r) := waiting method_blocked (run_command F V cmd_link_header C c) n s in
  put h s s' (match r with
              | Some r => if succeeded r then link_bytes c else []
              | None => []
              end).
Proof.
  intros HA. revert s. induction n as [|n IH]; intros s Hs; cbn [waiting].
  - split; [exact Hs|]. split; [apply arrives_refl|]. now rewrite app_nil_r.
  - pose proof (link_call c s HA Hs) as K.
    destruct (run_command F V cmd_link_header C c s) as [s1 r]. destruct K as [K _].
    destruct (method_blocked r) eqn:Eb; [|exact K]. destruct K as (K1 & K2 & K3 & K4).
    specialize (IH s1 K1). destruct (waiting _ _ n s1) as [s2 r2]. destruct IH as (I1 & I2 & I3 & I4).
    split; [exact I1|]. split; [eapply arrives_trans; eassumption|]. split; [congruence|].
    rewrite I4, K4, (blocked_not_succeeded V r Eb). now rewrite app_nil_r.
Qed.

(** ** What is taken for an answer *)
Lemma put_took s s1 s2 out l : put h s s1 out -> took h s1 s2 l -> exchanged h s s2 out l.
Proof.
  intros (P1 & P2 & P3 & P4) (T1 & T2 & T3 & T4 & T5).
  split; [exact T1|]. split; [eapply arrives_trans; eassumption|].
  rewrite (pending_same h s s1 s2 P3) in T3. split; [exact T3|]. split; [lia|congruence].
Qed.

Lemma await_first op m : forall n s s' a, possible h s -> await F V C op m n s = (s', Some a) ->
  exists ps p, Forall event_packet (ps ++ [p]) /\ took h s s' (flat_map uart_frame (ps ++ [p]))
    /\ Forall (passed_over F V op) ps /\ taken_for F V op a p.
Proof.
  induction n as [|n IH]; intros s s' a Hs; cbn [await]; [discriminate|].
  pose proof (wait_read F V C h HC m s Hs) as K.
  destruct (waiting blocked (uart_read F V C) m s) as [s1 [r|]]; [|discriminate].
  destruct K as [[K1 K2]|(p & P1 & P2 & ->)].
  - assert (Hs1 : possible h s1) by apply K2.
    destruct r as [[ev]|e|]; try discriminate. intros HI.
    destruct (IH s1 s' a Hs1 HI) as (ps & p & J1 & J2 & J3).
    exists ps, p. split; [exact J1|]. split; [eapply nothing_took; eassumption|exact J3].
  - assert (Hs1 : possible h s1) by apply P2. unfold uart_result.
    assert (Next : passed_over F V op p -> await F V C op m n s1 = (s', Some a) ->
      exists ps q, Forall event_packet (ps ++ [q]) /\ took h s s' (flat_map uart_frame (ps ++ [q]))
        /\ Forall (passed_over F V op) ps /\ taken_for F V op a q).
    { intros Hp HI. destruct (IH s1 s' a Hs1 HI) as (ps & q & J1 & J2 & J3 & J4).
      exists (p :: ps), q. split; [now constructor|]. split; [|split; [now constructor|exact J4]].
      cbn [app flat_map]. eapply (took_then C h HC); eassumption. }
    destruct (event_new F V p) as [ev|e|] eqn:Ee; [|intros HI; apply Next; [congruence|exact HI]|discriminate].
    destruct (is_answer V op ev) as [a'|] eqn:Ea.
    + intros X. injection X as <- <-. exists [], p. split; [now constructor|].
      cbn [app flat_map]. rewrite app_nil_r. split; [exact P2|]. split; [constructor|]. now exists ev.
    + intros HI. apply Next; [|exact HI]. intros ev' He'. congruence.
Qed.
Lemma ask_first c n s s' a : arguments_typed F c -> possible h s -> ask F V C n c s = (s', Some a) ->
  exists ps p, Forall event_packet (ps ++ [p])
    /\ exchanged h s s' (command_bytes c) (flat_map uart_frame (ps ++ [p]))
    /\ Forall (passed_over F V (command_opcode c)) ps /\ taken_for F V (command_opcode c) a p.
Proof.
  intros HA Hs. unfold ask. pose proof (wait_command F V C h HC c n s HA Hs) as W.
  destruct (waiting _ _ n s) as [s1 [r|]]; [|discriminate]. destruct (succeeded r); [|discriminate].
  intros HI. assert (Hs1 : possible h s1) by apply W.
  destruct (await_first _ _ _ _ _ _ Hs1 HI) as (ps & p & J1 & J2 & J3). exists ps, p.
  split; [exact J1|]. split; [eapply put_took; eassumption|exact J3].
Qed.

Lemma link_await_first op m : forall n s s' a, possible h s -> link_await F V C op m n s = (s', Some a) ->
  exists ps p, Forall event_packet (ps ++ [p]) /\ took h s s' (concat (ps ++ [p]))
    /\ Forall (passed_over F V op) ps /\ taken_for F V op a p.
Proof.
  induction n as [|n IH]; intros s s' a Hs; cbn [link_await]; [discriminate|].
  pose proof (wait_link F V C h HC m s Hs) as K.
  destruct (waiting blocked (link_read F V C) m s) as [s1 [r|]]; [|discriminate].
  destruct K as [[K1 K2]|(p & P1 & P2 & ->)].
  - assert (Hs1 : possible h s1) by apply K2.
    destruct r as [ev|e|]; try discriminate. intros HI.
    destruct (IH s1 s' a Hs1 HI) as (ps & p & J1 & J2 & J3).
    exists ps, p. split; [exact J1|]. split; [eapply nothing_took; eassumption|exact J3].
  - assert (Hs1 : possible h s1) by apply P2. unfold link_result.
    assert (Next : passed_over F V op p -> link_await F V C op m n s1 = (s', Some a) ->
      exists ps q, Forall event_packet (ps ++ [q]) /\ took h s s' (concat (ps ++ [q]))
        /\ Forall (passed_over F V op) ps /\ taken_for F V op a q).
    { intros Hp HI. destruct (IH s1 s' a Hs1 HI) as (ps & q & J1 & J2 & J3 & J4).
      exists (p :: ps), q. split; [now constructor|]. split; [|split; [now constructor|exact J4]].
      cbn [app concat]. eapply (took_then C h HC); eassumption. }
    destruct (event_new F V p) as [ev|e|] eqn:Ee; [|intros HI; apply Next; [congruence|exact HI]|discriminate].
    destruct (is_answer V op ev) as [a'|] eqn:Ea.
    + intros X. injection X as <- <-. exists [], p. split; [now constructor|].
      cbn [app concat]. rewrite app_nil_r. split; [exact P2|]. split; [constructor|]. now exists ev.
    + intros HI. apply Next; [|exact HI]. intros ev' He'. congruence.
Qed.
Lemma link_ask_first c n s s' a : arguments_typed F c -> possible h s -> link_ask F V C n c s = (s', Some a) ->
  exists ps p, Forall event_packet (ps ++ [p])
    /\ exchanged h s s' (link_bytes c) (concat (ps ++ [p]))
    /\ Forall (passed_over F V (command_opcode c)) ps /\ taken_for F V (command_opcode c) a p.
Proof.
  intros HA Hs. unfold link_ask. pose proof (link_wait_command c n s HA Hs) as W.
  destruct (waiting _ _ n s) as [s1 [r|]]; [|discriminate]. destruct (succeeded r); [|discriminate].
  intros HI. assert (Hs1 : possible h s1) by apply W.
  destruct (link_await_first _ _ _ _ _ _ Hs1 HI) as (ps & p & J1 & J2 & J3). exists ps, p.
  split; [exact J1|]. split; [eapply put_took; eassumption|exact J3].
Qed.
End Calls.

(** ** Dialogues over two links *)
Section Dialogue.
Context (F : features) (V : vendor) (respond : list N -> list N -> list (list N)).
Notation C := (device respond).

Lemma link_device_waits n s :
  waiting blocked (link_read F V C) n s = waiting blocked (link_read F V queue_controller) n s.
Proof. reflexivity. Qed.

Lemma link_keeps s : let s' := fst (link_read F V queue_controller s) in
  q_ready s' = q_ready s /\ q_written s' = q_written s
  /\ (length (q_arrivals s') <= length (q_arrivals s))%nat.
Proof.
  cbv zeta.
  assert (A : forall x, q_ready (q_arrive x) = q_ready x /\ q_written (q_arrive x) = q_written x
                        /\ (length (q_arrivals (q_arrive x)) <= length (q_arrivals x))%nat).
  { intros x. unfold q_arrive. destruct (q_arrivals x) as [|c l] eqn:E; cbn; [rewrite E; auto|auto]. }
  apply (link_read_keeps F V queue_controller
    (fun x => q_ready x = q_ready s /\ q_written x = q_written s
              /\ (length (q_arrivals x) <= length (q_arrivals s))%nat)).
  - cbn. apply A.
  - intros x buf (H1 & H2 & H3). cbn. destruct (A x) as (A1 & A2 & ?).
    destruct (Nat.leb _ _); cbn; rewrite A1, A2; repeat split; auto; lia.
Qed.
Lemma link_wait_keeps n : forall s, let s' := fst (waiting blocked (link_read F V queue_controller) n s) in
  q_ready s' = q_ready s /\ q_written s' = q_written s
  /\ (length (q_arrivals s') <= length (q_arrivals s))%nat.
Proof.
  induction n as [|n IH]; intros s; cbn [waiting fst]; [auto|].
  pose proof (link_keeps s) as K. destruct (link_read F V queue_controller s) as [s1 r]. cbn [fst] in K.
  destruct (blocked r); [|exact K]. cbv zeta in *. specialize (IH s1).
  destruct K as (K1 & K2 & K3), IH as (I1 & I2 & I3). repeat split; [congruence..|lia].
Qed.

Lemma link_await_gets (c : command V) a p m : answered F V (command_opcode c) a p ->
  forall ps n s rest, Forall (unrelated F V) ps -> possible queue_history s ->
  q_pending s ++ concat (q_arrivals s) = concat (ps ++ [p]) ++ rest ->
  (length (q_arrivals s) < m)%nat -> (length ps < n)%nat ->
  exists s', link_await F V C (command_opcode c) m n s = (s', Some a) /\ possible queue_history s'
    /\ q_pending s' ++ concat (q_arrivals s') = rest
    /\ q_ready s' = q_ready s /\ q_written s' = q_written s
    /\ (length (q_arrivals s') <= length (q_arrivals s))%nat.
Proof.
  intros HA. induction ps as [|q ps IH]; intros n s rest Hps Hs Ht Hm Hn;
    (destruct n as [|n]; [lia|]); cbn [link_await]; rewrite link_device_waits.
  - cbn [app concat] in Ht. rewrite app_nil_r in Ht.
    destruct (queue_wait_link F V m s p rest Hs (answered_packet F V respond c a p HA) Ht Hm) as (s' & Hw & HT & HR).
    pose proof (link_wait_keeps m s) as K. rewrite Hw in *. cbn [fst] in K. destruct K as (K1 & K2 & K3).
    destruct (answered_event F V respond c a p HA) as (ev & He & Ha). unfold link_result. rewrite He, Ha.
    exists s'. split; [reflexivity|]. split; [apply HT|]. auto.
  - inversion Hps as [|? ? Hq Hps']; subst. cbn [app concat] in Ht. rewrite <- app_assoc in Ht.
    assert (Hp : event_packet q) by apply Hq.
    destruct (queue_wait_link F V m s q _ Hs Hp Ht Hm) as (s1 & Hw & HT & HR).
    pose proof (link_wait_keeps m s) as K. rewrite Hw in *. cbn [fst] in K. destruct K as (K1 & K2 & K3).
    assert (Hs1 : possible queue_history s1) by apply HT. cbn [length] in Hn.
    destruct (IH n s1 rest Hps' Hs1 HR) as (s' & HI & J1 & J2 & J3 & J4 & J5); [lia..|].
    exists s'. split; [|split; [exact J1|split; [exact J2|split; [congruence|split; [congruence|lia]]]]].
    unfold link_result. destruct (event_new F V q) as [ev|e|] eqn:Ee; [|exact HI|].
    + now rewrite (unrelated_event F V c q ev Hq Ee).
    + exfalso. now apply Hq.
Qed.

Lemma link_device_takes (c : command V) later n : arguments_typed F c -> @rejection V N c = None ->
  forall k s, possible queue_history s -> Forall bytes (respond (q_written s) (link_bytes c)) ->
  q_ready s = repeat Busy k ++ Ready :: later -> (k < n)%nat ->
  exists s', waiting method_blocked (run_command F V cmd_link_header C c) n s = (s', Some (reported c (Ok tt)))
    /\ possible queue_history s'
    /\ q_pending s' ++ concat (q_arrivals s')
       = (q_pending s ++ concat (q_arrivals s)) ++ concat (respond (q_written s) (link_bytes c))
    /\ q_ready s' = later /\ q_written s' = q_written s ++ link_bytes c
    /\ (length (q_arrivals s') <= length (q_arrivals s) + length (respond (q_written s) (link_bytes c)))%nat.
Proof.
  pose proof link_header_known as HH.
  intros HA HR. induction n as [|n IH]; intros k s Hs Hb Hq Hn; [lia|]. cbn [waiting].
  rewrite (call_written F V cmd_link_header cmd_link_header_bytes C HH) by assumption.
  cbn [ctl_write device]. rewrite q_arrive_ready, Hq, link_bytes_header.
  destruct (reported_ok V c) as (R1 & R2 & R3).
  destruct (q_arrive_spec s Hs) as (A1 & A2 & A3 & A4). pose proof (arrive_pending s Hs) as A5.
  pose proof (proj2 (q_arrive_total s)) as A6.
  destruct k as [|k]; cbn [repeat app].
  - rewrite R2. eexists. split; [reflexivity|].
    split; [|split; [|split; [reflexivity|split]]].
    + destruct A1 as (B1 & B2 & B3). split; [exact B1|]. split; [exact B2|]. cbn. apply Forall_app. auto.
    + rewrite <- A5. cbn [q_expect q_write q_arrivals]. rewrite concat_app, app_assoc. reflexivity.
    + cbn. now rewrite A4.
    + cbn. rewrite app_length, A6. lia.
  - rewrite R3. cbn [repeat app] in *.
    assert (W : q_written (q_write [] (repeat Busy k ++ Ready :: later) (q_arrive s)) = q_written s)
      by (cbn; now rewrite app_nil_r).
    destruct (IH k (q_write [] (repeat Busy k ++ Ready :: later) (q_arrive s))) as (s' & J0 & J1 & J2 & J3 & J4 & J5).
    + exact A1.
    + now rewrite W.
    + reflexivity.
    + lia.
    + exists s'. split; [exact J0|]. rewrite W in J2, J4, J5. split; [exact J1|].
      split; [|split; [exact J3|split; [exact J4|]]].
      * rewrite J2. f_equal. exact A5.
      * cbn [q_write q_arrivals] in J5. lia.
Qed.

Lemma link_dialogue cs : Forall (fun c => arguments_typed F c /\ @rejection V N c = None) cs ->
  forall answers w ready k b, link_serves F V respond w cs answers -> takes (length cs) ready ->
  exists m, forall n, (m <= n)%nat ->
  forall ps s, possible queue_history s -> q_written s = w -> q_ready s = ready ->
  (length (q_arrivals s) <= k)%nat -> Forall (unrelated F V) ps -> (length ps <= b)%nat ->
  q_pending s ++ concat (q_arrivals s) = concat ps ->
  exists s', link_asks F V C n cs s = (s', map Some answers)
    /\ q_written s' = w ++ flat_map link_bytes cs.
Proof.
  induction 1 as [|c cs [HA HR] _ IH]; intros answers w ready k b HS HK.
  - inversion HS; subst. exists 0%nat. intros n _ ps s _ <- _ _ _ _ _. exists s. cbn. now rewrite app_nil_r.
  - inversion HS as [|? ? ? a rest before p after HB HC Hb Ha HP HS']; subst. cbn [length] in HK.
    inversion HK as [|? busy l HK' E1 E2]; subst.
    set (r := respond w (link_bytes c)) in *.
    destruct (IH rest _ l (k + length r)%nat (length after) HS' HK') as [m Hm].
    exists (m + S busy + S (k + length r) + S (b + length before))%nat. intros n Hn ps s Hs Hw Hq Hk Hps Hl Ht.
    cbn [link_asks]. unfold link_ask.
    destruct (link_device_takes c l n HA HR busy s Hs) as (s1 & -> & S1 & S2 & S3 & S4 & S5).
    { now rewrite Hw. } { exact Hq. } { lia. }
    destruct (reported_ok V c) as (-> & _).
    rewrite Hw in S2, S4, S5. fold r in S2, S5. rewrite Ht, HC in S2.
    destruct (link_await_gets c a p n HP (ps ++ before) n s1 (concat after)) as (s2 & -> & T1 & T2 & T3 & T4 & T5).
    + apply Forall_app. auto.
    + exact S1.
    + rewrite S2, <- !concat_app. f_equal. now rewrite <- !app_assoc.
    + lia.
    + rewrite app_length. lia.
    + destruct (Hm n) with (ps := after) (s := s2) as (s3 & -> & U).
      * lia. * exact T1. * congruence. * congruence. * lia. * exact Ha. * lia. * exact T2.
      * exists s3. split; [reflexivity|]. cbn [flat_map]. now rewrite app_assoc.
Qed.
End Dialogue.

Lemma link_dialogues F V respond cs answers s ps :
  Forall (fun c => arguments_typed F c /\ @rejection V N c = None) cs ->
  possible queue_history s -> takes (length cs) (q_ready s) ->
  q_pending s ++ concat (q_arrivals s) = concat ps -> Forall (unrelated F V) ps ->
  link_serves F V respond (q_written s) cs answers ->
  exists m, forall n, (m <= n)%nat ->
  exists s', link_asks F V (device respond) n cs s = (s', map Some answers)
    /\ q_written s' = q_written s ++ flat_map link_bytes cs.
Proof.
  intros Hcs Hs HT Hp Hps HS.
  destruct (link_dialogue F V respond cs Hcs answers _ _ (length (q_arrivals s)) (length ps) HS HT) as [m Hm].
  exists m. intros n Hn. exact (Hm n Hn ps s Hs eq_refl eq_refl (Nat.le_refl _) Hps (Nat.le_refl _) Hp).
Qed.

Lemma link_dialogue_case :
  let cs := [CReset; CReadRssi 0x0201; CDisconnect 0x0001 RemoteTerminationByUser] in
  let answers :=
    [Completed (RetReset Success);
     Completed (RetReadRssi {| rssi_status := Success; rssi_conn_handle := 0x0201; rssi_rssi := (-16)%Z |});
     Accepted CommandDisallowed] in
  Forall (fun c => arguments_typed F41 c /\ @rejection test_vendor N c = None) cs
  /\ possible queue_history example_device /\ takes (length cs) (q_ready example_device)
  /\ link_serves F41 test_vendor split_respond [] cs answers
  /\ snd (link_asks F41 test_vendor (device split_respond) 50 cs example_device) = map Some answers.
Proof.
  cbv zeta. split; [repeat (constructor; [split; vm_compute; reflexivity|]); constructor|].
  split; [split; [constructor|split; [cbn; lia|constructor]]|].
  split; [apply (takes_more 2 1), (takes_more 1 0), (takes_more 0 2), takes_none|].
  split; [|vm_compute; reflexivity].
  apply (link_serves_one F41 test_vendor split_respond [] CReset _ _ _ [[0x77; 0]] [0x0E; 4; 1; 0x03; 0x0C; 0] [[0x10; 1; 0x42]]).
  - vm_compute. repeat constructor.
  - vm_compute. reflexivity.
  - constructor; [|constructor]. unrelated_packet 0x77 (@nil N). left. exists 0x77, []. repeat split; discriminate.
  - constructor; [|constructor]. unrelated_packet 0x10 [0x42]. left. exists 0x10, [0x42]. repeat split; discriminate.
  - apply (by_completion F41 test_vendor (command_opcode (V := test_vendor) CReset) 1 (RetReset Success) [0]);
      [reflexivity|repeat constructor|cbn; lia|]. split; [reflexivity|]. exists 0, []. split; reflexivity.
  - apply (link_serves_one F41 test_vendor split_respond _ (CReadRssi 0x0201) _ _ _ [[0x0E; 3; 1; 0; 0]]
             [0x0E; 7; 1; 0x05; 0x14; 0; 0x01; 0x02; 0xF0] []).
    + vm_compute. repeat constructor.
    + vm_compute. reflexivity.
    + constructor; [|constructor]. unrelated_packet 0x0E [1; 0; 0]. right. left. exists 1. reflexivity.
    + constructor.
    + apply (by_completion F41 test_vendor (command_opcode (V := test_vendor) (CReadRssi 0x0201)) 1
        (RetReadRssi {| rssi_status := Success; rssi_conn_handle := 0x0201; rssi_rssi := (-16)%Z |})
        [0; 0x01; 0x02; 0xF0]); [reflexivity|repeat constructor|cbn; lia|].
      split; [reflexivity|]. split; [reflexivity|]. split; [split; cbn [rssi_rssi]; lia|]. exists 0. split; reflexivity.
    + apply (link_serves_one F41 test_vendor split_respond _ (CDisconnect 0x0001 RemoteTerminationByUser) _ _ _ []
             [0x0F; 4; 0x0C; 1; 0x06; 0x04] []).
      * vm_compute. repeat constructor.
      * vm_compute. reflexivity.
      * constructor.
      * constructor.
      * apply (by_status F41 test_vendor (command_opcode (V := test_vendor) (CDisconnect 0x0001 RemoteTerminationByUser)) 1 0x0C);
          [reflexivity|reflexivity|]. reflexivity.
      * constructor.
Qed.

(** ** Catching up: nothing that was received is held back *)
Section Buffering.
Context (F : features) (V : vendor) {St E : Type} (C : controller St E) (h : history St) (HB : buffering C h).
Let HC : contract C h := buffering_contract C h HB.

(** What is left, seen from the start. *)
Lemma pending_rest s s1 s2 l : possible h s1 -> arrives h s1 s2 ->
  (exists more, pending h s s1 = l ++ more) -> consumed h s1 = (consumed h s + length l)%nat ->
  pending h s s2 = l ++ pending h s1 s2.
Proof.
  intros H1 HA [more M] Hc.
  destruct (pending_grows h s s1 s2) as [z Z]; [|exact HA|].
  - apply (consumed_received _ _ HC) in H1. lia.
  - unfold pending at 2. rewrite Hc, skipn_add. fold (pending h s s2).
    rewrite Z, M, <- app_assoc, skipn_all_app by reflexivity. reflexivity.
Qed.

Lemma session_state os : Forall (typed_operation F) os -> forall s, possible h s ->
  let (s', _) := session F V C os s in possible h s' /\ arrives h s s'.
Proof.
  induction 1 as [|o os Ho _ IH]; intros s Hs; cbn [session]; [split; [exact Hs|apply arrives_refl]|].
  assert (K : let (s1, _) := perform F V C o s in possible h s1 /\ arrives h s s1).
  { destruct o as [c|]; cbn [perform].
    - pose proof (call_contract F V C h HC c s Ho Hs) as K. destruct (run_command _ _ _ _ _ _). tauto.
    - destruct (uart_read_cases F V C h HC s Hs) as (s1 & r & -> & K).
      destruct K as [(_ & K & _)|(p & _ & K & _)]; split; apply K. }
  destruct (perform F V C o s) as [s1 r]. destruct K as [K1 K2]. specialize (IH s1 K1).
  destruct (session F V C os s1) as [s2 log]. split; [apply IH|]. eapply arrives_trans; [exact K2|apply IH].
Qed.
Lemma split_session_state os : Forall (typed_operation F) os -> forall s, possible h s ->
  let (s', _) := split_session F V C os s in possible h s' /\ arrives h s s'.
Proof.
  induction 1 as [|o os Ho _ IH]; intros s Hs; cbn [split_session]; [split; [exact Hs|apply arrives_refl]|].
  assert (K : let (s1, _) := split_perform F V C o s in possible h s1 /\ arrives h s s1).
  { destruct o as [c|]; cbn [split_perform].
    - pose proof (link_call F V C h HC c s Ho Hs) as K. destruct (run_command _ _ _ _ _ _).
      destruct K as [K _]. split; apply K.
    - destruct (link_read_cases F V C h HC s Hs) as (s1 & r & -> & K).
      destruct K as [(_ & K)|(p & _ & K & _)]; split; apply K. }
  destruct (split_perform F V C o s) as [s1 r]. destruct K as [K1 K2]. specialize (IH s1 K1).
  destruct (split_session F V C os s1) as [s2 log]. split; [apply IH|]. eapply arrives_trans; [exact K2|apply IH].
Qed.

Lemma session_caught_up os s : Forall (typed_operation F) os -> possible h s ->
  let (s1, log) := session F V C os s in
  let (s2, r) := uart_read F V C s1 in
  r = Err WouldBlock ->
  exists ps rest, Forall event_packet ps /\ received_packets log = map (uart_result F V) ps
    /\ pending h s s2 = flat_map uart_frame ps ++ rest
    /\ (rest = [] \/ exists l, rest = 0x04 :: l)
    /\ forall p more, event_packet p -> rest <> uart_frame p ++ more.
Proof.
  intros Ho Hs. pose proof (session_state os Ho s Hs) as S0.
  pose proof (session_spec F V C h HC os s Ho Hs) as SS.
  destruct (session F V C os s) as [s1 log]. destruct S0 as [Hs1 _]. destruct SS as (_ & _ & ps & P1 & P2 & P3 & P4).
  pose proof (uart_read_front F V C h HB s1 Hs1) as K. destruct (uart_read F V C s1) as [s2 r].
  intros ->. exists ps, (pending h s1 s2). split; [exact P1|]. split; [exact P4|].
  assert (HA : arrives h s1 s2).
  { destruct (uart_front _); destruct K as [_ K]; apply K. }
  split; [now apply pending_rest|].
  destruct (uart_front (pending h s1 s2)) as [|t|p] eqn:Ef.
  - split.
    + destruct (pending h s1 s2) as [|t l]; [now left|right]. cbn [uart_front] in Ef.
      destruct (N.eqb_spec t 4) as [->|]; [now exists l|discriminate Ef].
    + intros p more (code & params & -> & _) X. rewrite X in Ef.
      unfold uart_frame in Ef. cbn [app uart_front] in Ef. change (4 =? 4) with true in Ef. cbv iota in Ef.
      rewrite link_front_whole in Ef. discriminate Ef.
  - now destruct K.
  - destruct K as [K _]. unfold uart_result in K. destruct (event_new F V p); discriminate K.
Qed.

Lemma split_caught_up os s : Forall (typed_operation F) os -> possible h s ->
  let (s1, log) := split_session F V C os s in
  let (s2, r) := link_read F V C s1 in
  r = Err WouldBlock ->
  exists ps rest, Forall event_packet ps /\ split_received log = map (link_result F V) ps
    /\ pending h s s2 = concat ps ++ rest
    /\ forall p more, event_packet p -> rest <> p ++ more.
Proof.
  intros Ho Hs. pose proof (split_session_state os Ho s Hs) as S0.
  pose proof (split_session_spec F V C h HC os s Ho Hs) as SS.
  destruct (split_session F V C os s) as [s1 log]. destruct S0 as [Hs1 _].
  destruct SS as (_ & _ & _ & ps & P1 & P2 & P3 & P4).
  pose proof (link_read_front F V C h HB s1 Hs1) as K. destruct (link_read F V C s1) as [s2 r].
  intros ->. exists ps, (pending h s1 s2). split; [exact P1|]. split; [exact P4|].
  assert (HA : arrives h s1 s2).
  { destruct (link_front _); destruct K as [_ K]; apply K. }
  split; [now apply pending_rest|].
  intros p more (code & params & -> & _) X. rewrite X, link_front_whole in K.
  destruct K as [K _]. unfold link_result in K. destruct (event_new F V _); discriminate K.
Qed.
End Buffering.
