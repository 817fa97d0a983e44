(** * Programs that decide from results what to do next (proofs). *)
From Verif Require Import Base Model_Types Model_EventBase Model_Command Model_Event Model_Host
  Spec_Wire Spec_Errors Spec_Host Spec_Link Spec_Split Spec_Retry Spec_Dialogue Spec_Loop Spec_Program
  Proofs_Base Proofs_Calls Proofs_Link Proofs_Send Proofs_Queue Proofs_Retry Proofs_Dialogue Proofs_Split Proofs_Loop.
Open Scope list_scope.
Open Scope N_scope.

(** ** Programs make sessions *)
Lemma goes_typed F V R A (p : program V R A) log a : goes p log a -> typed_program F p ->
  Forall (typed_operation F) (map fst log).
Proof.
  induction 1 as [|o next r log a _ IH]; cbn; [constructor|]. intros [H1 H2]. constructor; auto.
Qed.
Lemma run_session F V St E (C : controller St E) A (p : program V (report V E) A) : forall s s' a,
  run (perform F V C) p s = (s', a) <-> exists log, session F V C (map fst log) s = (s', log) /\ goes p log a.
Proof.
  induction p as [b|o next IH]; intros s s' a; cbn [run].
  - split.
    + intros [= <- <-]. exists []. split; [reflexivity|constructor].
    + intros (log & H1 & H2). inversion H2; subst. cbn in H1. now injection H1 as <-.
  - destruct (perform F V C o s) as [s1 r] eqn:Ep. rewrite IH. split.
    + intros (log & H1 & H2). exists ((o, r) :: log). split; [|now constructor].
      cbn [map fst session]. now rewrite Ep, H1.
    + intros (log & H1 & H2). inversion H2 as [|o' next' r' log' a' H2']; subst.
      cbn [map fst session] in H1. rewrite Ep in H1.
      destruct (session F V C (map fst log') s1) as [s2 log2] eqn:Es. injection H1 as <- <- ->.
      exists log'. auto.
Qed.
Lemma run_split_session F V St E (C : controller St E) A (p : program V (split_report V E) A) : forall s s' a,
  run (split_perform F V C) p s = (s', a) <-> exists log, split_session F V C (map fst log) s = (s', log) /\ goes p log a.
Proof.
  induction p as [b|o next IH]; intros s s' a; cbn [run].
  - split.
    + intros [= <- <-]. exists []. split; [reflexivity|constructor].
    + intros (log & H1 & H2). inversion H2; subst. cbn in H1. now injection H1 as <-.
  - destruct (split_perform F V C o s) as [s1 r] eqn:Ep. rewrite IH. split.
    + intros (log & H1 & H2). exists ((o, r) :: log). split; [|now constructor].
      cbn [map fst split_session]. now rewrite Ep, H1.
    + intros (log & H1 & H2). inversion H2 as [|o' next' r' log' a' H2']; subst.
      cbn [map fst split_session] in H1. rewrite Ep in H1.
      destruct (split_session F V C (map fst log') s1) as [s2 log2] eqn:Es. injection H1 as <- <- ->.
      exists log'. auto.
Qed.
Lemma run_uart F V St E (C : controller St E) h A (p : program V (report V E) A) s :
  contract C h -> typed_program F p -> possible h s ->
  let (s', a) := run (perform F V C) p s in
  exists log ps, goes p log a /\ Forall event_packet ps
    /\ received_packets log = map (uart_result F V) ps
    /\ written h s' = written h s ++ flat_map command_bytes (sent_commands log)
    /\ (exists more, pending h s s' = flat_map uart_frame ps ++ more)
    /\ consumed h s' = (consumed h s + length (flat_map uart_frame ps))%nat.
Proof.
  intros HC HT Hs. destruct (run (perform F V C) p s) as [s' a] eqn:Er.
  apply run_session in Er as (log & Es & HG).
  pose proof (session_spec F V C h HC (map fst log) s (goes_typed F V _ _ _ _ _ HG HT) Hs) as K. rewrite Es in K.
  destruct K as (_ & K2 & ps & K3 & K4 & K5 & K6). exists log, ps. auto 7.
Qed.
Lemma run_split F V St E (C : controller St E) h A (p : program V (split_report V E) A) s :
  contract C h -> typed_program F p -> possible h s ->
  let (s', a) := run (split_perform F V C) p s in
  exists log ps, goes p log a /\ Forall event_packet ps
    /\ split_received log = map (link_result F V) ps
    /\ written h s' = written h s ++ flat_map link_bytes (split_sent log)
    /\ (exists more, pending h s s' = concat ps ++ more)
    /\ consumed h s' = (consumed h s + length (concat ps))%nat.
Proof.
  intros HC HT Hs. destruct (run (split_perform F V C) p s) as [s' a] eqn:Er.
  apply run_split_session in Er as (log & Es & HG).
  pose proof (split_session_spec F V C h HC (map fst log) s (goes_typed F V _ _ _ _ _ HG HT) Hs) as K. rewrite Es in K.
  destruct K as (_ & K2 & _ & ps & K3 & K4 & K5 & K6). exists log, ps. auto 7.
Qed.

(** ** Answers *)
Lemma rejection_plain V E (c : command V) e : @rejection V E c = Some e -> answer_of (V := V) (Checked (Err (Other e))) = Some (Some e).
Proof.
  assert (G : forall y, @rejection V E c <> Some (HComm y)).
  { intros y. destruct c; cbn; try discriminate;
      repeat match goal with |- context [match ?x with _ => _ end] => destruct x end; discriminate. }
  destruct e; try reflexivity. intros H. now destruct (G _ H).
Qed.
Lemma reported_answer V E (c : command V) r x : answer_of (reported (E := E) c r) = Some x ->
  x = None /\ succeeded (reported (E := E) c r) = true.
Proof.
  unfold reported. destruct (has_own_errors c), r as [[]|[e|]|]; cbn; try discriminate; intros [= <-]; auto.
Qed.
Lemma succeeded_answer V E (r : method_result V E) : succeeded r = true -> answer_of r = Some None.
Proof. destruct r as [[]|[]]; cbn; try discriminate; reflexivity. Qed.

Section Asking.
Context (F : features) (V : vendor) {St E : Type} (C : controller St E).
Lemma ask_rejected H enc c e n s : In (H, enc) header_formats -> arguments_typed F c -> @rejection V E c = Some e ->
  header_ask F V C H (S n) c s = (s, Some (Some e)).
Proof.
  intros HH HA HR. unfold header_ask. cbn [waiting].
  rewrite (call_rejected F V H enc C HH c s e HA HR). cbn [method_blocked blocked].
  f_equal. exact (rejection_plain V E c e HR).
Qed.
Lemma ask_answer H enc c n s s' x : In (H, enc) header_formats -> arguments_typed F c ->
  header_ask F V C H n c s = (s', Some x) ->
  x = rejection c
  /\ match x with Some _ => s' = s | None => header_put F V C H n c s = (s', true) end.
Proof.
  intros HH HA. destruct (one_write F V E H enc c HH HA) as [(e & HR & Hrun)|(HR & header & payload & Hrun)].
  - destruct n as [|n]; [discriminate|]. rewrite (ask_rejected H enc c e n s HH HA HR). intros [= <- <-]. auto.
  - rewrite HR. unfold header_ask, header_put.
    assert (W : forall n s, match snd (waiting method_blocked (run_command F V H C c) n s) with
                            | Some r => exists w, r = reported c w | None => True end).
    { clear n s s'. induction n as [|n IH]; intros s; cbn [waiting]; [exact I|].
      rewrite Hrun. destruct (ctl_write C s header payload) as [s1 w].
      destruct (method_blocked (reported c w)); [apply IH|]. now exists w. }
    specialize (W n s). destruct (waiting _ _ n s) as [s1 [r|]]; [|discriminate]. cbn [snd] in W.
    destruct W as (w & ->). intros X. injection X as <- X. apply reported_answer in X as [-> X]. now rewrite X.
Qed.
End Asking.

(** ** On the queue with a device *)
Section Device.
Context (F : features) (V : vendor) (respond : list N -> list N -> list (list N)).
Notation C := (device respond).
Context (frame : list N -> list N) (get : nat -> queue -> queue * option (message V)) (H : hci_header)
  (enc : N -> nat -> list N) (bytes_of : command V -> list N) (reply : list (command V) -> command V -> list (list N)).
Hypothesis (HG : gets F V frame get) (HH : In (H, enc) header_formats)
  (HB : forall c, bytes_of c = enc (command_opcode c) (length (command_params c)) ++ command_params c)
  (HC : chunks_of F frame bytes_of reply respond).

Lemma runs_ideal A (p : patient V N A) : typed_patient F p -> forall sent inbox a' sent' inbox' ready k,
  ideally (event_new F V) reply p sent inbox = Some (a', sent', inbox') ->
  Forall event_packet inbox -> Forall (sendable F) sent -> takes (length sent' - length sent) ready ->
  (length sent <= length sent')%nat /\
  exists m, forall patience, (m <= patience)%nat ->
  forall s, possible queue_history s -> q_written s = flat_map bytes_of sent -> q_ready s = ready ->
  (length (q_arrivals s) <= k)%nat -> q_pending s ++ concat (q_arrivals s) = flat_map frame inbox ->
  exists s', wait_run (header_ask F V C H patience) (get patience) p s = (s', Some a')
    /\ q_written s' = flat_map bytes_of sent' /\ q_pending s' ++ concat (q_arrivals s') = flat_map frame inbox'.
Proof.
  induction p as [b|c next IH|next IH]; intros HT sent inbox a' sent' inbox' ready k HI Hp Hse Htk; cbn [ideally wait_run] in *.
  - injection HI as <- <- <-. split; [lia|]. exists 0%nat. intros patience _ s _ Hw _ _ Ht. exists s. auto.
  - destruct HT as [HA HT]. destruct (@rejection V N c) as [e|] eqn:HR.
    + destruct (IH _ HT sent inbox a' sent' inbox' ready k HI Hp Hse Htk) as (L & m & Hm).
      split; [exact L|]. exists (S m). intros patience Hn s Hs Hw Hq Hk Ht.
      destruct patience as [|n]; [lia|]. rewrite (ask_rejected F V C H enc c e n s HH HA HR).
      apply (Hm (S n)); auto. lia.
    + destruct (HC sent c Hse (conj HA HR)) as (B1 & B2 & B3).
      set (r := respond (flat_map bytes_of sent) (bytes_of c)) in *.
      assert (Hin : Forall event_packet (inbox ++ reply sent c)) by (apply Forall_app; auto).
      assert (Hse' : Forall (sendable F) (sent ++ [c])).
      { apply Forall_app. split; [exact Hse|repeat constructor; assumption]. }
      assert (L : (length (sent ++ [c]) <= length sent')%nat).
      { destruct (IH _ HT (sent ++ [c]) _ a' sent' inbox' (repeat Ready (length sent' - length (sent ++ [c]))) 0%nat HI Hin Hse')
          as [L _]; [|exact L].
        generalize (length sent' - length (sent ++ [c]))%nat. intros x. induction x as [|x IHx]; [constructor|].
        exact (takes_more x 0 _ IHx). }
      rewrite app_length in L. cbn [length] in L. split; [lia|].
      replace (length sent' - length sent)%nat with (S (length sent' - length (sent ++ [c])))%nat in Htk
        by (rewrite app_length; cbn [length]; lia).
      inversion Htk as [|? busy l Htk' E1 E2]; subst.
      destruct (IH _ HT (sent ++ [c]) _ a' sent' inbox' l (k + length r)%nat HI Hin Hse' Htk') as (_ & m & Hm).
      exists (m + S busy)%nat. intros patience Hn s Hs Hw Hq Hk Ht.
      assert (Ew : respond (q_written s) (enc (command_opcode c) (length (command_params c)) ++ command_params c) = r).
      { unfold r. now rewrite Hw, HB. }
      destruct (device_takes_by F V respond H enc c l patience HH HA HR busy s Hs) as (s1 & Ep & S1 & S2 & S3 & S4 & S5).
      { now rewrite Ew. } { exact Hq. } { lia. }
      rewrite Ew in S2, S5.
      assert (Ea : header_ask F V C H patience c s = (s1, Some None)).
      { unfold header_put in Ep. unfold header_ask. destruct (waiting _ _ patience s) as [x [y|]]; [|discriminate Ep].
        injection Ep as <- Ep. now rewrite (succeeded_answer V N y Ep). }
      rewrite Ea.
      destruct (Hm patience) with (s := s1) as (s2 & -> & T1 & T2).
      * lia.
      * exact S1.
      * rewrite S4, Hw, flat_map_app. cbn [flat_map]. now rewrite HB, app_nil_r.
      * exact S3.
      * lia.
      * rewrite S2, Ht, B2. now rewrite flat_map_app.
      * exists s2. auto.
  - destruct inbox as [|packet inbox]; [discriminate HI|].
    destruct (message_of (event_new F V) packet) as [msg|] eqn:Em; [|discriminate HI].
    inversion Hp as [|? ? Hp1 Hp2]; subst.
    destruct (IH msg (HT packet msg Hp1 Em) sent inbox a' sent' inbox' ready k HI Hp2 Hse Htk) as (L & m & Hm).
    split; [exact L|]. exists (m + S k)%nat. intros patience Hn s Hs Hw Hq Hk Ht. cbn [flat_map] in Ht.
    destruct (HG patience s packet _ msg Hs Hp1 Em Ht) as (s1 & -> & S1 & S2 & S3 & S4 & S5); [lia|].
    destruct (Hm patience) with (s := s1) as (s2 & -> & T1 & T2); [lia|exact S1|congruence|congruence|lia|exact S2|].
    exists s2. auto.
Qed.
End Device.

Lemma runs_uart F V A (p : patient V N A) reply respond inbox a' sent inbox' s :
  typed_patient F p -> chunks_of F uart_frame command_bytes reply respond -> Forall event_packet inbox ->
  ideally (event_new F V) reply p [] inbox = Some (a', sent, inbox') ->
  possible queue_history s -> q_written s = [] -> takes (length sent) (q_ready s) ->
  q_pending s ++ concat (q_arrivals s) = flat_map uart_frame inbox ->
  exists m, forall patience, (m <= patience)%nat ->
  exists s', uart_wait_run F V (device respond) patience p s = (s', Some a')
    /\ q_written s' = flat_map command_bytes sent
    /\ q_pending s' ++ concat (q_arrivals s') = flat_map uart_frame inbox'.
Proof.
  intros HV HC Hp HI Hs Hw HT Ht.
  assert (HH : In (uart_header, uart_header_bytes) header_formats) by (left; reflexivity).
  destruct (runs_ideal F V respond uart_frame (uart_get F V (device respond)) uart_header uart_header_bytes command_bytes
    reply (uart_gets F V respond) HH ltac:(reflexivity) HC A p HV [] inbox a' sent inbox' (q_ready s)
    (length (q_arrivals s)) HI Hp (Forall_nil _)) as (_ & m & Hm); [now rewrite Nat.sub_0_r|].
  exists m. intros patience Hn. apply (Hm patience Hn s); auto.
Qed.
Lemma runs_link F V A (p : patient V N A) reply respond inbox a' sent inbox' s :
  typed_patient F p -> chunks_of F (fun p => p) link_bytes reply respond -> Forall event_packet inbox ->
  ideally (event_new F V) reply p [] inbox = Some (a', sent, inbox') ->
  possible queue_history s -> q_written s = [] -> takes (length sent) (q_ready s) ->
  q_pending s ++ concat (q_arrivals s) = concat inbox ->
  exists m, forall patience, (m <= patience)%nat ->
  exists s', link_wait_run F V (device respond) patience p s = (s', Some a')
    /\ q_written s' = flat_map link_bytes sent
    /\ q_pending s' ++ concat (q_arrivals s') = concat inbox'.
Proof.
  intros HV HC Hp HI Hs Hw HT Ht.
  assert (HH : In (cmd_link_header, cmd_link_header_bytes) header_formats) by (right; left; reflexivity).
  destruct (runs_ideal F V respond (fun p => p) (link_get F V (device respond)) cmd_link_header cmd_link_header_bytes link_bytes
    reply (link_gets F V respond) HH ltac:(intros c; unfold link_bytes, cmd_link_header_bytes; now rewrite <- app_assoc)
    HC A p HV [] inbox a' sent inbox' (q_ready s)
    (length (q_arrivals s)) HI Hp (Forall_nil _)) as (_ & m & Hm); [now rewrite Nat.sub_0_r|].
  exists m. intros patience Hn. rewrite <- flat_map_same. apply (Hm patience Hn s); auto.
Qed.

(** ** On any controller *)
Section Any.
Context (F : features) (V : vendor) {St E : Type} (C : controller St E) (h : history St).
Hypothesis HC : contract C h.
Context (frame : list N -> list N) (bytes_of : command V -> list N)
  (get : St -> St * option (message V)) (ask : command V -> St -> St * option (option (host_error E (VStatus V)))).
Hypothesis (HG : forall s s' m, possible h s -> get s = (s', Some m) ->
    exists p, event_packet p /\ took h s s' (frame p) /\ message_of (event_new F V) p = Some m)
  (HP : forall c s s' x, arguments_typed F c -> possible h s -> ask c s = (s', Some x) ->
    x = rejection c /\ match x with Some _ => s' = s | None => put h s s' (bytes_of c) end).

Lemma runs_any A (p : patient V E A) : typed_patient F p -> forall sent s s' a', possible h s ->
  wait_run ask get p s = (s', Some a') ->
  exists ps cs, Forall event_packet ps
    /\ ideally (event_new F V) (fun _ _ => []) p sent ps = Some (a', sent ++ cs, [])
    /\ exchanged h s s' (flat_map bytes_of cs) (flat_map frame ps).
Proof.
  induction p as [b|c next IH|next IH]; intros HT sent s s' a' Hs; cbn [wait_run ideally typed_patient] in *.
  - intros [= <- <-]. exists [], []. rewrite app_nil_r. split; [constructor|]. split; [reflexivity|now apply exchanged_none].
  - destruct HT as [HA HT]. destruct (ask c s) as [s1 [x|]] eqn:Ea; [|discriminate]. intros HI.
    destruct (HP c s s1 x HA Hs Ea) as [Hx Hy]. subst x. destruct (@rejection V E c) as [e|] eqn:HR.
    + subst s1. destruct (IH _ HT sent s s' a' Hs HI) as (ps & cs & K1 & K2 & K3). exists ps, cs. auto.
    + assert (Hs1 : possible h s1) by apply Hy.
      destruct (IH _ HT (sent ++ [c]) s1 s' a' Hs1 HI) as (ps & cs & K1 & K2 & K3).
      exists ps, (c :: cs). split; [exact K1|]. split.
      * rewrite app_nil_r, K2, <- app_assoc. reflexivity.
      * cbn [flat_map]. apply put_exchanged in Hy.
        exact (exchanged_then C h HC _ _ _ _ _ _ _ Hy K3).
  - destruct (get s) as [s1 [m|]] eqn:Eg; [|discriminate]. intros HI.
    destruct (HG _ _ _ Hs Eg) as (p & P1 & P2 & P3). assert (Hs1 : possible h s1) by apply P2.
    destruct (IH m (HT p m P1 P3) sent s1 s' a' Hs1 HI) as (ps & cs & K1 & K2 & K3).
    exists (p :: ps), cs. split; [now constructor|]. split; [now rewrite P3|].
    cbn [flat_map]. apply took_exchanged in P2. exact (exchanged_then C h HC _ _ _ _ _ _ _ P2 K3).
Qed.
End Any.

Lemma runs_any_uart F V St E (C : controller St E) h A (p : patient V E A) patience s s' a' :
  contract C h -> typed_patient F p -> possible h s -> uart_wait_run F V C patience p s = (s', Some a') ->
  exists ps cs, Forall event_packet ps
    /\ ideally (event_new F V) (fun _ _ => []) p [] ps = Some (a', cs, [])
    /\ exchanged h s s' (flat_map command_bytes cs) (flat_map uart_frame ps).
Proof.
  intros HC HT Hs HI.
  refine (runs_any F V C h HC uart_frame command_bytes _ _ (uart_get_any F V C h HC patience) _ A p HT [] s s' a' Hs HI).
  intros c x x' y HA Hx Ha.
  assert (HH : In (uart_header, uart_header_bytes) header_formats) by (left; reflexivity).
  destruct (ask_answer F V C uart_header _ c patience x x' y HH HA Ha) as [-> K]. split; [reflexivity|].
  destruct (rejection c); [exact K|]. exact (uart_put_any F V C h HC patience c x x' HA Hx K).
Qed.
Lemma runs_any_link F V St E (C : controller St E) h A (p : patient V E A) patience s s' a' :
  contract C h -> typed_patient F p -> possible h s -> link_wait_run F V C patience p s = (s', Some a') ->
  exists ps cs, Forall event_packet ps
    /\ ideally (event_new F V) (fun _ _ => []) p [] ps = Some (a', cs, [])
    /\ exchanged h s s' (flat_map link_bytes cs) (concat ps).
Proof.
  intros HC HT Hs HI.
  destruct (runs_any F V C h HC (fun p => p) link_bytes _ (header_ask F V C cmd_link_header patience)
    (link_get_any F V C h HC patience)) with (p := p) (sent := @nil (command V)) (s := s) (s' := s') (a' := a')
    as (ps & cs & K1 & K2 & K3); [|exact HT|exact Hs|exact HI|].
  - intros c x x' y HA Hx Ha.
    assert (HH : In (cmd_link_header, cmd_link_header_bytes) header_formats) by (right; left; reflexivity).
    destruct (ask_answer F V C cmd_link_header _ c patience x x' y HH HA Ha) as [-> K]. split; [reflexivity|].
    destruct (rejection c); [exact K|]. exact (link_put_any F V C h HC patience c x x' HA Hx K).
  - rewrite flat_map_same in K3. exists ps, cs. auto.
Qed.

(** ** The examples *)
Lemma polls_typed F V E n : typed_program F (@polls V E n).
Proof.
  induction n as [|n IH]; cbn; [exact I|]. split; [exact I|]. intros [r|[[e]|x|]]; try exact IH.
  destruct e; try exact IH. cbn. split; [exact I|]. intros [[[]|]|]; exact I.
Qed.
Lemma tries_typed F V E lengths : typed_patient F (@tries V E lengths).
Proof.
  induction lengths as [|n lengths IH]; cbn; [exact I|]. split.
  - induction n; constructor; [reflexivity|assumption].
  - match goal with |- context [match ?x with Some _ => tries _ | None => _ end] => destruct x end; [exact IH|]. cbn. intros p m _ _. destruct m as [e|]; [|exact I].
    destruct e; try exact I. destruct (cc_return_params _); exact I.
Qed.
Lemma denies_uart_chunks F V : chunks_of F uart_frame command_bytes (@deny V) denies_uart.
Proof.
  intros before c _ _. split; [repeat constructor|]. split; [reflexivity|]. constructor; [|constructor].
  exists 0x0E, [1; 0x08; 0x20; 0x0C]. repeat split; [repeat constructor|cbn; lia].
Qed.
Lemma denies_link_chunks F V : chunks_of F (fun p => p) link_bytes (@deny V) denies_link.
Proof.
  intros before c _ _. split; [repeat constructor|]. split; [reflexivity|]. constructor; [|constructor].
  exists 0x0E, [1; 0x08; 0x20; 0x0C]. repeat split; [repeat constructor|cbn; lia].
Qed.
