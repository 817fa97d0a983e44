(** * Applications and devices that answer each other (proofs). *)
From Verif Require Import Base Model_Types Model_EventBase Model_Command Model_Event Model_Host
  Spec_Wire Spec_Errors Spec_Host Spec_Link Spec_Split Spec_Retry Spec_Dialogue Spec_Loop
  Proofs_Base Proofs_Calls Proofs_Link Proofs_Queue Proofs_Retry Proofs_Dialogue Proofs_Split.
Open Scope list_scope.
Open Scope N_scope.

Section Device.
Context (F : features) (V : vendor) (respond : list N -> list N -> list (list N)).
Notation C := (device respond).

Lemma device_takes_by H enc (c : command V) later n : In (H, enc) header_formats ->
  arguments_typed F c -> @rejection V N c = None ->
  let b := enc (command_opcode c) (length (command_params c)) ++ command_params c in
  forall k s, possible queue_history s -> Forall bytes (respond (q_written s) b) ->
  q_ready s = repeat Busy k ++ Ready :: later -> (k < n)%nat ->
  exists s', header_put F V C H n c s = (s', true)
    /\ possible queue_history s'
    /\ q_pending s' ++ concat (q_arrivals s')
       = (q_pending s ++ concat (q_arrivals s)) ++ concat (respond (q_written s) b)
    /\ q_ready s' = later /\ q_written s' = q_written s ++ b
    /\ (length (q_arrivals s') <= length (q_arrivals s) + length (respond (q_written s) b))%nat.
Proof.
  intros HH HA HR b. unfold header_put. induction n as [|n IH]; intros k s Hs Hb Hq Hn; [lia|]. cbn [waiting].
  rewrite (call_written F V H enc C HH) by assumption.
  cbn [ctl_write device]. rewrite q_arrive_ready, Hq.
  destruct (reported_ok V c) as (R1 & R2 & R3).
  destruct (q_arrive_spec s Hs) as (A1 & A2 & A3 & A4). pose proof (arrive_pending s Hs) as A5.
  pose proof (proj2 (q_arrive_total s)) as A6. fold b.
  destruct k as [|k]; cbn [repeat app].
  - rewrite R2. eexists. split; [rewrite R1; reflexivity|].
    split; [|split; [|split; [reflexivity|split]]].
    + destruct A1 as (B1 & B2 & B3). split; [exact B1|]. split; [exact B2|]. cbn. apply Forall_app. auto.
    + rewrite <- A5. cbn [q_expect q_write q_arrivals]. rewrite concat_app, app_assoc. reflexivity.
    + cbn. now rewrite A4.
    + cbn. rewrite app_length, A6. lia.
  - rewrite R3. cbn [repeat app] in *.
    assert (W : q_written (q_write [] (repeat Busy k ++ Ready :: later) (q_arrive s)) = q_written s)
      by (cbn; now rewrite app_nil_r).
    destruct (IH k (q_write [] (repeat Busy k ++ Ready :: later) (q_arrive s))) as (s' & J0 & J1 & J2 & J3 & J4 & J5).
    + exact A1.
    + now rewrite W.
    + reflexivity.
    + lia.
    + exists s'. split; [exact J0|]. rewrite W in J2, J4, J5. split; [exact J1|].
      split; [|split; [exact J3|split; [exact J4|]]].
      * rewrite J2. f_equal. exact A5.
      * cbn [q_write q_arrivals] in J5. lia.
Qed.

Lemma link_wait_keeps n : forall s, let s' := fst (waiting blocked (link_read F V queue_controller) n s) in
  q_ready s' = q_ready s /\ q_written s' = q_written s
  /\ (length (q_arrivals s') <= length (q_arrivals s))%nat.
Proof.
  assert (A : forall x, q_ready (q_arrive x) = q_ready x /\ q_written (q_arrive x) = q_written x
                        /\ (length (q_arrivals (q_arrive x)) <= length (q_arrivals x))%nat).
  { intros x. unfold q_arrive. destruct (q_arrivals x) as [|c l] eqn:E; cbn; [rewrite E; auto|auto]. }
  assert (R : forall s, let s' := fst (link_read F V queue_controller s) in
    q_ready s' = q_ready s /\ q_written s' = q_written s
    /\ (length (q_arrivals s') <= length (q_arrivals s))%nat).
  { intros s. apply (link_read_keeps F V queue_controller
      (fun x => q_ready x = q_ready s /\ q_written x = q_written s
                /\ (length (q_arrivals x) <= length (q_arrivals s))%nat)).
    - cbn. apply A.
    - intros x buf (H1 & H2 & H3). cbn. destruct (A x) as (A1 & A2 & ?).
      destruct (Nat.leb _ _); cbn; rewrite A1, A2; repeat split; auto; lia. }
  induction n as [|n IH]; intros s; cbn [waiting fst]; [auto|].
  pose proof (R s) as K. destruct (link_read F V queue_controller s) as [s1 r]. cbn [fst] in K.
  destruct (blocked r); [|exact K]. cbv zeta in *. specialize (IH s1).
  destruct K as (K1 & K2 & K3), IH as (I1 & I2 & I3). repeat split; [congruence..|lia].
Qed.
Lemma device_link_waits n s :
  waiting blocked (link_read F V C) n s = waiting blocked (link_read F V queue_controller) n s.
Proof. reflexivity. Qed.

(** Reading one message, over either transport. *)
Definition gets (frame : list N -> list N) (get : nat -> queue -> queue * option (message V)) : Prop :=
  forall n s p rest m, possible queue_history s -> event_packet p -> message_of (event_new F V) p = Some m ->
  q_pending s ++ concat (q_arrivals s) = frame p ++ rest -> (length (q_arrivals s) < n)%nat ->
  exists s', get n s = (s', Some m) /\ possible queue_history s'
    /\ q_pending s' ++ concat (q_arrivals s') = rest
    /\ q_ready s' = q_ready s /\ q_written s' = q_written s
    /\ (length (q_arrivals s') <= length (q_arrivals s))%nat.
Lemma uart_gets : gets uart_frame (uart_get F V C).
Proof.
  intros n s p rest m Hs Hp Hm Ht Hn. unfold uart_get. rewrite device_waits.
  destruct (queue_wait_read F V n s p rest Hs Hp Ht Hn) as (s' & Hw & HT & HR).
  pose proof (wait_keeps F V respond n s) as K. rewrite Hw in *. cbn [fst] in K. destruct K as (K1 & K2 & K3).
  exists s'. split; [|split; [apply HT|auto]]. unfold uart_result. unfold message_of in Hm.
  destruct (event_new F V p); congruence.
Qed.
Lemma link_gets : gets (fun p => p) (link_get F V C).
Proof.
  intros n s p rest m Hs Hp Hm Ht Hn. unfold link_get. rewrite device_link_waits.
  destruct (queue_wait_link F V n s p rest Hs Hp Ht Hn) as (s' & Hw & HT & HR).
  pose proof (link_wait_keeps n s) as K. rewrite Hw in *. cbn [fst] in K. destruct K as (K1 & K2 & K3).
  exists s'. split; [|split; [apply HT|auto]]. unfold link_result. unfold message_of in Hm.
  destruct (event_new F V p); congruence.
Qed.

Section Serve.
Context (frame : list N -> list N) (get : nat -> queue -> queue * option (message V)) (H : hci_header)
  (enc : N -> nat -> list N) (bytes_of : command V -> list N) (reply : list (command V) -> command V -> list (list N)).
Hypothesis (HG : gets frame get) (HH : In (H, enc) header_formats)
  (HB : forall c, bytes_of c = enc (command_opcode c) (length (command_params c)) ++ command_params c)
  (HC : chunks_of F frame bytes_of reply respond).
Notation put := (header_put F V C H).

Lemma sends cs : Forall (sendable F) cs ->
  forall before ready rest_ready k, Forall (sendable F) before -> takes (length cs + rest_ready) ready ->
  exists m k' later, takes rest_ready later /\ forall n, (m <= n)%nat ->
  forall s, possible queue_history s -> q_written s = flat_map bytes_of before -> q_ready s = ready ->
  (length (q_arrivals s) <= k)%nat ->
  exists s', send_all (put n) cs s = (s', true) /\ possible queue_history s'
    /\ q_pending s' ++ concat (q_arrivals s')
       = (q_pending s ++ concat (q_arrivals s)) ++ flat_map frame (replies reply before cs)
    /\ q_ready s' = later /\ q_written s' = flat_map bytes_of (before ++ cs)
    /\ (length (q_arrivals s') <= k')%nat.
Proof.
  induction 1 as [|c cs [HA HR] _ IH]; intros before ready j k Hbf HT.
  - exists 0%nat, k, ready. split; [exact HT|]. intros n _ s Hs Hw Hq Hk. exists s. cbn [send_all replies flat_map].
    rewrite !app_nil_r. auto 6.
  - cbn [length Nat.add] in HT. inversion HT as [|? busy l HT' E1 E2]; subst.
    destruct (HC before c Hbf (conj HA HR)) as (B1 & B2 & B3). set (r := respond (flat_map bytes_of before) (bytes_of c)) in *.
    destruct (IH (before ++ [c]) l j (k + length r)%nat) as (m & k' & later & HL & Hm);
      [apply Forall_app; split; [exact Hbf|repeat constructor; assumption]|exact HT'|].
    exists (m + S busy)%nat, k', later. split; [exact HL|]. intros n Hn s Hs Hw Hq Hk. cbn [send_all].
    assert (Ew : respond (q_written s) (enc (command_opcode c) (length (command_params c)) ++ command_params c) = r).
    { unfold r. now rewrite Hw, HB. }
    destruct (device_takes_by H enc c l n HH HA HR busy s Hs) as (s1 & -> & S1 & S2 & S3 & S4 & S5).
    { now rewrite Ew. } { exact Hq. } { lia. }
    rewrite Ew in S2, S5.
    destruct (Hm n) with (s := s1) as (s2 & -> & T1 & T2 & T3 & T4 & T5).
    + lia.
    + exact S1.
    + rewrite S4, Hw, flat_map_app. cbn [flat_map]. now rewrite HB, app_nil_r.
    + exact S3.
    + lia.
    + exists s2. split; [reflexivity|]. split; [exact T1|]. split.
      * rewrite T2, S2, B2. cbn [replies]. now rewrite flat_map_app, <- !app_assoc.
      * split; [exact T3|]. split; [|exact T5]. now rewrite T4, <- app_assoc.
Qed.

Context {A : Type} (react : A -> message V -> A * list (command V)).
Hypothesis HV : sends_valid F react.

Lemma replies_packets cs : Forall (sendable F) cs -> forall before, Forall (sendable F) before -> Forall event_packet (replies reply before cs).
Proof.
  induction 1 as [|c cs Hc _ IH]; intros before Hb; cbn [replies]; [constructor|].
  apply Forall_app. split; [now apply HC|apply IH]. apply Forall_app. split; [exact Hb|now constructor].
Qed.
Lemma serves_ideal n : forall a sent inbox a' sent' inbox' ready k,
  ideal react (event_new F V) reply n a sent inbox = Some (a', sent', inbox') ->
  Forall event_packet inbox -> Forall (sendable F) sent -> takes (length sent' - length sent) ready ->
  (length sent <= length sent')%nat /\
  exists m, forall patience, (m <= patience)%nat ->
  forall s, possible queue_history s -> q_written s = flat_map bytes_of sent -> q_ready s = ready ->
  (length (q_arrivals s) <= k)%nat -> q_pending s ++ concat (q_arrivals s) = flat_map frame inbox ->
  exists s', serve react (get patience) (put patience) n a s = (s', Some a')
    /\ q_written s' = flat_map bytes_of sent' /\ q_pending s' ++ concat (q_arrivals s') = flat_map frame inbox'.
Proof.
  induction n as [|n IH]; intros a sent inbox a' sent' inbox' ready k HI Hp Hse HT.
  - cbn [ideal] in HI. injection HI as <- <- <-. split; [lia|]. exists 0%nat. intros patience _ s _ Hw _ _ Ht.
    exists s. cbn [serve]. auto.
  - cbn [ideal] in HI. destruct inbox as [|p inbox]; [discriminate HI|].
    destruct (message_of (event_new F V) p) as [msg|] eqn:Em; [|discriminate HI].
    inversion Hp as [|? ? Hp1 Hp2]; subst.
    pose proof (HV a p msg Hp1 Em) as Hcs. destruct (react a msg) as [a1 cs] eqn:Er. cbn [snd] in Hcs.
    assert (Hin : Forall event_packet (inbox ++ replies reply sent cs)).
    { apply Forall_app. split; [exact Hp2|now apply replies_packets]. }
    assert (Hse' : Forall (sendable F) (sent ++ cs)) by (apply Forall_app; auto).
    assert (L : (length (sent ++ cs) <= length sent')%nat).
    { destruct (IH a1 (sent ++ cs) _ a' sent' inbox' (repeat Ready (length sent' - length (sent ++ cs))) 0%nat HI Hin Hse') as [L _];
        [|exact L].
      generalize (length sent' - length (sent ++ cs))%nat. intros x. induction x as [|x IHx]; [constructor|].
      exact (takes_more x 0 _ IHx). }
    rewrite app_length in L. split; [lia|].
    replace (length sent' - length sent)%nat with (length cs + (length sent' - length (sent ++ cs)))%nat in HT
      by (rewrite app_length; lia).
    destruct (sends cs Hcs sent ready _ k Hse HT) as (m1 & k1 & later & HL & Hm1).
    destruct (IH a1 (sent ++ cs) _ a' sent' inbox' later k1 HI Hin Hse' HL) as (_ & m2 & Hm2).
    exists (m1 + m2 + S k)%nat. intros patience Hn s Hs Hw Hq Hk Ht. cbn [serve].
    cbn [flat_map] in Ht.
    destruct (HG patience s p _ msg Hs Hp1 Em Ht) as (s1 & -> & S1 & S2 & S3 & S4 & S5); [lia|].
    rewrite Er.
    destruct (Hm1 patience) with (s := s1) as (s2 & -> & T1 & T2 & T3 & T4 & T5); [lia|exact S1|congruence|congruence|lia|].
    destruct (Hm2 patience) with (s := s2) as (s3 & -> & U1 & U2);
      [lia|exact T1|exact T4|exact T3|exact T5| |].
    + rewrite T2, S2. now rewrite flat_map_app.
    + exists s3. auto.
Qed.
End Serve.
End Device.

Lemma served_uart F V A (react : A -> message V -> A * list (command V)) reply respond n a inbox a' sent inbox' s :
  sends_valid F react -> chunks_of F uart_frame command_bytes reply respond -> Forall event_packet inbox ->
  ideal react (event_new F V) reply n a [] inbox = Some (a', sent, inbox') ->
  possible queue_history s -> q_written s = [] -> takes (length sent) (q_ready s) ->
  q_pending s ++ concat (q_arrivals s) = flat_map uart_frame inbox ->
  exists m, forall patience, (m <= patience)%nat ->
  exists s', serve react (uart_get F V (device respond) patience) (uart_put F V (device respond) patience) n a s
             = (s', Some a')
    /\ q_written s' = flat_map command_bytes sent
    /\ q_pending s' ++ concat (q_arrivals s') = flat_map uart_frame inbox'.
Proof.
  intros HV HC Hp HI Hs Hw HT Ht.
  assert (HH : In (uart_header, uart_header_bytes) header_formats) by (left; reflexivity).
  destruct (serves_ideal F V respond uart_frame (uart_get F V (device respond)) uart_header uart_header_bytes command_bytes
    reply (uart_gets F V respond) HH ltac:(reflexivity) HC react HV n a [] inbox a' sent inbox' (q_ready s)
    (length (q_arrivals s)) HI Hp (Forall_nil _)) as (_ & m & Hm); [now rewrite Nat.sub_0_r|].
  exists m. intros patience Hn. apply (Hm patience Hn s); auto.
Qed.
Lemma flat_map_same {B} (l : list (list B)) : flat_map (fun p => p) l = concat l.
Proof. induction l as [|x l IH]; [reflexivity|]. cbn. now rewrite IH. Qed.
Lemma served_link F V A (react : A -> message V -> A * list (command V)) reply respond n a inbox a' sent inbox' s :
  sends_valid F react -> chunks_of F (fun p => p) link_bytes reply respond -> Forall event_packet inbox ->
  ideal react (event_new F V) reply n a [] inbox = Some (a', sent, inbox') ->
  possible queue_history s -> q_written s = [] -> takes (length sent) (q_ready s) ->
  q_pending s ++ concat (q_arrivals s) = concat inbox ->
  exists m, forall patience, (m <= patience)%nat ->
  exists s', serve react (link_get F V (device respond) patience) (link_put F V (device respond) patience) n a s
             = (s', Some a')
    /\ q_written s' = flat_map link_bytes sent
    /\ q_pending s' ++ concat (q_arrivals s') = concat inbox'.
Proof.
  intros HV HC Hp HI Hs Hw HT Ht.
  assert (HH : In (cmd_link_header, cmd_link_header_bytes) header_formats) by (right; left; reflexivity).
  destruct (serves_ideal F V respond (fun p => p) (link_get F V (device respond)) cmd_link_header cmd_link_header_bytes link_bytes
    reply (link_gets F V respond) HH ltac:(intros c; unfold link_bytes, cmd_link_header_bytes; now rewrite <- app_assoc)
    HC react HV n a [] inbox a' sent inbox' (q_ready s)
    (length (q_arrivals s)) HI Hp (Forall_nil _)) as (_ & m & Hm); [now rewrite Nat.sub_0_r|].
  exists m. intros patience Hn. rewrite <- flat_map_same. apply (Hm patience Hn s); auto.
Qed.

(** ** On any controller *)
Section Any.
Context (F : features) (V : vendor) {St E : Type} (C : controller St E) (h : history St).
Hypothesis HC : contract C h.

Lemma exchanged_then a b c o l o' l' : exchanged h a b o l -> exchanged h b c o' l' ->
  exchanged h a c (o ++ o') (l ++ l').
Proof.
  intros (A1 & A2 & [x X] & A4 & A5) (B1 & B2 & [y Y] & B4 & B5).
  split; [exact B1|]. split; [eapply arrives_trans; eassumption|].
  split; [|split; [rewrite app_length; lia|rewrite B5, A5; now rewrite app_assoc]].
  exists y. destruct (pending_grows h a b c) as [z Z]; [|exact B2|].
  { apply (consumed_received _ _ HC) in A1. lia. }
  assert (W : x ++ z = l' ++ y).
  { unfold pending in Y. rewrite A4, skipn_add in Y. fold (pending h a c) in Y.
    now rewrite Z, X, <- app_assoc, skipn_all_app in Y by reflexivity. }
  rewrite Z, X, <- !app_assoc. f_equal. exact W.
Qed.
Lemma exchanged_none s : possible h s -> exchanged h s s [] [].
Proof.
  intros Hs. split; [exact Hs|]. split; [apply arrives_refl|]. split; [now eexists|].
  rewrite app_nil_r. cbn. split; [lia|reflexivity].
Qed.
Lemma put_exchanged s s' o : put h s s' o -> exchanged h s s' o [].
Proof. intros (P1 & P2 & P3 & P4). repeat split; auto; [now eexists|cbn; lia]. Qed.
Lemma took_exchanged s s' l : took h s s' l -> exchanged h s s' [] l.
Proof. intros (P1 & P2 & P3 & P4 & P5). repeat split; auto. now rewrite app_nil_r. Qed.

Section Served.
Context (frame : list N -> list N) (bytes_of : command V -> list N)
  (get : St -> St * option (message V)) (put_ : command V -> St -> St * bool).
Hypothesis (HG : forall s s' m, possible h s -> get s = (s', Some m) ->
    exists p, event_packet p /\ took h s s' (frame p) /\ message_of (event_new F V) p = Some m)
  (HP : forall c s s', arguments_typed F c -> possible h s -> put_ c s = (s', true) -> put h s s' (bytes_of c)).

Lemma send_all_any cs : Forall (arguments_typed F) cs -> forall s s', possible h s ->
  send_all put_ cs s = (s', true) -> exchanged h s s' (flat_map bytes_of cs) [].
Proof.
  induction 1 as [|c cs Hc _ IH]; intros s s' Hs; cbn [send_all flat_map].
  - intros [= <-]. now apply exchanged_none.
  - destruct (put_ c s) as [s1 [|]] eqn:Ep; [|discriminate]. intros HI.
    apply HP in Ep; [|assumption..]. assert (Hs1 : possible h s1) by apply Ep.
    apply put_exchanged in Ep. exact (exchanged_then _ _ _ _ _ _ _ Ep (IH _ _ Hs1 HI)).
Qed.

Context {A : Type} (react : A -> message V -> A * list (command V)).
Hypothesis HV : sends_typed F react.
Lemma serve_any n : forall a sent s s' a', possible h s -> serve react get put_ n a s = (s', Some a') ->
  exists ps cs, length ps = n /\ Forall event_packet ps
    /\ ideal react (event_new F V) (fun _ _ => []) n a sent ps = Some (a', sent ++ cs, [])
    /\ exchanged h s s' (flat_map bytes_of cs) (flat_map frame ps).
Proof.
  induction n as [|n IH]; intros a sent s s' a' Hs; cbn [serve].
  - intros [= <- <-]. exists [], []. rewrite app_nil_r. repeat split; auto; try apply exchanged_none; auto.
  - destruct (get s) as [s1 [m|]] eqn:Eg; [|discriminate].
    destruct (HG _ _ _ Hs Eg) as (p & P1 & P2 & P3). assert (Hs1 : possible h s1) by apply P2.
    pose proof (HV a p m P1 P3) as Hcs. destruct (react a m) as [a1 cs] eqn:Er. cbn [snd] in Hcs.
    destruct (send_all put_ cs s1) as [s2 [|]] eqn:Es; [|discriminate]. intros HI.
    pose proof (send_all_any cs Hcs _ _ Hs1 Es) as X. assert (Hs2 : possible h s2) by apply X.
    destruct (IH a1 (sent ++ cs) s2 s' a' Hs2 HI) as (ps & ds & L & Q1 & Q2 & Q3).
    exists (p :: ps), (cs ++ ds). split; [cbn; now rewrite L|]. split; [now constructor|]. split.
    + cbn [ideal]. rewrite P3, Er.
      assert (Z : forall before l, replies (fun (_ : list (command V)) (_ : command V) => @nil (list N)) before l = []).
      { intros before l. revert before. induction l as [|x l IHl]; intros before; [reflexivity|apply IHl]. }
      rewrite Z, app_nil_r, app_assoc. exact Q2.
    + cbn [flat_map]. rewrite flat_map_app. apply took_exchanged in P2.
      pose proof (exchanged_then _ _ _ _ _ _ _ P2 (exchanged_then _ _ _ _ _ _ _ X Q3)) as Y.
      exact Y.
Qed.
End Served.

Lemma uart_get_any n s s' m : possible h s -> uart_get F V C n s = (s', Some m) ->
  exists p, event_packet p /\ took h s s' (uart_frame p) /\ message_of (event_new F V) p = Some m.
Proof.
  intros Hs. unfold uart_get. pose proof (wait_read F V C h HC n s Hs) as K.
  destruct (waiting blocked (uart_read F V C) n s) as [s1 [r|]]; [|discriminate].
  destruct K as [[K1 K2]|(p & P1 & P2 & ->)].
  - destruct r as [[ev]|[[]|]|]; try discriminate; cbn in K1; discriminate.
  - intros X. injection X as <- X. exists p. split; [exact P1|]. split; [exact P2|].
    unfold uart_result in X. unfold message_of. destruct (event_new F V p); congruence.
Qed.
Lemma link_get_any n s s' m : possible h s -> link_get F V C n s = (s', Some m) ->
  exists p, event_packet p /\ took h s s' p /\ message_of (event_new F V) p = Some m.
Proof.
  intros Hs. unfold link_get. pose proof (wait_link F V C h HC n s Hs) as K.
  destruct (waiting blocked (link_read F V C) n s) as [s1 [r|]]; [|discriminate].
  destruct K as [[K1 K2]|(p & P1 & P2 & ->)].
  - destruct r as [ev|[[]|]|]; try discriminate; cbn in K1; discriminate.
  - intros X. injection X as <- X. exists p. split; [exact P1|]. split; [exact P2|].
    unfold link_result in X. unfold message_of. destruct (event_new F V p); congruence.
Qed.
Lemma uart_put_any n c s s' : arguments_typed F c -> possible h s -> uart_put F V C n c s = (s', true) ->
  put h s s' (command_bytes c).
Proof.
  intros HA Hs. unfold uart_put, header_put. pose proof (wait_command F V C h HC c n s HA Hs) as K.
  destruct (waiting _ _ n s) as [s1 [r|]]; [|discriminate]. intros X. injection X as <- X. now rewrite X in K.
Qed.
Lemma link_put_any n c s s' : arguments_typed F c -> possible h s -> link_put F V C n c s = (s', true) ->
  put h s s' (link_bytes c).
Proof.
  intros HA Hs. unfold link_put, header_put. pose proof (link_wait_command F V C h HC c n s HA Hs) as K.
  destruct (waiting _ _ n s) as [s1 [r|]]; [|discriminate]. intros X. injection X as <- X. now rewrite X in K.
Qed.
End Any.
Lemma any_uart F V St E (C : controller St E) h A (react : A -> message V -> A * list (command V)) n patience a s s' a' :
  contract C h -> sends_typed F react -> possible h s ->
  serve react (uart_get F V C patience) (uart_put F V C patience) n a s = (s', Some a') ->
  exists ps cs, length ps = n /\ Forall event_packet ps
    /\ ideal react (event_new F V) (fun _ _ => []) n a [] ps = Some (a', cs, [])
    /\ exchanged h s s' (flat_map command_bytes cs) (flat_map uart_frame ps).
Proof.
  intros HC HV Hs HI.
  exact (serve_any F V C h HC uart_frame command_bytes _ _ (uart_get_any F V C h HC patience)
    (uart_put_any F V C h HC patience) react HV n a [] s s' a' Hs HI).
Qed.
Lemma any_link F V St E (C : controller St E) h A (react : A -> message V -> A * list (command V)) n patience a s s' a' :
  contract C h -> sends_typed F react -> possible h s ->
  serve react (link_get F V C patience) (link_put F V C patience) n a s = (s', Some a') ->
  exists ps cs, length ps = n /\ Forall event_packet ps
    /\ ideal react (event_new F V) (fun _ _ => []) n a [] ps = Some (a', cs, [])
    /\ exchanged h s s' (flat_map link_bytes cs) (concat ps).
Proof.
  intros HC HV Hs HI.
  destruct (serve_any F V C h HC (fun p => p) link_bytes _ _ (link_get_any F V C h HC patience)
    (link_put_any F V C h HC patience) react HV n a [] s s' a' Hs HI) as (ps & cs & K1 & K2 & K3 & K4).
  rewrite flat_map_same in K4. now exists ps, cs.
Qed.

(** ** The example *)
Lemma example_valid F V : sends_valid F (@example_react V).
Proof.
  assert (U : forall x, u16 (x mod 65536)) by (intros x; apply N.mod_lt; discriminate).
  assert (T : forall h, sendable F (@CReadRssi V (h mod 65536))) by (intros h; split; [cbn; apply U|reflexivity]).
  assert (D : forall h, sendable F (@CDisconnect V (h mod 65536) RemoteTerminationByUser)).
  { intros h. split; [cbn; apply U|reflexivity]. }
  assert (R : sendable F (@CReset V)) by (split; [exact I|reflexivity]).
  intros a p m _ _. destruct m as [ev|e]; cbn; [|constructor].
  destruct ev; cbn; auto. destruct (cc_return_params e); cbn; auto. destruct (_ <? _)%Z; cbn; auto.
Qed.
Lemma opcode_back V (c : command V) :
  command_opcode c mod 256 + 256 * (command_opcode c / 256 mod 256) = command_opcode c.
Proof. destruct c; reflexivity. Qed.
Lemma example_packets op params : bytes params -> Forall event_packet (example_answer op params).
Proof.
  intros HB. assert (B2 : bytes (firstn 2 params)).
  { destruct HB as [|x l Hx [|y m Hy Hm]]; cbn; repeat constructor; auto. }
  assert (L : (length (firstn 2 params) <= 2)%nat) by apply firstn_le_length.
  assert (P : forall code q, byte code -> bytes q -> (length q <= 255)%nat -> event_packet (framed code q)).
  { intros code q H1 H2 H3. exists code, q. auto. }
  unfold example_answer. destruct (op =? 0x1405); [|destruct (op =? 0x0406)].
  - constructor; [apply (P 0x77 []); [reflexivity|constructor|cbn; lia]|]. constructor; [|constructor].
    apply P; [reflexivity| |rewrite !app_length; cbn [length]; lia].
    apply bytes_app; split; [repeat constructor|]. apply bytes_app; split; [exact B2|repeat constructor].
  - constructor; [apply (P 0x0F [0; 1; 0x06; 0x04]); [reflexivity|repeat constructor|cbn; lia]|].
    constructor; [|constructor].
    apply P; [reflexivity| |rewrite !app_length; cbn [length]; lia].
    apply bytes_app; split; [repeat constructor|]. apply bytes_app; split; [exact B2|repeat constructor].
  - constructor; [|constructor]. apply (P 0x0E [1; 0x03; 0x0C; 0]); [reflexivity|repeat constructor|cbn; lia].
Qed.
Lemma packet_bytes p : event_packet p -> bytes p.
Proof.
  intros (code & q & -> & H1 & H2 & H3). unfold framed. constructor; [exact H1|].
  constructor; [unfold byte; lia|exact H2].
Qed.
Lemma single_chunks l : bytes l -> Forall bytes (map (fun b => [b]) l) /\ concat (map (fun b => [b]) l) = l.
Proof.
  induction 1 as [|b l Hb _ [I1 I2]]; [split; [constructor|reflexivity]|]. cbn. split.
  - constructor; [now constructor|exact I1].
  - now rewrite I2.
Qed.
Lemma frames_bytes frame ps : (forall p, bytes p -> bytes (frame p)) -> Forall event_packet ps -> bytes (flat_map frame ps).
Proof.
  intros HF. induction 1 as [|p ps Hp _ IH]; cbn; [constructor|].
  apply bytes_app. split; [apply HF; now apply packet_bytes|exact IH].
Qed.
Lemma example_uart F V : chunks_of F uart_frame command_bytes (@example_reply V) loop_uart.
Proof.
  intros before c _ [HA HR]. destruct (params_ok F V c HA HR) as [_ HB].
  pose proof (example_packets (command_opcode c) (command_params c) HB) as K.
  unfold command_bytes, uart_header_bytes. rewrite le_2. cbn [app loop_uart]. rewrite opcode_back.
  fold (@example_reply V before c). destruct (single_chunks (flat_map uart_frame (example_reply before c))) as [A1 A2].
  { apply frames_bytes; [|exact K]. intros p Hp. constructor; [reflexivity|exact Hp]. }
  auto.
Qed.
Lemma example_link F V : chunks_of F (fun p => p) link_bytes (@example_reply V) loop_link.
Proof.
  intros before c _ [HA HR]. destruct (params_ok F V c HA HR) as [_ HB].
  pose proof (example_packets (command_opcode c) (command_params c) HB) as K.
  unfold link_bytes. rewrite le_2. cbn [app loop_link]. rewrite opcode_back.
  fold (@example_reply V before c). rewrite flat_map_same. cbn [concat]. rewrite app_nil_r.
  split; [|split; [reflexivity|exact K]]. constructor; [|constructor]. rewrite <- flat_map_same.
  now apply frames_bytes.
Qed.
