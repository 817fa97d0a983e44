(** * Programs that are stopped at any moment (proofs). *)
From Coq Require Import Lia.
From Verif Require Import Base Model_Types Model_EventBase Model_Command Model_Event Model_Host
  Spec_Wire Spec_Errors Spec_Report Spec_Host Spec_Link Spec_Split Spec_Crash
  Proofs_Base Proofs_Command Proofs_Send Proofs_Calls Proofs_Link Proofs_Split Proofs_Loop.
Open Scope list_scope.
Open Scope N_scope.

Section Moments.
Context (F : features) (V : vendor) {St E : Type} (C : controller St E) (h : history St) (HC : contract C h).

Lemma nothing_refl s : possible h s -> nothing h s s.
Proof. intros H. split; [exact H|]. split; [apply arrives_refl|]. split; reflexivity. Qed.

Lemma peek_nothing s n s' r : possible h s -> ctl_peek C s n = (s', r) -> nothing h s s'.
Proof.
  intros Hs Q. pose proof (peek_contract _ _ HC s n Hs) as K. rewrite Q in K.
  unfold nothing. tauto.
Qed.

Lemma write_noted c H enc s x : In (H, enc) header_formats -> arguments_typed F c -> possible h s ->
  In x (snd (fst (run_command F V H (noted C) c (s, [])))) -> x = fst (run_command F V H C c s).
Proof.
  intros HH Ht Hs.
  destruct (one_write F V E H enc c HH Ht) as [(e & _ & R)|(_ & header & payload & R)].
  - rewrite R. intros [].
  - rewrite !R. cbn [noted ctl_write fst snd]. destruct (ctl_write C s header payload) as [s' r].
    cbn. intros [<-|[]]. reflexivity.
Qed.

Lemma link_read_noted s x : possible h s ->
  In x (snd (fst (link_read F V (noted C) (s, [])))) -> nothing h s x \/ x = fst (link_read F V C s).
Proof.
  intros Hs.
  unfold link_read, abind, amap_err, read_into_prefix, abind, pure. cbv beta iota.
  cbn [noted ctl_peek ctl_read_into fst snd].
  destruct (ctl_peek C s 1) as [s1 r1] eqn:Q1. pose proof (peek_nothing _ _ _ _ Hs Q1) as N1.
  cbn [noting fst snd app].
  destruct r1 as [pl|e|]; cbn [map_err].
  2,3: intros [<-|[]]; left; exact N1.
  destruct (slice (zeros (255 + 2)) 0 (2 + N.to_nat pl)) as [buf|e|]; cbn [map_err].
  2,3: intros [<-|[]]; left; exact N1.
  cbn [fst snd]. destruct (ctl_read_into C s1 buf) as [s2 r2]. cbn [noting fst snd app].
  intros K.
  destruct r2 as [data|e|]; cbn [map_err] in *.
  - destruct (slice (data ++ skipn (2 + N.to_nat pl) (zeros (255 + 2))) 0 (2 + N.to_nat pl)); cbn in *;
      destruct K as [K|[K|[]]]; subst x; auto.
  - cbn in *. destruct K as [K|[K|[]]]; subst x; auto.
  - cbn in *. destruct K as [K|[K|[]]]; subst x; auto.
Qed.

Lemma event_read_noted s seen x : possible h s -> (forall y, In y seen -> nothing h s y) ->
  In x (snd (fst (uart_read_event F V (noted C) (s, seen)))) ->
  nothing h s x \/ x = fst (uart_read_event F V C s).
Proof.
  intros Hs HN.
  unfold uart_read_event, abind, amap_err, read_into_prefix, abind, pure. cbv beta iota.
  cbn [noted ctl_peek ctl_read_into fst snd].
  destruct (ctl_peek C s 2) as [s1 r1] eqn:Q1. pose proof (peek_nothing _ _ _ _ Hs Q1) as N1.
  cbn [noting fst snd].
  assert (HN1 : In x (seen ++ [s1]) -> nothing h s x).
  { intros K. apply in_app_or in K. destruct K as [K|[<-|[]]]; [now apply HN|exact N1]. }
  destruct r1 as [pl|e|]; cbn [map_err].
  2,3: intros K; left; now apply HN1.
  destruct (slice (zeros (255 + 3)) 0 (3 + N.to_nat pl)) as [buf|e|]; cbn [map_err].
  2,3: intros K; left; now apply HN1.
  cbn [fst snd]. destruct (ctl_read_into C s1 buf) as [s2 r2]. cbn [noting fst snd].
  intros K.
  assert (K2 : In x ((seen ++ [s1]) ++ [s2])).
  { destruct r2 as [data|e|]; cbn [map_err] in *; [|exact K..].
    destruct (slice (data ++ skipn (3 + N.to_nat pl) (zeros (255 + 3))) 1 (3 + N.to_nat pl)); exact K. }
  apply in_app_or in K2. destruct K2 as [K2|[K2|[]]]; [left; now apply HN1|right]. subst x.
  destruct r2 as [data|e|]; cbn [map_err]; [|reflexivity..].
  destruct (slice (data ++ skipn (3 + N.to_nat pl) (zeros (255 + 3))) 1 (3 + N.to_nat pl)); reflexivity.
Qed.
Lemma uart_read_noted s x : possible h s ->
  In x (snd (fst (uart_read F V (noted C) (s, [])))) -> nothing h s x \/ x = fst (uart_read F V C s).
Proof.
  intros Hs. unfold uart_read, abind, amap_err, pure. cbv beta iota.
  cbn [noted ctl_peek fst snd].
  destruct (ctl_peek C s 0) as [s1 r1] eqn:Q1. pose proof (peek_nothing _ _ _ _ Hs Q1) as N1.
  cbn [noting fst snd app].
  destruct r1 as [t|e|]; cbn [map_err].
  2,3: intros [<-|[]]; left; exact N1.
  destruct (t =? 0x04).
  2: { intros [<-|[]]. left. exact N1. }
  intros K.
  assert (K' : In x (snd (fst (uart_read_event F V (noted C) (s1, [s1]))))).
  { destruct (uart_read_event F V (noted C) (s1, [s1])) as [st [e|e|]]; exact K. }
  apply event_read_noted in K'.
  - destruct K' as [K'|K']; [left; exact (nothing_trans h s s1 x N1 K')|right].
    rewrite K'. destruct (uart_read_event F V C s1) as [st [e|e|]]; reflexivity.
  - apply N1.
  - intros y [<-|[]]. apply nothing_refl, N1.
Qed.
End Moments.

Lemma rejection_any {V} {E G : Type} (c : command V) : @rejection V E c = None -> @rejection V G c = None.
Proof.
  destruct (@rejection V G c) as [e|] eqn:HU; [|reflexivity].
  intros HR. exfalso. destruct c; cbn [rejection] in HR, HU; try discriminate HU;
    repeat match goal with
    | H : context [if ?b then _ else _] |- _ => destruct b
    | H : context [match ?b with _ => _ end] |- _ => destruct b
    end; discriminate.
Qed.
Definition good {V} (F : features) (c : command V) : Prop := arguments_typed F c /\ @rejection V unit c = None.

Lemma uart_stream F V (cs : list (command V)) : Forall (good F) cs ->
  parse_commands (flat_map command_bytes cs) = Some (map (fun c => (command_opcode c, command_params c)) cs).
Proof.
  induction 1 as [|c cs [HA HR] _ IH]; [reflexivity|].
  cbn [flat_map map]. unfold command_bytes at 1. rewrite <- app_assoc.
  destruct (params_ok F V c HA HR) as [Hl _].
  rewrite parse_one; [now rewrite IH|apply command_opcode_u16|lia].
Qed.

Section Uart.
Context (F : features) (V : vendor) {St E : Type} (C : controller St E) (h : history St) (HC : contract C h).

Lemma nothing_exchanged s s' : nothing h s s' -> exchanged h s s' [] [].
Proof. intros H. apply took_exchanged. now apply nothing_took_nil. Qed.

(** One call, to its end: at most one packet, at most one command. *)
Lemma perform_end o s s' r : typed_operation F o -> possible h s -> perform F V C o s = (s', r) ->
  exists p c, exchanged h s s' (flat_map command_bytes (perhaps c)) (flat_map uart_frame (perhaps p))
  /\ Forall event_packet (perhaps p) /\ Forall (good F) (perhaps c)
  /\ (forall q, p = Some q -> o = Receive) /\ (forall q, c = Some q -> o = Send q)
  /\ received_packets [(o, r)] = map (uart_result F V) (perhaps p) /\ sent_commands [(o, r)] = perhaps c.
Proof.
  intros Ho Hs. destruct o as [c|]; cbn [perform].
  - pose proof (call_contract F V C h HC c s Ho Hs) as K.
    assert (R : succeeded (snd (run_command F V uart_header C c s)) = true -> @rejection V E c = None).
    { destruct (@rejection V E c) as [e|] eqn:HR; [|reflexivity].
      rewrite (call_rejected F V uart_header uart_header_bytes C (or_introl eq_refl) c s e) by assumption. discriminate. }
    destruct (run_command F V uart_header C c s) as [s1 r1]. cbn [snd] in R. intros [= <- <-].
    destruct K as (K1 & K2 & K3 & K4).
    exists None, (if succeeded r1 then Some c else None).
    split; [|split; [constructor|split; [|split; [discriminate|split; [|split; [reflexivity|]]]]]].
    + split; [exact K1|]. split; [exact K2|]. split; [now eexists|]. split; [cbn; lia|].
      rewrite K4. destruct (succeeded r1); cbn [perhaps flat_map]; now rewrite ?app_nil_r.
    + destruct (succeeded r1); constructor; [|constructor]. split; [exact Ho|]. apply (rejection_any (E := E)). now apply R.
    + intros q. destruct (succeeded r1); [|discriminate]. now intros [= ->].
    + cbn. now destruct (succeeded r1).
  - destruct (uart_read_cases F V C h HC s Hs) as (s1 & r1 & -> & K). intros [= <- <-].
    destruct K as [(K1 & K2 & _)|(p & K1 & K2 & ->)].
    + exists None, None. split; [now apply nothing_exchanged|]. split; [constructor|]. split; [constructor|].
      split; [reflexivity|]. split; [discriminate|]. split; [|reflexivity]. cbn. now rewrite K1.
    + exists (Some p), None. split; [cbn [perhaps flat_map]; rewrite app_nil_r; now apply took_exchanged|].
      split; [constructor; [exact K1|constructor]|]. split; [constructor|].
      split; [reflexivity|]. split; [discriminate|]. split; [|reflexivity]. cbn. now rewrite uart_result_reports.
Qed.

Lemma sent_cons o r (log : list (operation V * report V E)) : sent_commands ((o, r) :: log) = sent_commands [(o, r)] ++ sent_commands log.
Proof. unfold sent_commands. cbn [flat_map]. now rewrite app_nil_r. Qed.
Lemma received_cons o r (log : list (operation V * report V E)) :
  received_packets ((o, r) :: log) = received_packets [(o, r)] ++ received_packets log.
Proof. unfold received_packets. cbn [flat_map]. now rewrite app_nil_r. Qed.

Lemma session_end os : Forall (typed_operation F) os -> forall s s' log, possible h s -> session F V C os s = (s', log) ->
  Forall (good F) (sent_commands log)
  /\ exists ps, Forall event_packet ps /\ received_packets log = map (uart_result F V) ps
     /\ exchanged h s s' (flat_map command_bytes (sent_commands log)) (flat_map uart_frame ps).
Proof.
  induction 1 as [|o os Ho _ IH]; intros s s' log Hs; cbn [session].
  - intros [= <- <-]. split; [constructor|]. exists []. split; [constructor|]. split; [reflexivity|]. now apply exchanged_none.
  - destruct (perform F V C o s) as [s1 r] eqn:Q. destruct (session F V C os s1) as [s2 log2] eqn:Q2. intros [= <- <-].
    destruct (perform_end o s s1 r Ho Hs Q) as (p & c & X & P1 & P2 & _ & _ & P3 & P4).
    destruct (IH s1 s2 log2) as (I1 & ps & I2 & I3 & I4); [apply X|exact Q2|].
    rewrite sent_cons, received_cons, P3, P4. split; [now apply Forall_app|].
    exists (perhaps p ++ ps). split; [now apply Forall_app|]. split; [now rewrite map_app, I3|].
    rewrite !flat_map_app. exact (exchanged_then C h HC _ _ _ _ _ _ _ X I4).
Qed.

Lemma moment o s x : typed_operation F o -> possible h s -> In x (moments F V C o s) ->
  nothing h s x \/ x = fst (perform F V C o s).
Proof.
  intros Ho Hs [<-|H]; [left; now apply nothing_refl|]. destruct o as [c|]; cbn [perform] in *.
  - right. assert (H' : In x (snd (fst (run_command F V uart_header (noted C) c (s, []))))).
    { now destruct (run_command F V uart_header (noted C) c (s, [])). }
    apply (write_noted F V C h c uart_header uart_header_bytes) in H'; [|now left|exact Ho|exact Hs].
    rewrite H'. now destruct (run_command F V uart_header C c s).
  - assert (H' : In x (snd (fst (uart_read F V (noted C) (s, []))))).
    { now destruct (uart_read F V (noted C) (s, [])). }
    apply (uart_read_noted F V C h HC) in H'; [|exact Hs].
    destruct H' as [H'|H']; [now left|right]. rewrite H'. now destruct (uart_read F V C s).
Qed.

Lemma stop_anywhere os o s x : Forall (typed_operation F) (os ++ [o]) -> possible h s ->
  let (s1, log) := session F V C os s in In x (moments F V C o s1) ->
  exists f, ended F (log, f)
  /\ (forall p, packet_lost f = Some p -> o = Receive) /\ (forall c, command_in_doubt f = Some c -> o = Send c)
  /\ Forall event_packet (packets_taken f) /\ Forall (good F) (all_sent (log, f))
  /\ exchanged h s x (flat_map command_bytes (all_sent (log, f))) (flat_map uart_frame (packets_taken f)).
Proof.
  intros Hos Hs. destruct (session F V C os s) as [s1 log] eqn:Q. intros Hx.
  apply Forall_app in Hos. destruct Hos as [Hos Ho]. inversion Ho as [|? ? Ho1 _]; subst. clear Ho.
  destruct (session_end os Hos s s1 log Hs Q) as (S1 & ps & S2 & S3 & S4).
  assert (Hs1 : possible h s1) by apply S4.
  assert (K : exists p c, exchanged h s1 x (flat_map command_bytes (perhaps c)) (flat_map uart_frame (perhaps p))
    /\ Forall event_packet (perhaps p) /\ Forall (good F) (perhaps c)
    /\ (forall q, p = Some q -> o = Receive) /\ (forall q, c = Some q -> o = Send q)).
  { destruct (moment o s1 x Ho1 Hs1 Hx) as [K| ->].
    - exists None, None. split; [now apply nothing_exchanged|]. repeat split; try constructor; discriminate.
    - destruct (perform F V C o s1) as [s2 r] eqn:Q2. destruct (perform_end o s1 s2 r Ho1 Hs1 Q2) as (p & c & K).
      exists p, c. tauto. }
  destruct K as (p & c & K1 & K2 & K3 & K4 & K5).
  exists {| packets_got := ps; packet_lost := p; command_in_doubt := c |}.
  unfold ended, all_sent, packets_taken, one_at_most. cbn [fst snd packets_got packet_lost command_in_doubt].
  split; [split; [exact S3|]|].
  { destruct p as [p|]; [right|now left]. destruct c as [c|]; [|reflexivity].
    pose proof (K4 p eq_refl) as A. pose proof (K5 c eq_refl) as B. congruence. }
  split; [exact K4|]. split; [exact K5|]. split; [now apply Forall_app|]. split; [now apply Forall_app|].
  rewrite !flat_map_app. exact (exchanged_then C h HC _ _ _ _ _ _ _ S4 K1).
Qed.

Lemma stop_parsed os o s x : Forall (typed_operation F) (os ++ [o]) -> possible h s ->
  let (s1, log) := session F V C os s in In x (moments F V C o s1) ->
  exists f, ended F (log, f)
  /\ (forall p, packet_lost f = Some p -> o = Receive) /\ (forall c, command_in_doubt f = Some c -> o = Send c)
  /\ Forall event_packet (packets_taken f)
  /\ exchanged h s x (flat_map command_bytes (all_sent (log, f))) (flat_map uart_frame (packets_taken f))
  /\ parse_commands (flat_map command_bytes (all_sent (log, f)))
     = Some (map (fun c => (command_opcode c, command_params c)) (all_sent (log, f))).
Proof.
  intros Hos Hs. pose proof (stop_anywhere os o s x Hos Hs) as K. destruct (session F V C os s) as [s1 log].
  intros Hx. destruct (K Hx) as (f & K1 & K2 & K3 & K4 & K5 & K6). exists f.
  repeat (split; [assumption|]). exact (uart_stream F V _ K5).
Qed.

Lemma lives_good s logs s' : possible h s -> lives F V C h s logs s' ->
  exists ends, map fst ends = logs /\ Forall (ended F) ends
    /\ Forall event_packet (flat_map (fun x => packets_taken (snd x)) ends)
    /\ Forall (good F) (flat_map all_sent ends)
    /\ exchanged h s s' (flat_map command_bytes (flat_map all_sent ends))
         (flat_map uart_frame (flat_map (fun x => packets_taken (snd x)) ends)).
Proof.
  intros Hs HL.
  induction HL as [s|s log x y logs s' (os & o & s1 & Hos & Q & Hx) HN HL IH].
  - exists []. repeat (split; [constructor|]). now apply exchanged_none.
  - pose proof (stop_anywhere os o s x Hos Hs) as K. rewrite Q in K.
    destruct (K Hx) as (f & K1 & _ & _ & K4 & K5 & K6).
    destruct IH as (ends & G1 & G2 & G3 & G4 & G5); [apply HN|].
    exists ((log, f) :: ends). split; [cbn; now rewrite G1|]. split; [now constructor|].
    cbn [flat_map]. split; [now apply Forall_app|]. split; [now apply Forall_app|].
    rewrite !(flat_map_app _ (all_sent (log, f))), !(flat_map_app _ (packets_taken (snd (log, f)))).
    pose proof (exchanged_then C h HC _ _ _ _ _ _ _ K6 (nothing_exchanged x y HN)) as X. rewrite !app_nil_r in X.
    exact (exchanged_then C h HC _ _ _ _ _ _ _ X G5).
Qed.

Lemma lives_end s logs s' : possible h s -> lives F V C h s logs s' ->
  exists ends, map fst ends = logs /\ Forall (ended F) ends
  /\ Forall event_packet (flat_map (fun x => packets_taken (snd x)) ends)
  /\ exchanged h s s' (flat_map command_bytes (flat_map all_sent ends))
       (flat_map uart_frame (flat_map (fun x => packets_taken (snd x)) ends))
  /\ parse_commands (flat_map command_bytes (flat_map all_sent ends))
     = Some (map (fun c => (command_opcode c, command_params c)) (flat_map all_sent ends)).
Proof.
  intros Hs HL. destruct (lives_good s logs s' Hs HL) as (ends & G1 & G2 & G3 & G4 & G5).
  exists ends. repeat (split; [assumption|]). exact (uart_stream F V _ G4).
Qed.
End Uart.

Section Links.
Context (F : features) (V : vendor) {St E : Type} (C : controller St E) (h : history St) (HC : contract C h).

Lemma link_nothing_exchanged s s' : nothing h s s' -> exchanged h s s' [] [].
Proof. intros H. apply took_exchanged. now apply nothing_took_nil. Qed.

(** One call, to its end: at most one packet, at most one command. *)
Lemma split_perform_end o s s' r : typed_operation F o -> possible h s -> split_perform F V C o s = (s', r) ->
  exists p c, exchanged h s s' (flat_map link_bytes (perhaps c)) (@concat N (perhaps p))
  /\ Forall event_packet (perhaps p) /\ Forall (good F) (perhaps c)
  /\ (forall q, p = Some q -> o = Receive) /\ (forall q, c = Some q -> o = Send q)
  /\ split_received [(o, r)] = map (link_result F V) (perhaps p) /\ split_sent [(o, r)] = perhaps c.
Proof.
  intros Ho Hs. destruct o as [c|]; cbn [split_perform].
  - pose proof (link_call F V C h HC c s Ho Hs) as K.
    destruct (run_command F V cmd_link_header C c s) as [s1 r1]. intros [= <- <-].
    destruct K as ((K1 & K2 & K3 & K4) & R).
    exists None, (if succeeded r1 then Some c else None).
    split; [|split; [constructor|split; [|split; [discriminate|split; [|split; [reflexivity|]]]]]].
    + split; [exact K1|]. split; [exact K2|]. split; [now eexists|]. split; [cbn; lia|].
      rewrite K4. destruct (succeeded r1); cbn [perhaps flat_map]; now rewrite ?app_nil_r.
    + destruct (succeeded r1); constructor; [|constructor]. split; [exact Ho|]. now apply R.
    + intros q. destruct (succeeded r1); [|discriminate]. now intros [= ->].
    + cbn. now destruct (succeeded r1).
  - destruct (link_read_cases F V C h HC s Hs) as (s1 & r1 & -> & K). intros [= <- <-].
    destruct K as [(K1 & K2)|(p & K1 & K2 & ->)].
    + exists None, None. split; [now apply link_nothing_exchanged|]. split; [constructor|]. split; [constructor|].
      split; [reflexivity|]. split; [discriminate|]. split; [|reflexivity]. cbn. now rewrite K1.
    + exists (Some p), None. split; [cbn [perhaps concat]; rewrite app_nil_r; now apply took_exchanged|].
      split; [constructor; [exact K1|constructor]|]. split; [constructor|].
      split; [reflexivity|]. split; [discriminate|]. split; [|reflexivity]. cbn. now rewrite link_result_reports.
Qed.

Lemma split_sent_cons o r (log : list (operation V * split_report V E)) : split_sent ((o, r) :: log) = split_sent [(o, r)] ++ split_sent log.
Proof. unfold split_sent. cbn [flat_map]. now rewrite app_nil_r. Qed.
Lemma split_received_cons o r (log : list (operation V * split_report V E)) :
  split_received ((o, r) :: log) = split_received [(o, r)] ++ split_received log.
Proof. unfold split_received. cbn [flat_map]. now rewrite app_nil_r. Qed.

Lemma split_session_end os : Forall (typed_operation F) os -> forall s s' log, possible h s -> split_session F V C os s = (s', log) ->
  Forall (good F) (split_sent log)
  /\ exists ps, Forall event_packet ps /\ split_received log = map (link_result F V) ps
     /\ exchanged h s s' (flat_map link_bytes (split_sent log)) (@concat N ps).
Proof.
  induction 1 as [|o os Ho _ IH]; intros s s' log Hs; cbn [split_session].
  - intros [= <- <-]. split; [constructor|]. exists []. split; [constructor|]. split; [reflexivity|]. now apply exchanged_none.
  - destruct (split_perform F V C o s) as [s1 r] eqn:Q. destruct (split_session F V C os s1) as [s2 log2] eqn:Q2. intros [= <- <-].
    destruct (split_perform_end o s s1 r Ho Hs Q) as (p & c & X & P1 & P2 & _ & _ & P3 & P4).
    destruct (IH s1 s2 log2) as (I1 & ps & I2 & I3 & I4); [apply X|exact Q2|].
    rewrite split_sent_cons, split_received_cons, P3, P4. split; [now apply Forall_app|].
    exists (perhaps p ++ ps). split; [now apply Forall_app|]. split; [now rewrite map_app, I3|].
    rewrite flat_map_app, concat_app. exact (exchanged_then C h HC _ _ _ _ _ _ _ X I4).
Qed.

Lemma split_moment o s x : typed_operation F o -> possible h s -> In x (split_moments F V C o s) ->
  nothing h s x \/ x = fst (split_perform F V C o s).
Proof.
  intros Ho Hs [<-|H]; [left; now apply nothing_refl|]. destruct o as [c|]; cbn [split_perform] in *.
  - right. assert (H' : In x (snd (fst (run_command F V cmd_link_header (noted C) c (s, []))))).
    { now destruct (run_command F V cmd_link_header (noted C) c (s, [])). }
    apply (write_noted F V C h c cmd_link_header cmd_link_header_bytes) in H'; [|apply link_header_known|exact Ho|exact Hs].
    rewrite H'. now destruct (run_command F V cmd_link_header C c s).
  - assert (H' : In x (snd (fst (link_read F V (noted C) (s, []))))).
    { now destruct (link_read F V (noted C) (s, [])). }
    apply (link_read_noted F V C h HC) in H'; [|exact Hs].
    destruct H' as [H'|H']; [now left|right]. rewrite H'. now destruct (link_read F V C s).
Qed.

Lemma split_stop_anywhere os o s x : Forall (typed_operation F) (os ++ [o]) -> possible h s ->
  let (s1, log) := split_session F V C os s in In x (split_moments F V C o s1) ->
  exists f, split_ended F (log, f)
  /\ (forall p, packet_lost f = Some p -> o = Receive) /\ (forall c, command_in_doubt f = Some c -> o = Send c)
  /\ Forall event_packet (packets_taken f) /\ Forall (good F) (split_all_sent (log, f))
  /\ exchanged h s x (flat_map link_bytes (split_all_sent (log, f))) (@concat N (packets_taken f)).
Proof.
  intros Hos Hs. destruct (split_session F V C os s) as [s1 log] eqn:Q. intros Hx.
  apply Forall_app in Hos. destruct Hos as [Hos Ho]. inversion Ho as [|? ? Ho1 _]; subst. clear Ho.
  destruct (split_session_end os Hos s s1 log Hs Q) as (S1 & ps & S2 & S3 & S4).
  assert (Hs1 : possible h s1) by apply S4.
  assert (K : exists p c, exchanged h s1 x (flat_map link_bytes (perhaps c)) (@concat N (perhaps p))
    /\ Forall event_packet (perhaps p) /\ Forall (good F) (perhaps c)
    /\ (forall q, p = Some q -> o = Receive) /\ (forall q, c = Some q -> o = Send q)).
  { destruct (split_moment o s1 x Ho1 Hs1 Hx) as [K| ->].
    - exists None, None. split; [now apply link_nothing_exchanged|]. repeat split; try constructor; discriminate.
    - destruct (split_perform F V C o s1) as [s2 r] eqn:Q2. destruct (split_perform_end o s1 s2 r Ho1 Hs1 Q2) as (p & c & K).
      exists p, c. tauto. }
  destruct K as (p & c & K1 & K2 & K3 & K4 & K5).
  exists {| packets_got := ps; packet_lost := p; command_in_doubt := c |}.
  unfold split_ended, split_all_sent, packets_taken, one_at_most. cbn [fst snd packets_got packet_lost command_in_doubt].
  split; [split; [exact S3|]|].
  { destruct p as [p|]; [right|now left]. destruct c as [c|]; [|reflexivity].
    pose proof (K4 p eq_refl) as A. pose proof (K5 c eq_refl) as B. congruence. }
  split; [exact K4|]. split; [exact K5|]. split; [now apply Forall_app|]. split; [now apply Forall_app|].
  rewrite flat_map_app, concat_app. exact (exchanged_then C h HC _ _ _ _ _ _ _ S4 K1).
Qed.

Lemma split_stop_parsed os o s x : Forall (typed_operation F) (os ++ [o]) -> possible h s ->
  let (s1, log) := split_session F V C os s in In x (split_moments F V C o s1) ->
  exists f, split_ended F (log, f)
  /\ (forall p, packet_lost f = Some p -> o = Receive) /\ (forall c, command_in_doubt f = Some c -> o = Send c)
  /\ Forall event_packet (packets_taken f)
  /\ exchanged h s x (flat_map link_bytes (split_all_sent (log, f))) (@concat N (packets_taken f))
  /\ parse_link_commands (flat_map link_bytes (split_all_sent (log, f)))
     = Some (map (fun c => (command_opcode c, command_params c)) (split_all_sent (log, f))).
Proof.
  intros Hos Hs. pose proof (split_stop_anywhere os o s x Hos Hs) as K. destruct (split_session F V C os s) as [s1 log].
  intros Hx. destruct (K Hx) as (f & K1 & K2 & K3 & K4 & K5 & K6). exists f.
  repeat (split; [assumption|]). exact (link_stream F V _ K5).
Qed.

Lemma split_lives_good s logs s' : possible h s -> split_lives F V C h s logs s' ->
  exists ends, map fst ends = logs /\ Forall (split_ended F) ends
    /\ Forall event_packet (flat_map (fun x => packets_taken (snd x)) ends)
    /\ Forall (good F) (flat_map split_all_sent ends)
    /\ exchanged h s s' (flat_map link_bytes (flat_map split_all_sent ends))
         (@concat N (flat_map (fun x => packets_taken (snd x)) ends)).
Proof.
  intros Hs HL.
  induction HL as [s|s log x y logs s' (os & o & s1 & Hos & Q & Hx) HN HL IH].
  - exists []. repeat (split; [constructor|]). now apply exchanged_none.
  - pose proof (split_stop_anywhere os o s x Hos Hs) as K. rewrite Q in K.
    destruct (K Hx) as (f & K1 & _ & _ & K4 & K5 & K6).
    destruct IH as (ends & G1 & G2 & G3 & G4 & G5); [apply HN|].
    exists ((log, f) :: ends). split; [cbn; now rewrite G1|]. split; [now constructor|].
    cbn [flat_map]. split; [now apply Forall_app|]. split; [now apply Forall_app|].
    rewrite (flat_map_app _ (split_all_sent (log, f))), concat_app.
    pose proof (exchanged_then C h HC _ _ _ _ _ _ _ K6 (link_nothing_exchanged x y HN)) as X. rewrite !app_nil_r in X.
    exact (exchanged_then C h HC _ _ _ _ _ _ _ X G5).
Qed.

Lemma split_lives_end s logs s' : possible h s -> split_lives F V C h s logs s' ->
  exists ends, map fst ends = logs /\ Forall (split_ended F) ends
  /\ Forall event_packet (flat_map (fun x => packets_taken (snd x)) ends)
  /\ exchanged h s s' (flat_map link_bytes (flat_map split_all_sent ends))
       (@concat N (flat_map (fun x => packets_taken (snd x)) ends))
  /\ parse_link_commands (flat_map link_bytes (flat_map split_all_sent ends))
     = Some (map (fun c => (command_opcode c, command_params c)) (flat_map split_all_sent ends)).
Proof.
  intros Hs HL. destruct (split_lives_good s logs s' Hs HL) as (ends & G1 & G2 & G3 & G4 & G5).
  exists ends. repeat (split; [assumption|]). exact (link_stream F V _ G4).
Qed.
End Links.
