(** * Sending and reading at the same time: lemmas. *)
From Coq Require Import Lia.
From Verif Require Import Base Model_Types Model_EventBase Model_Command Model_Event Model_Host
  Spec_Wire Spec_Errors Spec_Host Spec_Link Spec_Retry Spec_Split Spec_Live Spec_Threads
  Proofs_Base Proofs_Command Proofs_Send Proofs_Link Proofs_Split Proofs_Live Proofs_Crash.
Open Scope list_scope.
Open Scope N_scope.

Section Sides.
Context (F : features) (V : vendor) {St E : Type} (C : controller St E) (h : history St) (HC : contract C h).
Notation side := (event_side F V C).
Notation eh := (event_history (E := E) F V h).

Lemma sends_put cs : Forall (arguments_typed F) cs -> forall s, possible h s ->
  let (s', calls) := sends F V C cs s in
  put h s s' (flat_map link_bytes (sender_sent V calls)) /\ map fst calls = cs /\ Forall (good F) (sender_sent V calls).
Proof.
  induction 1 as [|c cs Hc _ IH]; intros s Hs; cbn [sends].
  - split; [|split; [reflexivity|constructor]]. split; [exact Hs|]. split; [apply arrives_refl|]. split; [reflexivity|].
    cbn. now rewrite app_nil_r.
  - pose proof (link_call F V C h HC c s Hc Hs) as K.
    destruct (run_command F V cmd_link_header C c s) as [s1 r]. destruct K as ((P1 & P2 & P3 & P4) & R).
    specialize (IH s1 P1). destruct (sends F V C cs s1) as [s2 calls]. destruct IH as ((Q1 & Q2 & Q3 & Q4) & Q5 & Q6).
    split; [|split].
    + split; [exact Q1|]. split; [eapply arrives_trans; eassumption|]. split; [congruence|].
      rewrite Q4, P4. unfold sender_sent. cbn [flat_map fst snd]. rewrite flat_map_app.
      destruct (succeeded r); cbn [flat_map]; now rewrite <- ?app_assoc, ?app_nil_r.
    + cbn [map fst]. now rewrite Q5.
    + unfold sender_sent. cbn [flat_map fst snd]. apply Forall_app. split; [|exact Q6].
      destruct (succeeded r); constructor; [|constructor]. split; [exact Hc|]. now apply R.
Qed.

(** What the sender's turns do. *)
Definition moved (st st' : shared V St E) : Prop :=
  exists new m, sender_calls st' = sender_calls st ++ new
  /\ written h (device_state st') = written h (device_state st) ++ flat_map link_bytes (sender_sent V new)
  /\ Forall (good F) (sender_sent V new)
  /\ map fst new = flat_map (sender_turns st) (seq 0 m) /\ (forall n, sender_turns st' n = sender_turns st (m + n)%nat)
  /\ reader_writes st' = reader_writes st.
Lemma moved_refl st : moved st st.
Proof. exists [], O. cbn. rewrite !app_nil_r. repeat split. constructor. Qed.
Lemma moved_trans a b c : moved a b -> moved b c -> moved a c.
Proof.
  intros (m & i & A1 & A2 & A3 & A4 & A5 & A6) (n & j & B1 & B2 & B3 & B4 & B5 & B6). exists (m ++ n), (i + j)%nat.
  unfold sender_sent in *. rewrite !flat_map_app.
  split; [now rewrite B1, A1, app_assoc|]. split; [now rewrite B2, A2, app_assoc|].
  split; [now apply Forall_app|]. split; [|split; [intros k; rewrite B5, A5; f_equal; lia|congruence]].
  rewrite map_app, A4, B4, seq_app, flat_map_app. f_equal. cbn [Nat.add]. clear -A5.
  assert (G : forall l k, flat_map (sender_turns b) (seq k l) = flat_map (sender_turns a) (seq (i + k) l)).
  { induction l as [|l IH]; intros k; [reflexivity|]. cbn [seq flat_map]. rewrite A5, IH, Nat.add_succ_r. reflexivity. }
  now rewrite G, Nat.add_0_r.
Qed.

Lemma goes st : possible eh st -> let st' := sender_goes F V C st in
  possible eh st' /\ arrives eh st st' /\ consumed eh st' = consumed eh st /\ moved st st'.
Proof.
  intros [Hs HT]. unfold sender_goes.
  pose proof (sends_put (sender_turns st 0) (HT O) (device_state st) Hs) as K.
  destruct (sends F V C (sender_turns st 0) (device_state st)) as [s calls].
  destruct K as ((P1 & P2 & P3 & P4) & P5 & P6). cbv zeta.
  split; [split; [exact P1|intros n; apply HT]|]. split; [exact P2|]. split; [exact P3|].
  exists calls, 1%nat. cbn [sender_calls device_state reader_writes sender_turns]. split; [reflexivity|]. split; [exact P4|].
  split; [exact P6|]. split; [|split; reflexivity]. cbn [seq flat_map]. now rewrite app_nil_r.
Qed.

Lemma arrives_back a b (s' : St) : arrives eh a b -> arrives h (device_state b) s' -> arrives h (device_state a) s'.
Proof. intros [x X] [y Y]. cbn in X. exists (x ++ y). now rewrite Y, X, app_assoc. Qed.

Lemma side_contract : contract side eh.
Proof.
  constructor.
  - intros s [Hs _]. exact (received_bytes _ _ HC _ Hs).
  - intros s [Hs _]. exact (consumed_received _ _ HC _ Hs).
  - intros st n Hst. destruct (goes st Hst) as ([G1 G1'] & G2 & G3 & (new & m & _ & _ & _ & _ & _ & G4)).
    cbn [event_side ctl_peek]. set (st1 := sender_goes F V C st) in *.
    pose proof (peek_contract _ _ HC (device_state st1) n G1) as K. unfold after.
    destruct (ctl_peek C (device_state st1) n) as [s' r]. destruct K as (K1 & K2 & K3 & K4 & K5).
    cbn [event_history possible received consumed written] in *. unfold pending in *. unfold arrives in G2 |- *.
    cbn [event_history possible received consumed written device_state sender_turns reader_writes] in *.
    split; [split; assumption|]. split; [eapply arrives_back; [exact G2|exact K2]|]. split; [congruence|].
    split; [now rewrite app_nil_r|]. rewrite <- G3. exact K5.
  - intros st buf Hst. destruct (goes st Hst) as ([G1 G1'] & G2 & G3 & (new & m & _ & _ & _ & _ & _ & G4)).
    cbn [event_side ctl_read_into]. set (st1 := sender_goes F V C st) in *.
    pose proof (read_contract _ _ HC (device_state st1) buf G1) as K. unfold after.
    destruct (ctl_read_into C (device_state st1) buf) as [s' r]. destruct K as (K1 & K2 & K3 & K4).
    unfold pending in *. unfold arrives in G2 |- *.
    cbn [event_history possible received consumed written device_state sender_turns reader_writes] in *.
    split; [split; assumption|]. split; [eapply arrives_back; [exact G2|exact K2]|].
    split; [now rewrite app_nil_r|]. rewrite <- G3. exact K4.
  - intros st hd pl Hst. destruct (goes st Hst) as ([G1 G1'] & G2 & G3 & (new & m & _ & _ & _ & _ & _ & G4)).
    cbn [event_side ctl_write]. set (st1 := sender_goes F V C st) in *.
    pose proof (write_contract _ _ HC (device_state st1) hd pl G1) as K. unfold after.
    destruct (ctl_write C (device_state st1) hd pl) as [s' r]. destruct K as (K1 & K2 & K3 & K4).
    unfold arrives in G2 |- *.
    cbn [event_history possible received consumed written device_state sender_turns reader_writes] in *.
    split; [split; assumption|]. split; [eapply arrives_back; [exact G2|exact K2]|]. split; [congruence|].
    rewrite G4. destruct r as [[]|e|]; [reflexivity|now rewrite app_nil_r|contradiction].
Qed.

Lemma peek_moved st n : possible eh st -> moved st (fst (ctl_peek side st n)).
Proof.
  intros Hst. destruct (goes st Hst) as ([G1 _] & _ & _ & M). cbn [event_side ctl_peek].
  set (st1 := sender_goes F V C st) in *. unfold after.
  pose proof (peek_contract _ _ HC (device_state st1) n G1) as K.
  destruct (ctl_peek C (device_state st1) n) as [s' r]. cbn [fst].
  eapply moved_trans; [exact M|]. exists [], O. cbn. rewrite !app_nil_r. destruct K as (_ & _ & _ & K & _).
  repeat split; [exact K|constructor].
Qed.
Lemma read_into_moved st buf : possible eh st -> moved st (fst (ctl_read_into side st buf)).
Proof.
  intros Hst. destruct (goes st Hst) as ([G1 _] & _ & _ & M). cbn [event_side ctl_read_into].
  set (st1 := sender_goes F V C st) in *. unfold after.
  pose proof (read_contract _ _ HC (device_state st1) buf G1) as K.
  destruct (ctl_read_into C (device_state st1) buf) as [s' r]. cbn [fst].
  eapply moved_trans; [exact M|]. exists [], O. cbn. rewrite !app_nil_r. destruct K as (_ & _ & K & _).
  repeat split; [exact K|constructor].
Qed.

Lemma link_read_moved st : possible eh st -> moved st (fst (link_read F V side st)).
Proof.
  intros Hst. unfold link_read, abind, amap_err, read_into_prefix, abind, pure. cbv beta iota.
  pose proof (peek_moved st 1 Hst) as M. pose proof (peek_contract _ _ side_contract st 1 Hst) as K.
  destruct (ctl_peek side st 1) as [st1 r1]. cbn [fst] in M. assert (H1 : possible eh st1) by apply K. clear K.
  destruct r1 as [pl|e|]; cbn [map_err fst]; [|exact M|exact M].
  destruct (slice _ 0 _) as [buf|e|]; cbn [map_err fst]; [|exact M|exact M].
  pose proof (read_into_moved st1 buf H1) as M2. destruct (ctl_read_into side st1 buf) as [st2 r2]. cbn [fst] in M2.
  pose proof (moved_trans _ _ _ M M2) as M3.
  destruct r2 as [data|e|]; cbn [map_err fst]; [|exact M3|exact M3].
  destruct (slice _ 0 _); exact M3.
Qed.

Lemma reads_moved n : forall st, possible eh st -> moved st (fst (repeated (link_read F V side) n st)).
Proof.
  induction n as [|n IH]; intros st Hst; cbn [repeated]; [apply moved_refl|].
  pose proof (link_read_moved st Hst) as M.
  destruct (link_read_cases F V side eh side_contract st Hst) as (st1 & r & Q & K). rewrite Q in *. cbn [fst] in M.
  assert (H1 : possible eh st1) by (destruct K as [(_ & K)|(p & _ & K & _)]; apply K).
  specialize (IH st1 H1). destruct (repeated (link_read F V side) n st1) as [st2 rs]. cbn [fst] in *.
  eapply moved_trans; eassumption.
Qed.
End Sides.

Section Ready.
Context (F : features) (V : vendor) {St E : Type} (C : controller St E) (h : history St).
Notation side := (event_side F V C).
Notation eh := (event_history (E := E) F V h).

Lemma side_buffering : buffering C h -> buffering side eh.
Proof.
  intros HB. pose proof (buffering_contract _ _ HB) as HC. constructor; [now apply side_contract| |].
  - intros st n Hst. destruct (goes F V C h HC st Hst) as ([G1 _] & _ & G3 & _). cbn [event_side ctl_peek].
    pose proof (peek_ready _ _ HB (device_state (sender_goes F V C st)) n G1) as K. unfold after.
    destruct (ctl_peek C (device_state (sender_goes F V C st)) n) as [s' r].
    unfold pending in *. cbn [event_history received consumed device_state] in *. rewrite <- G3. exact K.
  - intros st buf Hst. destruct (goes F V C h HC st Hst) as ([G1 _] & _ & G3 & _). cbn [event_side ctl_read_into].
    pose proof (read_ready _ _ HB (device_state (sender_goes F V C st)) buf G1) as K. unfold after.
    destruct (ctl_read_into C (device_state (sender_goes F V C st)) buf) as [s' r].
    unfold pending in *. cbn [event_history received consumed device_state] in *. rewrite <- G3. exact K.
Qed.
Lemma side_prompt : prompt C h -> prompt side eh.
Proof.
  intros HB. pose proof (prompt_contract _ _ HB) as HC. constructor; [now apply side_contract| |].
  - intros st n Hst. destruct (goes F V C h HC st Hst) as ([G1 _] & _ & G3 & _). cbn [event_side ctl_peek].
    pose proof (peek_prompt _ _ HB (device_state (sender_goes F V C st)) n G1) as K. unfold after.
    destruct (ctl_peek C (device_state (sender_goes F V C st)) n) as [s' r].
    unfold pending in *. cbn [event_history received consumed device_state] in *. rewrite <- G3. exact K.
  - intros st buf Hst. destruct (goes F V C h HC st Hst) as ([G1 _] & _ & G3 & _). cbn [event_side ctl_read_into].
    pose proof (read_prompt _ _ HB (device_state (sender_goes F V C st)) buf G1) as K. unfold after.
    destruct (ctl_read_into C (device_state (sender_goes F V C st)) buf) as [s' r].
    unfold pending in *. cbn [event_history received consumed device_state] in *. rewrite <- G3. exact K.
Qed.

Lemma threads n st : contract C h -> possible eh st ->
  let (st', rs) := repeated (link_read F V side) n st in
  exists calls ps, sender_calls st' = sender_calls st ++ calls /\ first_turns V st calls
  /\ Forall event_packet ps
  /\ filter (link_reports V) rs = map (link_result F V) ps
  /\ exchanged h (device_state st) (device_state st') (flat_map link_bytes (sender_sent V calls)) (concat ps)
  /\ parse_link_commands (flat_map link_bytes (sender_sent V calls))
     = Some (map (fun c => (command_opcode c, command_params c)) (sender_sent V calls)).
Proof.
  intros HC Hst. pose proof (reads_moved F V C h HC n st Hst) as M.
  pose proof (link_reads F V side eh (side_contract F V C h HC) n st Hst) as R.
  destruct (repeated (link_read F V side) n st) as [st' rs]. cbn [fst] in M.
  destruct M as (calls & m & M1 & M2 & M3 & M4 & _). destruct R as (ps & R1 & (T1 & T2 & T3 & T4 & _) & R3).
  exists calls, ps. split; [exact M1|]. split; [now exists m|]. split; [exact R1|]. split; [exact R3|].
  split; [|exact (link_stream F V _ M3)]. split; [apply T1|]. split; [exact T2|]. split; [exact T3|]. split; [exact T4|exact M2].
Qed.

Lemma unread states results n ps rest : prompt C h ->
  endless (split_perform F V side) (fun _ => Receive) states results ->
  possible eh (states 0%nat) -> again_and_again (fun m => split_read_went (results m) = true) ->
  Forall event_packet ps -> pending eh (states 0%nat) (states n) = concat ps ++ rest ->
  exists m more, (n <= m)%nat
  /\ split_received (until (fun _ => Receive) results m) = map (link_result F V) ps ++ more.
Proof.
  intros HP R S. exact (link_some_day F V side eh (side_prompt HP) (fun _ => Receive) states results R (fun _ => I) S n ps rest).
Qed.
End Ready.
