(** * Threads that share a controller (proofs). *)
From Coq Require Import Lia.
From Verif Require Import Base Model_Types Model_EventBase Model_Command Model_Event Model_Host
  Spec_Wire Spec_Errors Spec_Report Spec_Host Spec_Link Spec_Split Spec_Crash Spec_Share
  Proofs_Base Proofs_Command Proofs_Send Proofs_Calls Proofs_Link Proofs_Split Proofs_Loop Proofs_Crash.
Open Scope list_scope.
Open Scope N_scope.

Lemma of_thread_app {A} i (l k : list (nat * A)) : of_thread i (l ++ k) = of_thread i l ++ of_thread i k.
Proof. apply flat_map_app. Qed.
Lemma of_thread_map {A B} i (f : A -> B) (l : list (nat * A)) :
  of_thread i (map (fun x => (fst x, f (snd x))) l) = map f (of_thread i l).
Proof.
  induction l as [|[j a] l IH]; [reflexivity|]. cbn. destruct (Nat.eqb j i); cbn; [f_equal|]; exact IH.
Qed.
Lemma of_thread_pairs {A} i j (l : list A) :
  of_thread j (map (fun a => (i, a)) l) = if Nat.eqb i j then l else [].
Proof.
  unfold of_thread. induction l as [|a l IH]; cbn [map flat_map fst snd]; [now destruct (Nat.eqb i j)|].
  rewrite IH. now destruct (Nat.eqb i j).
Qed.

Section Follow.
Context {V : vendor} {St R : Type} (perform : operation V -> St -> St * R) (threads : nat -> thread V R).

Lemma follows_nil (t : thread V R) : follows t [].
Proof. intros before o r after H. destruct before; discriminate. Qed.
Lemma follows_snoc (t : thread V R) log o r :
  follows t log -> t (map snd log) = Some o -> follows t (log ++ [(o, r)]).
Proof.
  intros HF Ho before o' r' after H.
  destruct (rev after) as [|x k] eqn:Q.
  - assert (after = []) by (rewrite <- (rev_involutive after), Q; reflexivity). subst after.
    apply app_inj_tail in H. destruct H as [-> [= <- <-]]. exact Ho.
  - assert (after = rev k ++ [x]) by (rewrite <- (rev_involutive after), Q; reflexivity). subst after.
    rewrite app_comm_cons, app_assoc in H. apply app_inj_tail in H. destruct H as [H _].
    now apply (HF before o' r' (rev k)).
Qed.

Lemma share_follows schedule : forall log s,
  (forall i, follows (threads i) (of_thread i log)) ->
  forall i, follows (threads i) (of_thread i (snd (share perform threads schedule log s))).
Proof.
  induction schedule as [|j schedule IH]; intros log s H; cbn [share]; [exact H|].
  destruct (threads j (map snd (of_thread j log))) as [o|] eqn:Q; [|now apply IH].
  destruct (perform o s) as [s1 r]. apply IH. intros i. rewrite of_thread_app. cbn [of_thread flat_map fst snd].
  destruct (Nat.eqb j i) eqn:J.
  - apply Nat.eqb_eq in J. subst j. cbn [app]. now apply follows_snoc.
  - cbn [app]. rewrite List.app_nil_r. apply H.
Qed.
End Follow.

Section History.
Context (F : features) (V : vendor) {St E : Type} (C : controller St E).
Lemma session_snoc os o s s1 log : session F V C os s = (s1, log) ->
  session F V C (os ++ [o]) s = (let (s2, r) := perform F V C o s1 in (s2, log ++ [(o, r)])).
Proof.
  revert s s1 log. induction os as [|o1 os IH]; intros s s1 log; cbn [session app].
  - intros [= <- <-]. now destruct (perform F V C o s).
  - destruct (perform F V C o1 s) as [s2 r]. destruct (session F V C os s2) as [s3 log3] eqn:Q. intros [= <- <-].
    rewrite (IH _ _ _ Q). now destruct (perform F V C o s3).
Qed.
Lemma split_session_snoc os o s s1 log : split_session F V C os s = (s1, log) ->
  split_session F V C (os ++ [o]) s = (let (s2, r) := split_perform F V C o s1 in (s2, log ++ [(o, r)])).
Proof.
  revert s s1 log. induction os as [|o1 os IH]; intros s s1 log; cbn [split_session app].
  - intros [= <- <-]. now destruct (split_perform F V C o s).
  - destruct (split_perform F V C o1 s) as [s2 r]. destruct (split_session F V C os s2) as [s3 log3] eqn:Q. intros [= <- <-].
    rewrite (IH _ _ _ Q). now destruct (split_perform F V C o s3).
Qed.
Lemma share_session (threads : nat -> thread V (report V E)) s0 schedule : forall log s,
  session F V C (map fst (map snd log)) s0 = (s, map snd log) ->
  let (s', log') := share (perform F V C) threads schedule log s in
  session F V C (map fst (map snd log')) s0 = (s', map snd log').
Proof.
  induction schedule as [|j schedule IH]; intros log s K; cbn [share]; [exact K|].
  destruct (threads j (map snd (of_thread j log))) as [o|]; [|now apply IH].
  destruct (perform F V C o s) as [s1 r] eqn:Q. apply IH. rewrite !map_app. cbn [map fst snd].
  rewrite (session_snoc _ _ _ _ _ K). now rewrite Q.
Qed.
Lemma split_share_session (threads : nat -> thread V (split_report V E)) s0 schedule : forall log s,
  split_session F V C (map fst (map snd log)) s0 = (s, map snd log) ->
  let (s', log') := share (split_perform F V C) threads schedule log s in
  split_session F V C (map fst (map snd log')) s0 = (s', map snd log').
Proof.
  induction schedule as [|j schedule IH]; intros log s K; cbn [share]; [exact K|].
  destruct (threads j (map snd (of_thread j log))) as [o|]; [|now apply IH].
  destruct (split_perform F V C o s) as [s1 r] eqn:Q. apply IH. rewrite !map_app. cbn [map fst snd].
  rewrite (split_session_snoc _ _ _ _ _ K). now rewrite Q.
Qed.
End History.

Section Uart.
Context (F : features) (V : vendor) {St E : Type} (C : controller St E) (h : history St) (HC : contract C h)
  (threads : nat -> thread V (report V E)) (HT : forall i, typed_thread F (threads i)).

Definition uart_account (s s' : St) (log : list (nat * (operation V * report V E)))
    (ps : list (nat * list N)) (cs : list (nat * command V)) : Prop :=
  Forall event_packet (map snd ps) /\ Forall (good F) (map snd cs)
  /\ exchanged h s s' (flat_map command_bytes (map snd cs)) (flat_map uart_frame (map snd ps))
  /\ (forall i, received_packets (of_thread i log) = map (uart_result F V) (of_thread i ps))
  /\ (forall i, sent_commands (of_thread i log) = of_thread i cs)
  /\ Forall (fun x => exists r, In (Receive, r) (of_thread (fst x) log)) ps.

Lemma share_account schedule : forall s0 log s ps cs, uart_account s0 s log ps cs ->
  let (s', log') := share (perform F V C) threads schedule log s in
  exists ps' cs', uart_account s0 s' log' ps' cs'.
Proof.
  induction schedule as [|j schedule IH]; intros s0 log s ps cs K; cbn [share]; [now exists ps, cs|].
  destruct (threads j (map snd (of_thread j log))) as [o|] eqn:Q; [|now apply (IH s0 log s ps cs)].
  destruct (perform F V C o s) as [s1 r] eqn:Q1.
  destruct K as (K1 & K2 & K3 & K4 & K5 & K6).
  assert (Ho : typed_operation F o) by exact (HT j _ _ Q).
  assert (Hs : possible h s) by apply K3.
  destruct (perform_end F V C h HC o s s1 r Ho Hs Q1) as (p & c & X & P1 & P2 & P5 & P6 & P3 & P4).
  apply (IH s0 _ s1 (ps ++ map (fun a => (j, a)) (perhaps p)) (cs ++ map (fun a => (j, a)) (perhaps c))).
  assert (M : forall A (l : list A), map snd (map (fun a => (j, a)) l) = l).
  { intros A l. rewrite map_map. now rewrite map_id. }
  split; [rewrite map_app, M; now apply Forall_app|].
  split; [rewrite map_app, M; now apply Forall_app|].
  split; [rewrite !map_app, !M, !flat_map_app; exact (exchanged_then C h HC _ _ _ _ _ _ _ K3 X)|].
  split; [|split].
  - intros i. rewrite !of_thread_app, of_thread_pairs. cbn [of_thread flat_map fst snd].
    unfold received_packets in *. rewrite flat_map_app. rewrite K4, map_app. f_equal.
    destruct (Nat.eqb j i); [exact P3|reflexivity].
  - intros i. rewrite !of_thread_app, of_thread_pairs. cbn [of_thread flat_map fst snd].
    unfold sent_commands in *. rewrite flat_map_app. rewrite K5. f_equal.
    destruct (Nat.eqb j i); [exact P4|reflexivity].
  - apply Forall_app. split.
    + eapply Forall_impl; [|exact K6]. intros x [r' Hr']. exists r'. rewrite of_thread_app. apply in_or_app. now left.
    + destruct p as [p|]; [|constructor]. constructor; [|constructor].
      exists r. rewrite of_thread_app. apply in_or_app. right. cbn. rewrite Nat.eqb_refl.
      rewrite (P5 p eq_refl). now left.
Qed.

Lemma share_uart schedule s : possible h s ->
  let (s', log) := share (perform F V C) threads schedule [] s in
  (forall i, follows (threads i) (of_thread i log))
  /\ exists ps cs, uart_account s s' log ps cs
     /\ parse_commands (flat_map command_bytes (map snd cs))
          = Some (map (fun c => (command_opcode c, command_params c)) (map snd cs)).
Proof.
  intros Hs.
  pose proof (share_follows (perform F V C) threads schedule [] s (fun i => follows_nil _)) as G.
  assert (A : uart_account s s [] [] []).
  { split; [constructor|]. split; [constructor|]. split; [now apply exchanged_none|].
    split; [reflexivity|]. split; [reflexivity|constructor]. }
  pose proof (share_account schedule s [] s [] [] A) as K.
  destruct (share (perform F V C) threads schedule [] s) as [s' log]. split; [exact G|].
  destruct K as (ps & cs & K). exists ps, cs. split; [exact K|]. apply uart_stream with (F := F). apply K.
Qed.

Lemma only_reader j ps log : (forall i, i <> j -> only_sends (threads i)) ->
  (forall i, follows (threads i) (of_thread i log)) ->
  Forall (fun x => exists r, In (Receive, r) (of_thread (fst x) log)) ps ->
  of_thread j ps = map snd (ps : list (nat * list N)).
Proof.
  intros HO HF. induction 1 as [|[i p] ps [r Hr] _ IH]; [reflexivity|].
  cbn [of_thread flat_map map fst snd] in *. destruct (Nat.eqb i j) eqn:J; [cbn; f_equal; exact IH|].
  exfalso. apply Nat.eqb_neq in J. apply in_split in Hr. destruct Hr as (l1 & l2 & Hr).
  exact (HO i J _ (HF i _ _ _ _ Hr)).
Qed.

Lemma share_uart_all schedule s : possible h s ->
  let (s', log) := share (perform F V C) threads schedule [] s in
  (forall i, follows (threads i) (of_thread i log))
  /\ exists ps cs, Forall event_packet (map snd ps)
     /\ exchanged h s s' (flat_map command_bytes (map snd cs)) (flat_map uart_frame (map snd ps))
     /\ parse_commands (flat_map command_bytes (map snd cs))
          = Some (map (fun c => (command_opcode c, command_params c)) (map snd cs))
     /\ forall i, received_packets (of_thread i log) = map (uart_result F V) (of_thread i ps)
          /\ sent_commands (of_thread i log) = of_thread i cs.
Proof.
  intros Hs. pose proof (share_uart schedule s Hs) as K.
  destruct (share (perform F V C) threads schedule [] s) as [s' log].
  destruct K as (K0 & ps & cs & (K1 & K2 & K3 & K4 & K5 & K6) & K7). split; [exact K0|].
  exists ps, cs. repeat (split; [assumption|]). intros i. split; [apply K4|apply K5].
Qed.
Lemma share_uart_reader schedule s j : possible h s -> (forall i, i <> j -> only_sends (threads i)) ->
  let (s', log) := share (perform F V C) threads schedule [] s in
  exists ps out, Forall event_packet ps /\ exchanged h s s' out (flat_map uart_frame ps)
    /\ received_packets (of_thread j log) = map (uart_result F V) ps.
Proof.
  intros Hs HO. pose proof (share_uart schedule s Hs) as K.
  destruct (share (perform F V C) threads schedule [] s) as [s' log].
  destruct K as (K0 & ps & cs & (K1 & K2 & K3 & K4 & K5 & K6) & K7).
  exists (map snd ps), (flat_map command_bytes (map snd cs)). split; [exact K1|]. split; [exact K3|].
  now rewrite K4, (only_reader j ps log HO K0 K6).
Qed.
End Uart.

Section Links.
Context (F : features) (V : vendor) {St E : Type} (C : controller St E) (h : history St) (HC : contract C h)
  (threads : nat -> thread V (split_report V E)) (HT : forall i, typed_thread F (threads i)).

Definition link_account (s s' : St) (log : list (nat * (operation V * split_report V E)))
    (ps : list (nat * list N)) (cs : list (nat * command V)) : Prop :=
  Forall event_packet (map snd ps) /\ Forall (good F) (map snd cs)
  /\ exchanged h s s' (flat_map link_bytes (map snd cs)) (@concat N (map snd ps))
  /\ (forall i, split_received (of_thread i log) = map (link_result F V) (of_thread i ps))
  /\ (forall i, split_sent (of_thread i log) = of_thread i cs)
  /\ Forall (fun x => exists r, In (Receive, r) (of_thread (fst x) log)) ps.

Lemma link_share_account schedule : forall s0 log s ps cs, link_account s0 s log ps cs ->
  let (s', log') := share (split_perform F V C) threads schedule log s in
  exists ps' cs', link_account s0 s' log' ps' cs'.
Proof.
  induction schedule as [|j schedule IH]; intros s0 log s ps cs K; cbn [share]; [now exists ps, cs|].
  destruct (threads j (map snd (of_thread j log))) as [o|] eqn:Q; [|now apply (IH s0 log s ps cs)].
  destruct (split_perform F V C o s) as [s1 r] eqn:Q1.
  destruct K as (K1 & K2 & K3 & K4 & K5 & K6).
  assert (Ho : typed_operation F o) by exact (HT j _ _ Q).
  assert (Hs : possible h s) by apply K3.
  destruct (split_perform_end F V C h HC o s s1 r Ho Hs Q1) as (p & c & X & P1 & P2 & P5 & P6 & P3 & P4).
  apply (IH s0 _ s1 (ps ++ map (fun a => (j, a)) (perhaps p)) (cs ++ map (fun a => (j, a)) (perhaps c))).
  assert (M : forall A (l : list A), map snd (map (fun a => (j, a)) l) = l).
  { intros A l. rewrite map_map. now rewrite map_id. }
  split; [rewrite map_app, M; now apply Forall_app|].
  split; [rewrite map_app, M; now apply Forall_app|].
  split; [rewrite !map_app, !M, flat_map_app, concat_app; exact (exchanged_then C h HC _ _ _ _ _ _ _ K3 X)|].
  split; [|split].
  - intros i. rewrite !of_thread_app, of_thread_pairs. cbn [of_thread flat_map fst snd].
    unfold split_received in *. rewrite flat_map_app. rewrite K4, map_app. f_equal.
    destruct (Nat.eqb j i); [exact P3|reflexivity].
  - intros i. rewrite !of_thread_app, of_thread_pairs. cbn [of_thread flat_map fst snd].
    unfold split_sent in *. rewrite flat_map_app. rewrite K5. f_equal.
    destruct (Nat.eqb j i); [exact P4|reflexivity].
  - apply Forall_app. split.
    + eapply Forall_impl; [|exact K6]. intros x [r' Hr']. exists r'. rewrite of_thread_app. apply in_or_app. now left.
    + destruct p as [p|]; [|constructor]. constructor; [|constructor].
      exists r. rewrite of_thread_app. apply in_or_app. right. cbn. rewrite Nat.eqb_refl.
      rewrite (P5 p eq_refl). now left.
Qed.

Lemma share_link schedule s : possible h s ->
  let (s', log) := share (split_perform F V C) threads schedule [] s in
  (forall i, follows (threads i) (of_thread i log))
  /\ exists ps cs, link_account s s' log ps cs
     /\ parse_link_commands (flat_map link_bytes (map snd cs))
          = Some (map (fun c => (command_opcode c, command_params c)) (map snd cs)).
Proof.
  intros Hs.
  pose proof (share_follows (split_perform F V C) threads schedule [] s (fun i => follows_nil _)) as G.
  assert (A : link_account s s [] [] []).
  { split; [constructor|]. split; [constructor|]. split; [now apply exchanged_none|].
    split; [reflexivity|]. split; [reflexivity|constructor]. }
  pose proof (link_share_account schedule s [] s [] [] A) as K.
  destruct (share (split_perform F V C) threads schedule [] s) as [s' log]. split; [exact G|].
  destruct K as (ps & cs & K). exists ps, cs. split; [exact K|]. apply link_stream with (F := F). apply K.
Qed.

Lemma link_only_reader j ps log : (forall i, i <> j -> only_sends (threads i)) ->
  (forall i, follows (threads i) (of_thread i log)) ->
  Forall (fun x => exists r, In (Receive, r) (of_thread (fst x) log)) ps ->
  of_thread j ps = map snd (ps : list (nat * list N)).
Proof.
  intros HO HF. induction 1 as [|[i p] ps [r Hr] _ IH]; [reflexivity|].
  cbn [of_thread flat_map map fst snd] in *. destruct (Nat.eqb i j) eqn:J; [cbn; f_equal; exact IH|].
  exfalso. apply Nat.eqb_neq in J. apply in_split in Hr. destruct Hr as (l1 & l2 & Hr).
  exact (HO i J _ (HF i _ _ _ _ Hr)).
Qed.

Lemma share_link_all schedule s : possible h s ->
  let (s', log) := share (split_perform F V C) threads schedule [] s in
  (forall i, follows (threads i) (of_thread i log))
  /\ exists ps cs, Forall event_packet (map snd ps)
     /\ exchanged h s s' (flat_map link_bytes (map snd cs)) (@concat N (map snd ps))
     /\ parse_link_commands (flat_map link_bytes (map snd cs))
          = Some (map (fun c => (command_opcode c, command_params c)) (map snd cs))
     /\ forall i, split_received (of_thread i log) = map (link_result F V) (of_thread i ps)
          /\ split_sent (of_thread i log) = of_thread i cs.
Proof.
  intros Hs. pose proof (share_link schedule s Hs) as K.
  destruct (share (split_perform F V C) threads schedule [] s) as [s' log].
  destruct K as (K0 & ps & cs & (K1 & K2 & K3 & K4 & K5 & K6) & K7). split; [exact K0|].
  exists ps, cs. repeat (split; [assumption|]). intros i. split; [apply K4|apply K5].
Qed.
Lemma share_link_reader schedule s j : possible h s -> (forall i, i <> j -> only_sends (threads i)) ->
  let (s', log) := share (split_perform F V C) threads schedule [] s in
  exists ps out, Forall event_packet ps /\ exchanged h s s' out (@concat N ps)
    /\ split_received (of_thread j log) = map (link_result F V) ps.
Proof.
  intros Hs HO. pose proof (share_link schedule s Hs) as K.
  destruct (share (split_perform F V C) threads schedule [] s) as [s' log].
  destruct K as (K0 & ps & cs & (K1 & K2 & K3 & K4 & K5 & K6) & K7).
  exists (map snd ps), (flat_map link_bytes (map snd cs)). split; [exact K1|]. split; [exact K3|].
  now rewrite K4, (link_only_reader j ps log HO K0 K6).
Qed.
End Links.
