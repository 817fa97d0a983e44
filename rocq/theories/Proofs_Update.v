(** * Programs built differently that follow one another (proofs). *)
From Coq Require Import Lia.
From Verif Require Import Base Model_Types Model_EventBase Model_Command Model_Event Model_Host
  Spec_Wire Spec_Errors Spec_Report Spec_Host Spec_Link Spec_Split Spec_Crash Spec_Update
  Proofs_Base Proofs_Command Proofs_Send Proofs_Calls Proofs_Link Proofs_Split Proofs_Loop Proofs_Crash.
Open Scope list_scope.
Open Scope N_scope.

(** ** Streams of commands, whatever program they come from *)
Definition pair_of {V} (c : command V) : N * list N := (command_opcode c, command_params c).
Definition fits (w : N * list N) : Prop := u16 (fst w) /\ (length (snd w) <= 255)%nat.
Definition pair_bytes (w : N * list N) : list N := uart_header_bytes (fst w) (length (snd w)) ++ snd w.
Definition link_pair_bytes (w : N * list N) : list N := le 2 (fst w) ++ [N.of_nat (length (snd w))] ++ snd w.

Lemma good_fits F V (cs : list (command V)) : Forall (good F) cs -> Forall fits (map pair_of cs).
Proof.
  induction 1 as [|c cs [HA HR] _ IH]; constructor; [|exact IH].
  destruct (params_ok F V c HA HR) as [Hl _]. split; [apply command_opcode_u16|cbn; lia].
Qed.
Lemma pairs_parsed ws : Forall fits ws -> parse_commands (flat_map pair_bytes ws) = Some ws.
Proof.
  induction 1 as [|[op ps] ws [H1 H2] _ IH]; [reflexivity|]. cbn [flat_map]. unfold pair_bytes at 1. cbn [fst snd] in *.
  rewrite <- app_assoc, parse_one by assumption. now rewrite IH.
Qed.
Lemma link_pairs_parsed ws : Forall fits ws -> parse_link_commands (flat_map link_pair_bytes ws) = Some ws.
Proof.
  intros H. unfold parse_link_commands.
  assert (G : forall fuel, (length ws <= fuel)%nat -> parse_link_commands_fuel fuel (flat_map link_pair_bytes ws) = Some ws).
  { induction H as [|[op ps] ws [H1 H2] _ IH]; intros fuel Hf; [now destruct fuel|].
    destruct fuel as [|fuel]; [cbn in Hf; lia|]. cbn [length] in Hf. cbn [flat_map]. unfold link_pair_bytes at 1. cbn [fst snd] in *.
    rewrite <- !app_assoc, parse_link_step by assumption. now rewrite IH by lia. }
  apply G. clear G H. induction ws as [|w ws IH]; [cbn; lia|]. cbn [flat_map]. rewrite app_length.
  assert (1 <= length (link_pair_bytes w))%nat
    by (unfold link_pair_bytes; rewrite !app_length; cbn [length]; lia).
  cbn [length]. lia.
Qed.
Lemma pairs_bytes V (cs : list (command V)) : flat_map pair_bytes (map pair_of cs) = flat_map command_bytes cs.
Proof. now rewrite flat_map_concat_map, map_map, <- flat_map_concat_map. Qed.
Lemma link_pairs_bytes V (cs : list (command V)) : flat_map link_pair_bytes (map pair_of cs) = flat_map link_bytes cs.
Proof. now rewrite flat_map_concat_map, map_map, <- flat_map_concat_map. Qed.

Section Updates.
Context {St E : Type} (C : controller St E) (h : history St) (HC : contract C h).

Lemma updates_good s ls s' : possible h s -> updates C h s ls s' ->
  exists ends, map of_life ends = ls /\ Forall end_told ends
    /\ Forall event_packet (flat_map end_packets ends)
    /\ Forall fits (flat_map (fun x => map pair_of (end_sent x)) ends)
    /\ exchanged h s s' (flat_map (fun x => flat_map command_bytes (end_sent x)) ends)
         (flat_map uart_frame (flat_map end_packets ends)).
Proof.
  intros Hs HL. induction HL as [s|s F V log x y ls s' (os & o & s1 & Hos & Q & Hx) HN HL IH].
  - exists []. repeat (split; [constructor|]). now apply exchanged_none.
  - pose proof (stop_anywhere F V C h HC os o s x Hos Hs) as K. rewrite Q in K.
    destruct (K Hx) as (f & K1 & _ & _ & K4 & K5 & K6).
    destruct IH as (ends & G1 & G2 & G3 & G4 & G5); [apply HN|].
    exists ({| of_life := {| built_for := F; built_with := V; calls_made := log |}; its_fate := f |} :: ends).
    split; [cbn [map of_life]; now rewrite G1|]. split; [now constructor|].
    cbn [flat_map]. split; [now apply Forall_app|].
    split; [apply Forall_app; split; [apply (good_fits F V), K5|exact G4]|].
    rewrite flat_map_app.
    pose proof (exchanged_then C h HC _ _ _ _ _ _ _ K6 (nothing_exchanged h x y HN)) as X. rewrite !List.app_nil_r in X.
    exact (exchanged_then C h HC _ _ _ _ _ _ _ X G5).
Qed.
Lemma updates_end s ls s' : possible h s -> updates C h s ls s' ->
  exists ends, map of_life ends = ls /\ Forall end_told ends
    /\ Forall event_packet (flat_map end_packets ends)
    /\ exchanged h s s' (flat_map (fun x => flat_map command_bytes (end_sent x)) ends)
         (flat_map uart_frame (flat_map end_packets ends))
    /\ parse_commands (flat_map (fun x => flat_map command_bytes (end_sent x)) ends)
       = Some (flat_map (fun x => map (fun c => (command_opcode c, command_params c)) (end_sent x)) ends).
Proof.
  intros Hs HL. destruct (updates_good s ls s' Hs HL) as (ends & G1 & G2 & G3 & G4 & G5).
  exists ends. repeat (split; [assumption|]). etransitivity; [|exact (pairs_parsed _ G4)]. f_equal. clear.
  induction ends as [|x ends IH]; [reflexivity|]. cbn [flat_map]. now rewrite flat_map_app, pairs_bytes, IH.
Qed.

Lemma split_updates_good s ls s' : possible h s -> split_updates C h s ls s' ->
  exists ends, map of_split_life ends = ls /\ Forall split_end_told ends
    /\ Forall event_packet (flat_map split_end_packets ends)
    /\ Forall fits (flat_map (fun x => map pair_of (split_end_sent x)) ends)
    /\ exchanged h s s' (flat_map (fun x => flat_map link_bytes (split_end_sent x)) ends)
         (@concat N (flat_map split_end_packets ends)).
Proof.
  intros Hs HL. induction HL as [s|s F V log x y ls s' (os & o & s1 & Hos & Q & Hx) HN HL IH].
  - exists []. repeat (split; [constructor|]). now apply exchanged_none.
  - pose proof (split_stop_anywhere F V C h HC os o s x Hos Hs) as K. rewrite Q in K.
    destruct (K Hx) as (f & K1 & _ & _ & K4 & K5 & K6).
    destruct IH as (ends & G1 & G2 & G3 & G4 & G5); [apply HN|].
    exists ({| of_split_life := {| split_built_for := F; split_built_with := V; split_calls_made := log |}; its_split_fate := f |} :: ends).
    split; [cbn [map of_split_life]; now rewrite G1|]. split; [now constructor|].
    cbn [flat_map]. split; [now apply Forall_app|].
    split; [apply Forall_app; split; [apply (good_fits F V), K5|exact G4]|].
    rewrite concat_app.
    pose proof (exchanged_then C h HC _ _ _ _ _ _ _ K6 (link_nothing_exchanged h x y HN)) as X. rewrite !List.app_nil_r in X.
    exact (exchanged_then C h HC _ _ _ _ _ _ _ X G5).
Qed.
Lemma split_updates_end s ls s' : possible h s -> split_updates C h s ls s' ->
  exists ends, map of_split_life ends = ls /\ Forall split_end_told ends
    /\ Forall event_packet (flat_map split_end_packets ends)
    /\ exchanged h s s' (flat_map (fun x => flat_map link_bytes (split_end_sent x)) ends)
         (@concat N (flat_map split_end_packets ends))
    /\ parse_link_commands (flat_map (fun x => flat_map link_bytes (split_end_sent x)) ends)
       = Some (flat_map (fun x => map (fun c => (command_opcode c, command_params c)) (split_end_sent x)) ends).
Proof.
  intros Hs HL. destruct (split_updates_good s ls s' Hs HL) as (ends & G1 & G2 & G3 & G4 & G5).
  exists ends. repeat (split; [assumption|]). etransitivity; [|exact (link_pairs_parsed _ G4)]. f_equal. clear.
  induction ends as [|x ends IH]; [reflexivity|]. cbn [flat_map]. now rewrite flat_map_app, link_pairs_bytes, IH.
Qed.
End Updates.
