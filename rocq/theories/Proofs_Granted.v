(** * What becomes of a list of commands (proofs). *)
From Coq Require Import Lia.
From Verif Require Import Base Model_Types Model_Intervals Model_EventBase Model_Command Model_Event Model_Host
  Spec_Wire Spec_Errors Spec_Report Spec_Host Spec_Link Spec_Split Spec_Conform Spec_Follow Spec_Credit Spec_Facts Spec_Data Spec_Window Spec_Turns
  Spec_Own Spec_Apart Spec_Device Spec_Air Spec_Scan Spec_Meet Spec_Refuse Spec_Several Spec_Approved Spec_Live Spec_LiveOwn Spec_LiveApart
  Spec_Rest Spec_Done Spec_Granted
  Proofs_Base Proofs_Command Proofs_Link Proofs_Split Proofs_Conform Proofs_Follow Proofs_Credit
  Proofs_Facts Proofs_Data Proofs_Window Proofs_Turns Proofs_Own Proofs_Apart Proofs_Live Proofs_LiveOwn Proofs_LiveApart Proofs_Device Proofs_Refuse
  Proofs_Several Proofs_Approved Proofs_Learn Proofs_Rest Proofs_Done.
Open Scope list_scope.
Open Scope N_scope.

Section Granted.
Context (F : features) (V : vendor).
Notation pair_of := (fun c : command V => (command_opcode c, command_params c)).
Lemma approved_granted accepts d evs (cs : list (command V)) : orderly F d -> truthful accepts d ->
  commands_taken d = map pair_of cs -> all_heard evs cs ->
  (forall (c : command V) k ev, nth_error (filter (answer_to (command_opcode c)) evs) k = Some ev ->
      exists pkt, nth_error (filter (reply_with (command_opcode c)) (sent_by d)) k = Some (0x04, pkt) /\ event_new F V pkt = Ok ev) ->
  approved evs [] cs = granted accepts [] cs.
Proof.
  intros Hd HT T HA A. destruct (orderly_packets F d Hd) as [_ D2].
  enough (H : forall after before, cs = before ++ after -> approved evs before after = granted accepts (map pair_of before) after)
    by exact (H cs [] eq_refl).
  induction after as [|c after IH]; intros before Ha; [reflexivity|]. cbn [approved granted].
  replace (map pair_of before ++ [(command_opcode c, command_params c)]) with (map pair_of (before ++ [c])) by now rewrite map_app.
  rewrite <- IH by (rewrite Ha, <- app_assoc; reflexivity). f_equal.
  set (k := length (filter (fun b => command_opcode b =? command_opcode c) before)).
  assert (L : (k < length (filter (answer_to (command_opcode c)) evs))%nat).
  { assert (I : In c cs) by (rewrite Ha; apply in_or_app; right; now left). specialize (HA c I).
    rewrite Ha, filter_app, app_length in HA. cbn [filter] in HA. rewrite N.eqb_refl in HA. cbn [length] in HA. unfold k.
    unfold Nat.le in HA. lia. }
  destruct (nth_error (filter (answer_to (command_opcode c)) evs) k) as [ev|] eqn:Q.
  2:{ apply nth_error_None in Q. lia. }
  destruct (A c k ev Q) as (pkt & N1 & En).
  assert (K : event_confirms ev = true <-> accepts (map pair_of before) (command_opcode c, command_params c) = true).
  { rewrite <- (HT (map pair_of before) (command_opcode c) (command_params c) (map pair_of after) pkt).
    - assert (I : In ev (filter (answer_to (command_opcode c)) evs)) by (eapply nth_error_In; exact Q).
      apply filter_In in I. destruct I as [_ I]. destruct (own_opcode c) as [Z _].
      apply (event_status F V (command_opcode c) pkt ev Z); [|exact En|exact I].
      assert (I' : In (0x04, pkt) (sent_by d)).
      { apply nth_error_In in N1. now apply filter_In in N1. }
      apply (packet_bytes F). apply (proj1 (Forall_forall _ _) D2). unfold events_in. apply in_map_iff. exists (0x04, pkt).
      split; [reflexivity|]. apply filter_In. split; [exact I'|reflexivity].
    - rewrite T, Ha, map_app. reflexivity.
    - rewrite same_count. exact N1. }
  destruct (event_confirms ev), (accepts _ _); try reflexivity.
  - now discriminate (proj1 K eq_refl).
  - now discriminate (proj2 K eq_refl).
Qed.
Lemma all_granted (cs : list (command V)) before : granted (fun _ _ => true) before cs = cs.
Proof. revert before. induction cs as [|c cs IH]; intros before; [reflexivity|]. cbn [granted app]. now rewrite IH. Qed.

Lemma program_granted cs accepts device known : runs_program F V cs accepts device known ->
  comes_to_rest F V device known
  /\ exists m0, forall m, (m0 <= m)%nat -> known m = granted accepts [] cs.
Proof.
  intros [St E C h calls states results d HB run start Hcs program writes go all HT Hd Hk
         |St E C h calls states results d HP run start Hcs program writes go all HT Hd Hk].
  - pose proof (program_typed F V calls results cs Hcs program) as typed.
    pose proof (program_reads V calls results cs program writes) as reads.
    destruct (program_sends F V C h HB calls states results cs run start Hcs program writes d go) as [n Hn]. split.
    + apply (rest_uart F V device known St E C h calls states results d accepts n HB run typed start all reads HT); [|exact Hd|exact Hk].
      intros k c L. rewrite (proj2 (Hn k L)). discriminate.
    + destruct (program_done F V C h HB calls states results cs run start Hcs program writes d go all accepts after_reset HT) as [m0 H].
      exists m0. intros m Hm. destruct (H m Hm) as (H1 & H2 & H3 & _). rewrite Hk, H1.
      pose proof (all (@CReset V)) as A. pose proof (all_connected _ _ _ _ _ A) as con.
      pose proof (fun c => own_answer F V C h (buffering_contract _ _ HB) (map calls (seq 0 m)) (states 0%nat) (d m) c
        (typed_until F V calls typed m) start (device_orderly _ _ _ _ _ A m) (all_usual _ _ _ _ _ A m)) as O.
      rewrite (data_until F V C calls states results run) in O.
      apply (approved_granted accepts (d m)); [apply (device_orderly _ _ _ _ _ A)|apply HT|exact H2|exact H3|].
      intros c k ev Q. destruct (O c (commands_on_the_way _ _ _ con m) (events_on_the_way _ _ _ con m)) as [O1 _].
      destruct (O1 k ev Q) as (pkt & _ & N1 & En & _). now exists pkt.
  - pose proof (split_program_typed F V calls results cs Hcs program) as typed.
    pose proof (split_program_reads F V C calls states results cs run program writes) as reads.
    destruct (split_program_sends F V C h HP calls states results cs run start Hcs program writes d go) as [n Hn]. split.
    + apply (rest_links F V device known St E C h calls states results d accepts n HP run typed start all reads HT); [|exact Hd|exact Hk].
      intros k c L. rewrite (proj2 (Hn k L)). discriminate.
    + destruct (split_program_done F V C h HP calls states results cs run start Hcs program writes d go all accepts after_reset HT) as [m0 H].
      exists m0. intros m Hm. destruct (H m Hm) as (H1 & H2 & H3 & _). rewrite Hk, H1.
      pose proof (all (@CReset V)) as A. pose proof (reply_connected _ _ _ _ _ A) as con.
      pose proof (fun c => split_own_answer F V C h (prompt_contract _ _ HP) (map calls (seq 0 m)) (states 0%nat) (d m) c
        (split_typed_until F V calls typed m) start (reply_orderly _ _ _ _ _ A m) (links_apart _ _ _ con m) (reply_usual _ _ _ _ _ A m)) as O.
      rewrite (split_until F V C calls states results run) in O.
      apply (approved_granted accepts (d m)); [apply (reply_orderly _ _ _ _ _ A)|apply HT|exact H2|exact H3|].
      intros c k ev Q. destruct (O c (commands_under_way _ _ _ con m) (events_under_way _ _ _ con m)) as [O1 _].
      destruct (O1 k ev Q) as (pkt & _ & N1 & En & _). now exists pkt.
Qed.
Lemma program_gets cs accepts device known : runs_program F V cs accepts device known ->
  exists m0, forall m, (m0 <= m)%nat -> known m = granted accepts [] cs /\ by_answers F V (device m) (granted accepts [] cs).
Proof.
  intros R. destruct (program_granted cs accepts device known R) as [Rest (m1 & H1)].
  destruct (at_rest F V device known Rest) as (m0 & B & H). exists (Nat.max m0 m1). intros m L.
  split; [apply H1; lia|]. destruct (H m ltac:(lia)) as [-> Q]. rewrite <- (H1 m) by lia. rewrite Q. exact B.
Qed.
Lemma program_gets_all cs device known : runs_program F V cs (fun _ _ => true) device known ->
  exists m0, forall m, (m0 <= m)%nat -> known m = cs /\ by_answers F V (device m) cs.
Proof. intros R. apply program_gets in R. now rewrite all_granted in R. Qed.
End Granted.

Lemma programs_hear F V cs accepts device known F' V' cs' accepts' device' known' public public' :
  runs_program F V cs accepts device known -> runs_program F' V' cs' accepts' device' known' ->
  exists m0, forall m m', (m0 <= m)%nat -> (m0 <= m')%nat ->
  hears public (device m) public' (device' m') <-> is_to_hear public (granted accepts [] cs) public' (granted accepts' [] cs').
Proof.
  intros R R'. destruct (program_gets F V _ _ _ _ R) as (n & H). destruct (program_gets F' V' _ _ _ _ R') as (n' & H').
  exists (Nat.max n n'). intros m m' L L'. destruct (H m ltac:(lia)) as [_ B]. destruct (H' m' ltac:(lia)) as [_ B'].
  exact (approved_hears F V _ _ F' V' _ _ public public' B B').
Qed.
Lemma programs_connect F V cs accepts device known F' V' cs' accepts' device' known' public public' :
  runs_program F V cs accepts device known -> runs_program F' V' cs' accepts' device' known' ->
  exists m0, forall m m', (m0 <= m)%nat -> (m0 <= m')%nat ->
  connect public (device m) public' (device' m') <-> is_to_connect public (granted accepts [] cs) public' (granted accepts' [] cs').
Proof.
  intros R R'. destruct (program_gets F V _ _ _ _ R) as (n & H). destruct (program_gets F' V' _ _ _ _ R') as (n' & H').
  exists (Nat.max n n'). intros m m' L L'. destruct (H m ltac:(lia)) as [_ B]. destruct (H' m' ltac:(lia)) as [_ B'].
  exact (approved_connect F V _ _ F' V' _ _ public public' B B').
Qed.
