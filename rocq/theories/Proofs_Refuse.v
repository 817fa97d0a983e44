(** * A controller that refuses some commands (proofs). *)
From Verif Require Import Base Model_Types Model_EventBase Model_Command Model_Event Model_Host
  Spec_Wire Spec_Errors Spec_Host Spec_Link Spec_Retry Spec_Dialogue Spec_Device Spec_Refuse
  Proofs_Base Proofs_Streams Proofs_Dialogue Proofs_Device Proofs_Ask Proofs_Conform.
Open Scope list_scope.
Open Scope N_scope.

Section Refuse.
Context (F : features) (V : vendor).
Implicit Types (cs : list (command V)) (answers : list (answer V)).

Lemma honest_serves accepts respond w b cs answers : honest F V accepts respond w b cs answers ->
  serves F V respond w cs answers.
Proof. induction 1; [constructor|econstructor; eassumption]. Qed.

Lemma byte_success sb s : status_byte F V sb s -> (sb = 0 <-> s = Success).
Proof.
  intros H. split.
  - intros ->. exact H.
  - intros ->. exact (success_byte F V sb H).
Qed.

Lemma returned_byte r op ret s : wire_return F V r op ret -> status_returned V r = Some s ->
  exists sb rest, status_byte F V sb s /\ ret = sb :: rest.
Proof.
  intros H Q. destruct r; cbn [status_returned] in Q; try discriminate Q; injection Q as <-;
    cbn [wire_return] in H;
    repeat match goal with
    | H : _ /\ _ |- _ => destruct H
    | H : ex _ |- _ => destruct H
    | H : status_first _ _ _ _ |- _ => exact H
    | H : status_then _ _ _ _ _ |- _ => destruct H
    end; subst; eauto.
Qed.
Lemma returned_some r op ret : wire_return F V r op ret -> op <> 0 -> exists s, status_returned V r = Some s.
Proof. destruct r; cbn; intros H N; eauto; contradiction. Qed.

Lemma opcode_not_zero (c : command V) : command_opcode c <> 0.
Proof. destruct c; vm_compute; discriminate. Qed.

Lemma confirms_status c a p : answered F V (command_opcode (V := V) c) a p -> (confirms a = true <-> status_in p = 0).
Proof.
  intros H. pose proof (opcode_not_zero c) as NZ. set (op := command_opcode c) in *. clearbody op.
  destruct H as [n r ret Hn Hr Hl HW|n sb s Hn Hb HS].
  - destruct (returned_some r op ret HW NZ) as [s Q]. destruct (returned_byte r op ret s HW Q) as (sb & rest & HS & ->).
    unfold confirms. rewrite Q. unfold status_in, framed, at_. cbn [le app nth]. change (0x0E =? 0x0E) with true. cbv iota.
    rewrite (byte_success sb s HS). destruct s; split; intros; congruence.
  - unfold confirms, status_in, framed, at_. cbn [le app nth]. change (0x0F =? 0x0E) with false. cbv iota.
    rewrite (byte_success sb s HS). destruct s; split; intros; congruence.
Qed.

Lemma decided accepts respond w b cs answers d : honest F V accepts respond w b cs answers -> Forall (fit F) cs ->
  decide accepts b (map (fun c => (command_opcode c, command_params c)) cs) d
  = fold_left asked (confirmed cs (map Some answers)) d.
Proof.
  intros H. revert d. induction H as [|w b c cs a rest before p after _ _ _ _ HA HS _ IH]; intros d Hf; [reflexivity|].
  inversion Hf as [|? ? [HT HR] Hf']; subst. cbn [map decide]. unfold confirmed. cbn [map combine flat_map fst snd].
  rewrite IH by exact Hf'. rewrite fold_left_app. f_equal.
  pose proof (confirms_status c a p HA) as K. rewrite HS in K.
  destruct (confirms a), (accepts b _); try reflexivity; [exact (carried F d c HT HR)|..].
  - now discriminate (proj1 K eq_refl).
  - now discriminate (proj2 K eq_refl).
Qed.

Lemma settled accepts respond cs answers s ps d :
  Forall (fun c => arguments_typed F c /\ @rejection V N c = None) cs ->
  possible queue_history s -> takes (length cs) (q_ready s) ->
  q_pending s ++ concat (q_arrivals s) = flat_map uart_frame ps -> Forall (unrelated F V) ps ->
  honest F V accepts respond (q_written s) [] cs answers ->
  exists m, forall n, (m <= n)%nat ->
  let (s', heard) := asks F V (device respond) n cs s in
  exists stream packets, q_written s' = q_written s ++ stream /\ parse_commands stream = Some packets
    /\ decide accepts [] packets d = fold_left asked (confirmed cs heard) d.
Proof.
  intros Hc Hs Ht Hp Hps HH.
  assert (Hf : Forall (fit F) cs).
  { eapply Forall_impl; [|exact Hc]. intros c [A R]. split; [exact A|exact (rejection_any c R)]. }
  destruct (dialogues F V respond cs answers s ps Hc Hs Ht Hp Hps (honest_serves _ _ _ _ _ _ HH)) as [m Hm].
  exists m. intros n Hn. destruct (Hm n Hn) as (s' & E & W). rewrite E.
  exists (flat_map command_bytes cs), (map (fun c => (command_opcode c, command_params c)) cs).
  split; [exact W|]. split; [exact (uart_stream F V cs Hf)|].
  exact (decided accepts respond _ _ cs answers d HH Hf).
Qed.
End Refuse.
