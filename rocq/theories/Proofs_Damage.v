(** * Damaged packets (proofs). *)
From Verif Require Import Base Model_Types Model_EventBase Model_Event Model_Host Spec_Wire Spec_Errors Spec_Link
  Spec_Example Spec_Damage Proofs_Base Proofs_Link.
Open Scope list_scope.

Lemma repeated_add {St A} (call : St -> St * A) n m s :
  repeated call (n + m) s
  = let (s1, rs) := repeated call n s in let (s2, qs) := repeated call m s1 in (s2, rs ++ qs).
Proof.
  revert s. induction n as [|n IH]; intros s; cbn [Nat.add repeated].
  - now destruct (repeated call m s).
  - destruct (call s) as [s1 r]. rewrite IH. destruct (repeated call n s1) as [s2 rs].
    now destruct (repeated call m s2).
Qed.

(** A byte that is not the length. *)
Lemma damaged_packet i b p : event_packet p -> byte b -> i <> 1%nat -> (i < length p)%nat ->
  event_packet (damaged i b p).
Proof.
  intros (code & params & -> & Hc & Hb & Hl) B Hi Hn. unfold framed in *. cbn [length app] in Hn.
  destruct i as [|[|i]]; [|congruence|].
  - exists b, params. split; [reflexivity|auto].
  - exists code, (damaged i b params). cbn [Nat.sub] in *.
    assert (L : length (damaged i b params) = length params).
    { unfold damaged. rewrite app_length, firstn_length. cbn [length]. rewrite skipn_length. lia. }
    split; [unfold framed; rewrite L; reflexivity|]. split; [exact Hc|]. split; [|lia].
    unfold damaged. apply Forall_app. split; [now apply bytes_firstn|].
    constructor; [exact B|]. now apply bytes_skipn.
Qed.

Section Damage.
Context (F : features) (V : vendor) {St E : Type} (C : controller St E) (h : history St).
Hypothesis HB : buffering C h.

Lemma damaged_uart before i b p after rest s : possible h s ->
  Forall event_packet before -> event_packet p -> Forall event_packet after -> byte b ->
  (0 < i)%nat -> i <> 2%nat -> (i < length (uart_frame p))%nat ->
  pending h s s = damaged_frames before i b p after ++ rest ->
  let (s', rs) := repeated (uart_read F V C) (length before + (1 + length after)) s in
  rs = map (uart_result F V) before ++ [uart_result F V (damaged (i - 1) b p)] ++ map (uart_result F V) after.
Proof.
  intros Hs H1 H2 H3 B I0 I2 Il P. destruct i as [|i]; [lia|]. cbn [Nat.sub]. rewrite Nat.sub_0_r.
  cbn [uart_frame length] in Il.
  assert (D : event_packet (damaged i b p)) by (apply damaged_packet; auto; lia).
  pose proof (uart_deliver F V C h HB (before ++ damaged i b p :: after)) as U.
  specialize (U ltac:(apply Forall_app; split; [|constructor]; assumption) rest s Hs).
  rewrite flat_map_app in U. cbn [flat_map] in U.
  replace (length before + (1 + length after))%nat with (length (before ++ damaged i b p :: after))
    by (rewrite app_length; reflexivity).
  destruct (repeated _ _ s) as [s' rs]. destruct U as [-> _]; [|now rewrite map_app].
  rewrite P. unfold damaged_frames. reflexivity.
Qed.

Lemma uart_before_any before tail s : possible h s -> Forall event_packet before ->
  pending h s s = flat_map uart_frame before ++ tail ->
  let (s', rs) := repeated (uart_read F V C) (length before) s in
  rs = map (uart_result F V) before /\ possible h s' /\ exists more, pending h s' s' = tail ++ more.
Proof.
  intros Hs H P. pose proof (uart_deliver F V C h HB before H tail s Hs P) as U.
  destruct (repeated _ _ s) as [s' rs]. destruct U as [-> T]. split; [reflexivity|].
  destruct T as (Hs' & (more & A) & _ & N0 & _). split; [exact Hs'|]. exists more.
  unfold pending in *. rewrite N0, A.
  pose proof (consumed_received _ _ (buffering_contract _ _ HB) s Hs) as L.
  rewrite skipn_add, skipn_app, P.
  replace (consumed h s - length (received h s))%nat with 0%nat by lia. cbn [skipn].
  rewrite <- app_assoc, skipn_app, skipn_all, Nat.sub_diag. reflexivity.
Qed.

Lemma damaged_type before b p after rest s n : possible h s ->
  Forall event_packet before -> b <> 0x04 ->
  pending h s s = damaged_frames before 0 b p after ++ rest ->
  let (s', rs) := repeated (uart_read F V C) (length before + n) s in
  rs = map (uart_result F V) before ++ repeat (Err (Other (UBadPacketType b))) n.
Proof.
  intros Hs H1 Hb P. unfold damaged_frames, damaged in P. cbn [firstn skipn uart_frame app] in P.
  rewrite <- !app_assoc in P. cbn [app] in P.
  pose proof (uart_before_any before _ s Hs H1 P) as U. rewrite repeated_add.
  destruct (repeated _ (length before) s) as [s1 rs]. destruct U as (-> & Hs1 & more & P1).
  pose proof (foreign_buffered F V C h HB n s1 b Hs1) as K. rewrite P1 in K.
  specialize (K eq_refl Hb). destruct (repeated _ n s1) as [s2 qs]. destruct K as [-> _]. reflexivity.
Qed.

Lemma damaged_any before i b p after rest s : possible h s -> Forall event_packet before ->
  pending h s s = damaged_frames before i b p after ++ rest ->
  let (s', rs) := repeated (uart_read F V C) (length before) s in
  rs = map (uart_result F V) before.
Proof.
  intros Hs H1 P. unfold damaged_frames in P. rewrite <- app_assoc in P.
  pose proof (uart_before_any before _ s Hs H1 P) as U.
  destruct (repeated _ (length before) s) as [s1 rs]. apply U.
Qed.

Lemma damaged_link before i b p after rest s : possible h s ->
  Forall event_packet before -> event_packet p -> Forall event_packet after -> byte b ->
  i <> 1%nat -> (i < length p)%nat ->
  pending h s s = damaged_packets before i b p after ++ rest ->
  let (s', rs) := repeated (link_read F V C) (length before + (1 + length after)) s in
  rs = map (link_result F V) before ++ [link_result F V (damaged i b p)] ++ map (link_result F V) after.
Proof.
  intros Hs H1 H2 H3 B I2 Il P.
  assert (D : event_packet (damaged i b p)) by (apply damaged_packet; auto).
  pose proof (link_deliver F V C h HB (before ++ damaged i b p :: after)) as U.
  specialize (U ltac:(apply Forall_app; split; [|constructor]; assumption) rest s Hs).
  rewrite concat_app in U. cbn [concat] in U.
  replace (length before + (1 + length after))%nat with (length (before ++ damaged i b p :: after))
    by (rewrite app_length; reflexivity).
  destruct (repeated _ _ s) as [s' rs]. destruct U as [-> _]; [|now rewrite map_app].
  rewrite P. reflexivity.
Qed.
Lemma damaged_link_any before i b p after rest s : possible h s -> Forall event_packet before ->
  pending h s s = damaged_packets before i b p after ++ rest ->
  let (s', rs) := repeated (link_read F V C) (length before) s in
  rs = map (link_result F V) before.
Proof.
  intros Hs H1 P. unfold damaged_packets in P. rewrite <- app_assoc in P.
  pose proof (link_deliver F V C h HB before H1 _ s Hs P) as U.
  destruct (repeated _ (length before) s) as [s1 rs]. apply U.
Qed.
End Damage.

(** ** A damaged length *)
Definition first_packet : list N := [0x10; 1; 0x42].
Definition second_packet : list N := [0x1A; 1; 0x00].
Definition damaged_queue (l : list N) : queue :=
  {| q_received := l; q_consumed := 0; q_arrivals := []; q_written := []; q_ready := [] |}.

Lemma two_packets : event_packet first_packet /\ event_packet second_packet.
Proof. split; [exists 0x10, [0x42]|exists 0x1A, [0]]; repeat split; repeat constructor. Qed.
Lemma damaged_possible l : bytes l -> possible queue_history (damaged_queue l).
Proof. intros H. split; [exact H|]. split; [cbn; lia|constructor]. Qed.

Definition emptied (l : list N) : queue :=
  {| q_received := l; q_consumed := length l; q_arrivals := []; q_written := []; q_ready := [] |}.
Lemma empty_uart F V l n : repeated (uart_read F V queue_controller) n (emptied l) = (emptied l, repeat (Err WouldBlock) n).
Proof.
  assert (R : uart_read F V queue_controller (emptied l) = (emptied l, Err WouldBlock)).
  { assert (P : q_pending (emptied l) = []) by apply skipn_all.
    unfold uart_read, abind, amap_err. cbn [queue_controller ctl_peek]. cbv zeta. change (q_arrive (emptied l)) with (emptied l).
    rewrite P. reflexivity. }
  induction n as [|n IH]; [reflexivity|]. cbn [repeated repeat]. now rewrite R, IH.
Qed.
Lemma empty_link F V l n : repeated (link_read F V queue_controller) n (emptied l) = (emptied l, repeat (Err WouldBlock) n).
Proof.
  assert (R : link_read F V queue_controller (emptied l) = (emptied l, Err WouldBlock)).
  { assert (P : q_pending (emptied l) = []) by apply skipn_all.
    unfold link_read, abind, amap_err. cbn [queue_controller ctl_peek]. cbv zeta. change (q_arrive (emptied l)) with (emptied l).
    rewrite P. reflexivity. }
  induction n as [|n IH]; [reflexivity|]. cbn [repeated repeat]. now rewrite R, IH.
Qed.

Lemma neighbour_swallowed F V : exists p q b s,
  event_packet p /\ event_packet q /\ byte b /\ possible queue_history s
  /\ pending queue_history s s = damaged_frames [] 2 b p [q]
  /\ exists ev, @uart_result F V N q = Ok (PEvent ev)
     /\ forall n, ~ In (Ok (PEvent ev)) (snd (repeated (uart_read F V queue_controller) n s)).
Proof.
  exists first_packet, second_packet, 5, (damaged_queue (damaged_frames [] 2 5 first_packet [second_packet])).
  destruct two_packets as [P Q]. split; [exact P|]. split; [exact Q|]. split; [reflexivity|].
  split; [apply damaged_possible; repeat constructor|]. split; [reflexivity|].
  eexists. split; [reflexivity|]. intros [|n]; [intros []|]. cbn [repeated].
  destruct (uart_read F V queue_controller _) as [s1 r] eqn:R. cbv in R. injection R as <- <-.
  pose proof (empty_uart F V [4; 16; 5; 66; 4; 26; 1; 0] n) as K. cbn [emptied length] in K.
  unfold emptied in K. cbn [length] in K. rewrite K. cbn [snd]. intros [H|H]; [discriminate H|].
  apply repeat_spec in H. discriminate H.
Qed.
Lemma neighbour_swallowed_link F V : exists p q b s,
  event_packet p /\ event_packet q /\ byte b /\ possible queue_history s
  /\ pending queue_history s s = damaged_packets [] 1 b p [q]
  /\ exists ev, @link_result F V N q = Ok ev
     /\ forall n, ~ In (Ok ev) (snd (repeated (link_read F V queue_controller) n s)).
Proof.
  exists first_packet, second_packet, 4, (damaged_queue (damaged_packets [] 1 4 first_packet [second_packet])).
  destruct two_packets as [P Q]. split; [exact P|]. split; [exact Q|]. split; [reflexivity|].
  split; [apply damaged_possible; repeat constructor|]. split; [reflexivity|].
  eexists. split; [reflexivity|]. intros [|n]; [intros []|]. cbn [repeated].
  destruct (link_read F V queue_controller _) as [s1 r] eqn:R. cbv in R. injection R as <- <-.
  pose proof (empty_link F V [16; 4; 66; 26; 1; 0] n) as K.
  unfold emptied in K. cbn [length] in K. rewrite K. cbn [snd]. intros [H|H]; [discriminate H|].
  apply repeat_spec in H. discriminate H.
Qed.
