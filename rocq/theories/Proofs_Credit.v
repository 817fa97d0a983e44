(** * Flow control (proofs). *)
From Verif Require Import Base Model_Types Model_Intervals Model_EventBase Model_Command Model_Event Model_Host
  Spec_Wire Spec_Errors Spec_Report Spec_Host Spec_Link Spec_Split Spec_Core Spec_Conform Spec_Pass Spec_Example Spec_Follow Spec_Credit
  Proofs_Base Proofs_Event Proofs_Report Proofs_Panic Proofs_Complete Proofs_Link Proofs_Split Proofs_Sent Proofs_Conform
  Proofs_Command Proofs_Streams Proofs_Air Proofs_Follow.
Open Scope list_scope.
Open Scope N_scope.

(** ** All packets read *)
Section Sessions.
Context (F : features) (V : vendor) {St E : Type} (C : controller St E) (h : history St).
Lemma uart_all os s ps more : contract C h -> Forall (typed_operation F) os -> possible h s ->
  Forall event_packet ps ->
  let (s', log) := session F V C os s in
  pending h s s' = flat_map uart_frame ps ++ more ->
  consumed h s' = (consumed h s + length (flat_map uart_frame ps))%nat ->
  events_read log = flat_map (one F V) ps.
Proof.
  intros HC Ho Hs Hp. pose proof (session_spec F V C h HC os s Ho Hs) as S.
  destruct (session F V C os s) as [s' log]. intros P N0.
  destruct S as (_ & _ & qs & Hq & (more' & P') & N1 & R).
  assert (ps = qs) as <- by (apply (same_uart ps qs more more'); [exact Hp|exact Hq|congruence|lia]).
  exact (uart_events F V log ps R).
Qed.
Lemma split_all os s ps more : contract C h -> Forall (typed_operation F) os -> possible h s ->
  Forall event_packet ps ->
  let (s', log) := split_session F V C os s in
  pending h s s' = concat ps ++ more ->
  consumed h s' = (consumed h s + length (concat ps))%nat ->
  split_events_read log = flat_map (one F V) ps.
Proof.
  intros HC Ho Hs Hp. pose proof (split_session_spec F V C h HC os s Ho Hs) as S.
  destruct (split_session F V C os s) as [s' log]. intros P N0.
  destruct S as (_ & _ & _ & qs & Hq & (more' & P') & N1 & R).
  assert (ps = qs) as <- by (apply (same_link ps qs more more'); [exact Hp|exact Hq|congruence|lia]).
  exact (split_events F V log ps R).
Qed.
End Sessions.
Lemma conforming_events F ps : Forall (conforming_packet F) ps -> Forall event_packet ps.
Proof. intros H. eapply Forall_impl; [|exact H]. apply conforming_event_packet. Qed.

(** ** Data packets *)
Lemma freed_pairs h l : Forall pair_ok l -> forall more,
  freed h (length l) (flat_map pair_bytes l ++ more)
  = total (map (fun p => if cpp_conn_handle p =? h then cpp_num_completed_packets p else 0) l).
Proof.
  induction 1 as [|p l [H1 H2] _ IH]; intros more; [reflexivity|]. cbn [length flat_map map freed].
  rewrite <- app_assoc. change (pair_bytes p) with (le 2 (cpp_conn_handle p) ++ le 2 (cpp_num_completed_packets p)).
  rewrite !le_2. cbn [app skipn].
  unfold u16_le, at_. cbn [nth Nat.add]. rewrite !word_back by assumption. rewrite IH. reflexivity.
Qed.

Section Steps.
Context (F : features) (V : vendor).
Lemma counted_ok h pkt ev : bytes pkt -> event_new F V pkt = Ok ev ->
  forall n, counted h ev n <-> n = completed h pkt.
Proof.
  intros Hb H n. destruct ev;
    try (destruct (event_of_code F V _ _ H) as (p & -> & Hp); cbn [event_code event_subcode] in *; reflexivity).
  destruct (accepted_pairs_iterate F V pkt _ Hb H) as (l & Hi & _ & E).
  assert (Hl : Forall pair_ok l) by (now apply (completed_packets_packet F V pkt l Hb); exists e).
  assert (Q : completed h pkt
     = total (map (fun p => if cpp_conn_handle p =? h then cpp_num_completed_packets p else 0) l)).
  { rewrite E. unfold completed, at_. cbn [nth app skipn]. rewrite N.eqb_refl, Nat2N.id.
    rewrite <- (app_nil_r (flat_map pair_bytes l)). now apply freed_pairs. }
  rewrite Q. cbn [counted]. split.
  - intros (l' & Hi' & ->). now rewrite (iterates_same _ _ _ _ Hi Hi').
  - intros ->. now exists l.
Qed.
Lemma not_completed h pkt : conforming_packet F pkt -> (forall ev, event_new F V pkt <> Ok ev) ->
  completed h pkt = 0.
Proof.
  intros (code & p & -> & Hc) H. unfold completed, framed, at_. cbn [nth].
  destruct (N.eqb_spec code 0x13) as [->|]; [|reflexivity]. exfalso.
  destruct (proj2 (conforming_exactly F V _ p Hc)) as [ev E]; [|exact (H ev E)].
  intros R. inversion R.
Qed.
Lemma counted_steps h ps : Forall (conforming_packet F) ps ->
  forall n, counted_all h (flat_map (one F V) ps) n <-> n = total (map (completed h) ps).
Proof.
  unfold counted_all. induction 1 as [|p ps Hp _ IH]; intros n.
  - cbn. split; [intros (ns & A & ->); now inversion A|intros ->; exists []; now split].
  - cbn [flat_map map]. assert (Hb : bytes p).
    { destruct Hp as (code & q & -> & Hc). destruct (conforming_is F code q Hc) as (B1 & B2 & B3).
      exact (framed_is_bytes code q B1 B2 B3). }
    unfold one at 1. destruct (event_new F V p) as [ev|e|] eqn:En.
    + cbn [app]. split.
      * intros (ns & A & ->). inversion A as [|? x ? ns' A1 A2]; subst. apply (counted_ok h p ev Hb En) in A1.
        cbn. f_equal; [exact A1|]. apply IH. now exists ns'.
      * intros ->. destruct (proj2 (IH _) eq_refl) as (ns & A & T). exists (completed h p :: ns).
        split; [constructor; [now apply (counted_ok h p ev Hb En)|exact A]|]. cbn. now f_equal.
    + cbn [app]. change (total (completed h p :: map (completed h) ps)) with (completed h p + total (map (completed h) ps)).
      rewrite (not_completed h p Hp) by (intros ev; congruence). apply IH.
    + cbn [app]. change (total (completed h p :: map (completed h) ps)) with (completed h p + total (map (completed h) ps)).
      rewrite (not_completed h p Hp) by (intros ev; congruence). apply IH.
Qed.

(** ** Commands *)
Lemma room_ok pkt ev n : bytes pkt -> event_new F V pkt = Ok ev -> known_room n ev = room n pkt.
Proof.
  intros Hb H. destruct ev;
    try (destruct (event_of_code F V _ _ H) as (p & -> & Hp); cbn [event_code event_subcode] in *; reflexivity).
  - destruct e as [k r]. apply (command_complete_dispatch_iff F V pkt k r Hb) in H.
    destruct H as (op & ret & _ & -> & _). reflexivity.
  - destruct e as [st k o]. apply (command_status_packet F V pkt st k o Hb) in H.
    destruct H as (sb & _ & _ & ->). reflexivity.
Qed.
Lemma room_refused code p n : refused_event code p -> reserved_address_commands (framed code p) = false ->
  room n (framed code p) = n.
Proof.
  intros H. destruct H as [| | | | | |k sb m Hm]; try reflexivity.
  intros K. exfalso. unfold reserved_address_commands, framed, u16_le, at_ in K. rewrite le_2 in K.
  cbn [app nth skipn Nat.add] in K. rewrite Hm in K. vm_compute in K. discriminate K.
Qed.
Lemma reserved_refused pkt ev : conforming_packet F pkt -> event_new F V pkt = Ok ev -> reserved_address_commands pkt = false.
Proof.
  intros (code & p & -> & Hc) H. destruct (reserved_address_commands _) eqn:R; [|reflexivity]. exfalso.
  apply (proj1 (conforming_exactly F V code p Hc) (ex_intro _ ev H)).
  unfold reserved_address_commands, framed, u16_le, at_ in R. cbn [nth Nat.add skipn] in R.
  apply andb_prop in R. destruct R as [R R3]. apply andb_prop in R. destruct R as [R1 R2].
  apply N.eqb_eq in R1. subst code. apply N.eqb_eq in R2.
  destruct p as [|k [|o0 [|o1 [|sb m]]]]; try (vm_compute in R3; discriminate R3); try discriminate R2.
  cbn [nth skipn] in R2, R3. replace (k :: o0 :: o1 :: sb :: m) with ([k] ++ le 2 (hci_opcode 0x04 0x002) ++ [sb] ++ m).
  { now apply refused_commands. }
  rewrite <- R2. destruct (conforming_is F _ _ Hc) as (_ & B & _).
  cbn [app]. inversion B as [|? ? _ B']; subst. inversion B' as [|? ? X1 B'']; subst. inversion B'' as [|? ? X2 _]; subst.
  rewrite le_2_of_bytes by assumption. reflexivity.
Qed.
Lemma room_steps ps : Forall (conforming_packet F) ps -> forall n,
  fold_left known_room (flat_map (one F V) ps) n
  = fold_left room (filter (fun p => negb (reserved_address_commands p)) ps) n.
Proof.
  induction 1 as [|p ps Hp _ IH]; intros n; [reflexivity|]. cbn [flat_map filter]. rewrite fold_left_app, IH.
  pose proof Hp as (code & q & E & Hc). destruct (conforming_is F code q Hc) as (B1 & B2 & B3).
  pose proof (framed_is_bytes code q B1 B2 B3) as Hb. rewrite <- E in Hb.
  assert (K : reserved_address_commands p = false -> (forall ev, event_new F V p <> Ok ev) -> room n p = n).
  { intros R No. destruct (N.eq_dec (room n p) n) as [Q|Q]; [exact Q|]. exfalso.
    destruct (proj2 (conforming_exactly F V code q Hc)) as [ev Ev]; [|apply (No ev); now rewrite E].
    intros Re. apply Q. rewrite E in R |- *. now apply room_refused. }
  unfold one. destruct (event_new F V p) as [ev|e|] eqn:En.
  - rewrite (reserved_refused p ev Hp En). cbn [negb fold_left]. now rewrite (room_ok p ev n Hb En).
  - cbn [fold_left]. destruct (reserved_address_commands p) eqn:R; [reflexivity|]. cbn [negb fold_left].
    rewrite K; [reflexivity|reflexivity|congruence].
  - cbn [fold_left]. destruct (reserved_address_commands p) eqn:R; [reflexivity|]. cbn [negb fold_left].
    rewrite K; [reflexivity|reflexivity|congruence].
Qed.
End Steps.

(** ** In sessions *)
Section All.
Context (F : features) (V : vendor) {St E : Type} (C : controller St E) (h : history St).
Lemma credits_uart os s ps more : contract C h -> Forall (typed_operation F) os -> possible h s ->
  Forall (conforming_packet F) ps ->
  let (s', log) := session F V C os s in
  pending h s s' = flat_map uart_frame ps ++ more ->
  consumed h s' = (consumed h s + length (flat_map uart_frame ps))%nat ->
  forall conn n, counted_all conn (events_read log) n <-> n = total (map (completed conn) ps).
Proof.
  intros HC Ho Hs Hp. pose proof (uart_all F V C h os s ps more HC Ho Hs (conforming_events F ps Hp)) as R.
  destruct (session F V C os s) as [s' log]. intros P N0 conn n. rewrite (R P N0). now apply counted_steps.
Qed.
Lemma credits_split os s ps more : contract C h -> Forall (typed_operation F) os -> possible h s ->
  Forall (conforming_packet F) ps ->
  let (s', log) := split_session F V C os s in
  pending h s s' = concat ps ++ more ->
  consumed h s' = (consumed h s + length (concat ps))%nat ->
  forall conn n, counted_all conn (split_events_read log) n <-> n = total (map (completed conn) ps).
Proof.
  intros HC Ho Hs Hp. pose proof (split_all F V C h os s ps more HC Ho Hs (conforming_events F ps Hp)) as R.
  destruct (split_session F V C os s) as [s' log]. intros P N0 conn n. rewrite (R P N0). now apply counted_steps.
Qed.
Lemma room_uart os s ps more n : contract C h -> Forall (typed_operation F) os -> possible h s ->
  Forall (conforming_packet F) ps ->
  let (s', log) := session F V C os s in
  pending h s s' = flat_map uart_frame ps ++ more ->
  consumed h s' = (consumed h s + length (flat_map uart_frame ps))%nat ->
  fold_left known_room (events_read log) n
  = fold_left room (filter (fun p => negb (reserved_address_commands p)) ps) n.
Proof.
  intros HC Ho Hs Hp. pose proof (uart_all F V C h os s ps more HC Ho Hs (conforming_events F ps Hp)) as R.
  destruct (session F V C os s) as [s' log]. intros P N0. rewrite (R P N0). now apply room_steps.
Qed.
Lemma room_split os s ps more n : contract C h -> Forall (typed_operation F) os -> possible h s ->
  Forall (conforming_packet F) ps ->
  let (s', log) := split_session F V C os s in
  pending h s s' = concat ps ++ more ->
  consumed h s' = (consumed h s + length (concat ps))%nat ->
  fold_left known_room (split_events_read log) n
  = fold_left room (filter (fun p => negb (reserved_address_commands p)) ps) n.
Proof.
  intros HC Ho Hs Hp. pose proof (split_all F V C h os s ps more HC Ho Hs (conforming_events F ps Hp)) as R.
  destruct (split_session F V C os s) as [s' log]. intros P N0. rewrite (R P N0). now apply room_steps.
Qed.
End All.

(** ** Room that is not heard of *)
Definition room_packet : list N :=
  framed 0x0E ([1] ++ le 2 (hci_opcode 0x04 0x002) ++ [0] ++ repeat 0 31 ++ [0x10] ++ repeat 0 32).
Definition no_room_packet : list N := framed 0x0F [0; 0; 0x06; 0x04].
Lemma room_conforms : Forall (conforming_packet F41) [no_room_packet; room_packet].
Proof.
  constructor; [|constructor; [|constructor]].
  - exists 0x0F, [0; 0; 0x06; 0x04]. split; [reflexivity|].
    eapply conforming_event; [cbn; do 4 right; left; reflexivity|].
    exists [0], [0; 0x06; 0x04]. split; [reflexivity|].
    split; [exists 0; split; [vm_compute; discriminate|reflexivity]|].
    exists [0], [0x06; 0x04]. split; [reflexivity|]. split; [split; [reflexivity|repeat constructor]|].
    exists [0x06; 0x04], []. split; [reflexivity|]. split; [split; [reflexivity|repeat constructor]|reflexivity].
  - eexists _, _. split; [reflexivity|]. apply conforming_refused_cases.
Qed.
Lemma room_missed : exists F V os s ps n, Forall (typed_operation F) os /\ possible queue_history s
  /\ Forall (conforming_packet F) ps
  /\ let (s', log) := session F V queue_controller os s in
     pending queue_history s s' = flat_map uart_frame ps
     /\ consumed queue_history s' = (consumed queue_history s + length (flat_map uart_frame ps))%nat
     /\ fold_left known_room (events_read log) n = 0 /\ fold_left room ps n = 1.
Proof.
  exists F41, test_vendor, [Receive; Receive], {| q_received := flat_map uart_frame [no_room_packet; room_packet]; q_consumed := 0;
    q_arrivals := []; q_written := []; q_ready := [] |}, [no_room_packet; room_packet], 1.
  split; [repeat constructor|]. split.
  { cbn. split; [repeat constructor|]. split; [lia|constructor]. }
  split; [exact room_conforms|]. vm_compute. repeat split.
Qed.
