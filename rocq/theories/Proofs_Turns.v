(** * Room for commands, and a host that waits its turn (proofs). *)
From Coq Require Import Lia.
From Verif Require Import Base Model_Types Model_Intervals Model_EventBase Model_Command Model_Event Model_Host
  Spec_Wire Spec_Errors Spec_Report Spec_Host Spec_Link Spec_Split Spec_Conform Spec_Follow Spec_Credit Spec_Facts Spec_Data Spec_Window Spec_Turns
  Proofs_Base Proofs_Event Proofs_Report Proofs_Panic Proofs_Complete Proofs_Command Proofs_Link Proofs_Conform Proofs_Sent Proofs_Streams Proofs_Air Proofs_Follow Proofs_Credit
  Proofs_Facts Proofs_Data Proofs_Window.
Open Scope list_scope.
Open Scope N_scope.

(** ** Answers *)
Definition reply_packet (pkt : list N) : bool :=
  ((at_ pkt 0 =? 0x0E) && negb (u16_le pkt 3 =? 0)) || ((at_ pkt 0 =? 0x0F) && negb (u16_le pkt 4 =? 0)).
Lemma reply_is w : is_reply w = ((fst w =? 0x04) && reply_packet (snd w))%bool.
Proof. reflexivity. Qed.

Section Steps.
Context (F : features) (V : vendor).
Lemma reply_ok pkt ev : bytes pkt -> event_new F V pkt = Ok ev -> answers_command ev = reply_packet pkt.
Proof.
  intros Hb H. destruct ev;
    try (destruct (event_of_code F V _ _ H) as (p & -> & Hp); cbn [event_code event_subcode] in *; reflexivity).
  - destruct e as [k r]. apply (command_complete_dispatch_iff F V pkt k r Hb) in H.
    destruct H as (op & ret & Hop & -> & D). unfold reply_packet, u16_le, at_. rewrite le_2.
    cbn [app nth Nat.add]. rewrite word_back by exact Hop. change (0x0E =? 0x0E) with true. change (0x0E =? 0x0F) with false.
    cbn [andb]. rewrite orb_false_r. cbn [answers_command cc_return_params].
    destruct D as [W|(v & Ho & _ & ->)].
    + destruct r; cbn [wire_return] in W; try contradiction; try (subst op; reflexivity);
        repeat match goal with W : _ /\ _ |- _ => destruct W as [? W] end; try (subst op; reflexivity).
    + destruct (N.eqb_spec op 0) as [->|]; [discriminate Ho|reflexivity].
  - destruct e as [st k o]. apply (command_status_packet F V pkt st k o Hb) in H.
    destruct H as (sb & _ & Ho & ->). unfold reply_packet, u16_le, at_. rewrite le_2.
    cbn [app nth Nat.add]. rewrite word_back by exact Ho. reflexivity.
Qed.
Lemma reply_refused pkt : conforming_packet F pkt -> (forall ev, event_new F V pkt <> Ok ev) ->
  reserved_address_commands pkt = false -> reply_packet pkt = false.
Proof.
  intros (code & p & -> & Hc) No R. destruct (reply_packet (framed code p)) eqn:A; [|reflexivity]. exfalso.
  destruct (proj2 (conforming_exactly F V code p Hc)) as [ev E]; [|exact (No ev E)].
  intros H. destruct H as [| | | | | |k sb m Hm]; try discriminate A.
  unfold reserved_address_commands, framed, u16_le, at_ in R. rewrite le_2 in R.
  cbn [app nth skipn Nat.add] in R. rewrite Hm in R. vm_compute in R. discriminate R.
Qed.
Definition answers_in (evs : list (event V)) : N := N.of_nat (length (filter answers_command evs)).
Definition replies_in (ps : list (list N)) : N := N.of_nat (length (filter reply_packet ps)).
Lemma answers_in_app a b : answers_in (a ++ b) = answers_in a + answers_in b.
Proof. unfold answers_in. rewrite filter_app, app_length. lia. Qed.
Lemma replies_in_app a b : replies_in (a ++ b) = replies_in a + replies_in b.
Proof. unfold replies_in. rewrite filter_app, app_length. lia. Qed.
Lemma answers_one p : conforming_packet F p ->
  answers_in (one F V p) <= replies_in [p]
  /\ (reserved_address_commands p = false -> answers_in (one F V p) = replies_in [p]).
Proof.
  intros Hp. unfold one, answers_in, replies_in. cbn [filter].
  destruct (event_new F V p) as [ev|e|] eqn:En; cbn [filter].
  - rewrite (reply_ok p ev (packet_bytes F p Hp) En). destruct (reply_packet p); cbn; split; try lia; reflexivity.
  - cbn [length]. split; [lia|]. intros R. rewrite reply_refused; [reflexivity|exact Hp|congruence|exact R].
  - cbn [length]. split; [lia|]. intros R. rewrite reply_refused; [reflexivity|exact Hp|congruence|exact R].
Qed.
Lemma answers_all ps : Forall (conforming_packet F) ps ->
  answers_in (flat_map (one F V) ps) <= replies_in ps
  /\ (Forall (fun p => reserved_address_commands p = false) ps -> answers_in (flat_map (one F V) ps) = replies_in ps).
Proof.
  induction 1 as [|p ps Hp _ [I1 I2]]; [split; reflexivity|]. cbn [flat_map]. rewrite answers_in_app.
  change (p :: ps) with ([p] ++ ps). rewrite replies_in_app. destruct (answers_one p Hp) as [A1 A2].
  split; [lia|]. intros R. inversion R; subst. rewrite A2, I2 by assumption. reflexivity.
Qed.
(** The part of what was read before. *)
Lemma read_before ps : forall a b, flat_map (one F V) ps = a ++ b ->
  exists ps1 ps2, ps = ps1 ++ ps2 /\ a = flat_map (one F V) ps1.
Proof.
  induction ps as [|p ps IH]; intros a b H; cbn [flat_map] in H.
  - exists [], []. symmetry in H. apply app_eq_nil in H. now destruct H as [-> _].
  - destruct a as [|x a]; [now exists [], (p :: ps)|].
    unfold one in H at 1. destruct (event_new F V p) as [ev|e|] eqn:En; cbn [app] in H.
    + injection H as -> H. destruct (IH a b H) as (ps1 & ps2 & -> & ->). exists (p :: ps1), ps2.
      split; [reflexivity|]. cbn [flat_map]. unfold one at 2. now rewrite En.
    + destruct (IH (x :: a) b H) as (ps1 & ps2 & -> & E). exists (p :: ps1), ps2. split; [reflexivity|].
      cbn [flat_map]. unfold one at 1. now rewrite En.
    + destruct (IH (x :: a) b H) as (ps1 & ps2 & -> & E). exists (p :: ps1), ps2. split; [reflexivity|].
      cbn [flat_map]. unfold one at 1. now rewrite En.
Qed.

(** ** The controller *)
Lemma how_many_app p a b : how_many p (a ++ b) = how_many p a + how_many p b.
Proof. unfold how_many. rewrite filter_app, app_length. lia. Qed.
Lemma how_many_replies ws : how_many is_reply ws = replies_in (events_in ws).
Proof.
  unfold how_many, replies_in, events_in. induction ws as [|w ws IH]; [reflexivity|]. cbn [filter].
  rewrite reply_is. destruct (fst w =? 0x04); cbn [andb map filter]; [|exact IH].
  destruct (reply_packet (snd w)); cbn [length]; lia.
Qed.
Lemma fair_before d e : fair F (d ++ e) -> fair F d.
Proof.
  intros [H1 H2]. split.
  - rewrite taken_app in H1. apply Forall_app in H1. apply H1.
  - intros before w after ->. apply (H2 before w (after ++ e)). now rewrite <- app_assoc.
Qed.
Lemma allowed_step d x : allowed (d ++ [x]) = allows (allowed d) x.
Proof. unfold allowed. now rewrite fold_left_app. Qed.
Lemma fair_packets d : fair F d ->
  Forall incoming_packet (sent_by d) /\ Forall (conforming_packet F) (events_in (sent_by d)).
Proof.
  intros [_ H].
  assert (K : forall w, In w (sent_by d) -> incoming_packet w /\ (fst w = 0x04 -> conforming_packet F (snd w))).
  { intros w I. unfold sent_by in I. apply in_flat_map in I. destruct I as (x & Ix & I).
    apply in_split in Ix. destruct Ix as (before & after & ->). destruct x as [v|v]; [contradiction|].
    destruct I as [<-|[]]. destruct (H before v after eq_refl) as (H1 & H2 & _). now split. }
  split; [apply Forall_forall; intros w I; now apply K|].
  apply Forall_forall. intros p I. unfold events_in in I. apply in_map_iff in I. destruct I as (w & <- & I).
  apply filter_In in I. destruct I as [I Ht]. apply N.eqb_eq in Ht. now apply K.
Qed.
Lemma replies_bound d : fair F d -> how_many is_reply (sent_by d) <= how_many is_command (taken d).
Proof.
  induction d as [|x d IH] using rev_ind; intros H; [reflexivity|].
  specialize (IH (fair_before _ _ H)). rewrite taken_app, sent_by_app, !how_many_app.
  destruct x as [w|w]; cbn [taken sent_by flat_map app].
  - change (how_many is_reply []) with 0. lia.
  - change (how_many is_command []) with 0. destruct H as [_ H]. destruct (H d w [] eq_refl) as (_ & _ & H' & _).
    unfold how_many at 2. cbn [filter]. destruct (is_reply w); [|cbn; lia]. specialize (H' eq_refl). cbn. lia.
Qed.
(** What is given is not lost, but for what is taken. *)
Lemma allowed_later d e : fair F (d ++ e) ->
  allowed d + how_many is_command (taken d) <= allowed (d ++ e) + how_many is_command (taken (d ++ e)).
Proof.
  induction e as [|x e IH] using rev_ind; intros H; [rewrite app_nil_r; lia|].
  rewrite app_assoc in H |- *. specialize (IH (fair_before _ _ H)).
  rewrite taken_app, how_many_app. destruct x as [w|w]; cbn [taken flat_map app].
  - rewrite allowed_step. cbn [allows]. unfold how_many at 3. cbn [filter]. destruct (is_command w); cbn; lia.
  - change (how_many is_command []) with 0. destruct H as [_ H].
    destruct (H (d ++ e) w [] eq_refl) as (_ & _ & _ & H'). lia.
Qed.
(** The last number in what a host has read, at the moment it was sent. *)
Lemma allowed_read d : fair F d ->
  fold_left known_room (flat_map (one F V) (events_in (sent_by d))) 1 + answers_in (flat_map (one F V) (events_in (sent_by d)))
  <= allowed d + how_many is_command (taken d).
Proof.
  induction d as [|x d IH] using rev_ind; intros H; [vm_compute; discriminate|].
  pose proof (allowed_later d [x] H) as L. pose proof (replies_bound _ H) as RB.
  specialize (IH (fair_before _ _ H)).
  destruct x as [w|w].
  - rewrite sent_by_app in *. cbn [sent_by flat_map] in *. rewrite app_nil_r in *. lia.
  - destruct (fair_packets _ H) as [_ P]. rewrite sent_by_app in *. rewrite events_in_app in *. cbn [sent_by flat_map app] in *.
    unfold events_in in P at 2. unfold events_in at 2 4. cbn [filter] in *.
    destruct (N.eqb_spec (fst w) 0x04) as [Ht|Ht]; cbn [map] in *.
    2:{ rewrite app_nil_r. lia. }
    rewrite flat_map_app, fold_left_app, answers_in_app. apply Forall_app in P. destruct P as [P1 P2].
    inversion P2 as [|? ? Pw _]; subst. cbn [flat_map]. rewrite app_nil_r.
    pose proof (answers_one _ Pw) as [A1 _]. pose proof (answers_all _ P1) as [A2 _].
    rewrite how_many_app, how_many_replies in RB. rewrite how_many_replies in RB. unfold events_in in RB at 2.
    cbn [filter] in RB. rewrite (proj2 (N.eqb_eq _ _) Ht) in RB. cbn [map] in RB.
    rewrite allowed_step in *. cbn [allows] in *. rewrite (proj2 (N.eqb_eq _ _) Ht) in *.
    rewrite taken_app in *. cbn [taken flat_map] in *. rewrite app_nil_r in *.
    unfold one in *. destruct (event_new F V (snd w)) as [ev|e|] eqn:En; cbn [fold_left] in *.
    2,3: change (answers_in []) with 0; lia.
    rewrite (room_ok F V (snd w) ev _ (packet_bytes F _ Pw) En).
    destruct (at_ (snd w) 0 =? 0x0E) eqn:E1; [|destruct (at_ (snd w) 0 =? 0x0F) eqn:E2].
    + unfold room in *. rewrite E1 in *. lia.
    + unfold room in *. rewrite E1, E2 in *. lia.
    + assert (Z : answers_in [ev] = 0).
      { unfold answers_in. cbn [filter]. rewrite (reply_ok _ ev (packet_bytes F _ Pw) En).
        unfold reply_packet. rewrite E1, E2. reflexivity. }
      unfold room in *. rewrite E1, E2 in *. lia.
Qed.
Lemma sent_until d : forall ps more, events_in (sent_by d) = ps ++ more ->
  exists d1 d2, d = d1 ++ d2 /\ events_in (sent_by d1) = ps.
Proof.
  induction d as [|x d IH]; intros ps more H.
  - symmetry in H. apply app_eq_nil in H. destruct H as [-> _]. now exists [], [].
  - change (x :: d) with ([x] ++ d) in H. rewrite sent_by_app, events_in_app in H.
    destruct ps as [|p ps]; [now exists [], (x :: d)|].
    destruct (events_in (sent_by [x])) as [|q l] eqn:Ex.
    + destruct (IH _ _ H) as (d1 & d2 & -> & E). exists (x :: d1), d2. split; [reflexivity|].
      change (x :: d1) with ([x] ++ d1). now rewrite sent_by_app, events_in_app, Ex.
    + assert (l = []) as ->.
      { destruct x as [w|w]; cbn [sent_by flat_map app] in Ex; [discriminate|].
        unfold events_in in Ex. cbn [filter] in Ex. destruct (fst w =? 4); [|discriminate]. now injection Ex. }
      injection H as -> H. destruct (IH _ _ H) as (d1 & d2 & -> & E). exists (x :: d1), d2. split; [reflexivity|].
      change (x :: d1) with ([x] ++ d1). rewrite sent_by_app, events_in_app, Ex, E. reflexivity.
Qed.
(** When all commands are answered, the last number is what is allowed. *)
Lemma allowed_exact d : fair F d -> how_many is_reply (sent_by d) = how_many is_command (taken d) ->
  allowed d = fold_left room (events_in (sent_by d)) 1.
Proof.
  induction d as [|x d IH] using rev_ind; intros H Q; [reflexivity|].
  pose proof (replies_bound _ (fair_before _ _ H)) as RB. specialize (IH (fair_before _ _ H)).
  rewrite allowed_step. rewrite sent_by_app, taken_app, !how_many_app in *. rewrite events_in_app, fold_left_app.
  destruct x as [w|w]; cbn [taken sent_by flat_map app allows] in *.
  - change (how_many is_reply []) with 0 in Q. unfold how_many in Q at 3. cbn [filter] in Q. destruct (is_command w).
    + cbn [length] in Q. lia.
    + cbn [length] in Q. apply IH. lia.
  - change (how_many is_command []) with 0 in Q. unfold how_many in Q at 2. cbn [filter] in Q.
    unfold events_in at 1. cbn [filter]. destruct (fst w =? 4) eqn:Ht; cbn [map fold_left].
    + destruct (at_ (snd w) 0 =? 0x0E) eqn:E1; [unfold room; now rewrite E1|].
      destruct (at_ (snd w) 0 =? 0x0F) eqn:E2; [unfold room; now rewrite E1, E2|].
      assert (R : forall n, room n (snd w) = n) by (intros n; unfold room; now rewrite E1, E2). rewrite !R. apply IH.
      rewrite reply_is in Q. unfold reply_packet in Q. rewrite E1, E2 in Q. cbn [andb orb] in Q. rewrite andb_false_r in Q.
      cbn [length] in Q. lia.
    + apply IH. rewrite reply_is, Ht in Q. cbn [andb length] in Q. lia.
Qed.

(** ** The host *)
Context {St E : Type} (C : controller St E) (h : history St) (HC : contract C h).

Lemma put_out_at log : forall ws (w : N * list N) more, put_out V log = ws ++ w :: more ->
  exists l1 x l2, log = l1 ++ x :: l2 /\ put_out V (E := E) l1 = ws /\ put_out V [x] = [w].
Proof.
  induction log as [|x log IH]; intros ws w more H; [now destruct ws|].
  change (x :: log) with ([x] ++ log) in H. unfold put_out in H. rewrite flat_map_app in H.
  change (put_out V [x] ++ put_out V log = ws ++ w :: more) in H.
  assert (O : put_out V (E := E) [x] = [] \/ exists v, put_out V (E := E) [x] = [v]).
  { unfold put_out. cbn [flat_map]. rewrite app_nil_r.
    destruct x as [[c|v|] [r|[u|e|]|a]]; try (now left); [|right; now exists v].
    destruct (succeeded r); [right; now eexists|now left]. }
  destruct O as [O|[v O]]; rewrite O in H; cbn [app] in H.
  - destruct (IH _ _ _ H) as (l1 & y & l2 & -> & P & Q). exists (x :: l1), y, l2. split; [reflexivity|]. split; [|exact Q].
    change (x :: l1) with ([x] ++ l1). unfold put_out. rewrite flat_map_app. fold (put_out V (E := E) [x]).
    fold (put_out V (E := E) l1). now rewrite O, P.
  - destruct ws as [|v' ws]; cbn [app] in H.
    + injection H as -> H. now exists [], x, log.
    + injection H as -> H. destruct (IH _ _ _ H) as (l1 & y & l2 & -> & P & Q). exists (x :: l1), y, l2.
      split; [reflexivity|]. split; [|exact Q].
      change (x :: l1) with ([x] ++ l1). unfold put_out. rewrite flat_map_app. fold (put_out V (E := E) [x]).
      fold (put_out V (E := E) l1). now rewrite O, P.
Qed.

Lemma both_streams os s d : Forall (typed_data_operation F V) os -> possible h s ->
  Forall outgoing_packet (taken d) -> Forall incoming_packet (sent_by d) ->
  let (s', log) := data_session F V C os s in
  (exists rest, written h s' = written h s ++ flat_map wire_bytes (taken d) ++ rest) ->
  (exists rest, flat_map wire_bytes (sent_by d) = pending h s s' ++ rest) ->
  map fst log = os
  /\ (exists more, put_out V log = taken d ++ more)
  /\ exists ps more, events_in (sent_by d) = ps ++ more /\ events_got log = flat_map (one F V) ps
     /\ (written h s' = written h s ++ flat_map wire_bytes (taken d) -> put_out V log = taken d)
     /\ (consumed h s' = (consumed h s + length (flat_map wire_bytes (sent_by d)))%nat -> more = []).
Proof.
  intros Ho Hs T1 D1. pose proof (data_session_spec F V C h HC os s Ho Hs) as K.
  destruct (data_session F V C os s) as [s' log].
  destruct K as (Hos & (out & W & P) & ws & Hws & _ & (rest & Hp) & Hc & G).
  intros (r1 & W1) (r2 & W2). split; [exact Hos|].
  rewrite W in W1. apply app_inv_head in W1. subst out.
  assert (T : Forall self_delimiting (taken d)).
  { eapply Forall_impl; [|exact T1]. intros w. apply outgoing_delimited. }
  split; [exact (parse_start _ T _ _ _ P)|].
  rewrite Hp, <- app_assoc in W2.
  destruct (stream_start ws) with (vs := sent_by d) (rest := rest ++ r2) as (m & M & R).
  { eapply Forall_impl; [|exact Hws]. intros w. apply incoming_delimited. }
  { eapply Forall_impl; [|exact D1]. intros w. apply incoming_delimited. }
  { exact W2. }
  exists (events_in ws), (events_in m). rewrite M. split; [apply events_in_app|].
  split; [unfold events_got; rewrite G; apply events_are|]. split.
  - intros W'. rewrite W' in W. apply app_inv_head in W.
    assert (r1 = []) as ->.
    { apply (f_equal (@length N)) in W. rewrite app_length in W. destruct r1; [reflexivity|cbn in W; lia]. }
    rewrite app_nil_r in P. rewrite (parse_all _ T) in P. now injection P.
  - intros Hc'. rewrite flat_map_app, app_length in Hc'. rewrite (no_bytes m); [reflexivity|]. lia.
Qed.

Lemma never_early os s d w : Forall (typed_data_operation F V) os -> possible h s -> fair F (d ++ [Takes w]) ->
  is_command w = true ->
  let (s', log) := data_session F V C os s in
  patient log ->
  (exists rest, written h s' = written h s ++ flat_map wire_bytes (taken (d ++ [Takes w])) ++ rest) ->
  (exists rest, flat_map wire_bytes (sent_by d) = pending h s s' ++ rest) ->
  0 < allowed d.
Proof.
  intros Ho Hs Hd Hw. pose proof (both_streams os s _ Ho Hs (proj1 Hd) (proj1 (fair_packets _ Hd))) as K.
  destruct (data_session F V C os s) as [s' log]. intros Hpat W R.
  rewrite sent_by_app in K. cbn [sent_by flat_map] in K. rewrite app_nil_r in K.
  destruct (K W R) as (Hos & (more & P) & ps & later & Hps & Hev & _). clear K.
  rewrite taken_app, <- app_assoc in P. cbn [taken flat_map app] in P.
  destruct (put_out_at log _ _ _ P) as (l1 & x & l2 & -> & P1 & P2).
  assert (X : exists c r, x = (Order c, r)).
  { destruct x as [[c|v|] r]; [now exists c, r| |].
    - exfalso. rewrite map_app in Hos. cbn [map fst] in Hos. rewrite <- Hos in Ho. apply Forall_app in Ho.
      destruct Ho as [_ Ho]. inversion Ho as [|? ? Hv _]; subst. cbn [typed_data_operation] in Hv.
      unfold put_out in P2. cbn [flat_map] in P2. destruct r as [r|[u|e|]|a]; try discriminate P2.
      injection P2 as ->. unfold is_command in Hw. apply N.eqb_eq in Hw.
      destruct Hv as (a & b & data & _ & _ & _ & [[-> _]|[-> _]]); discriminate Hw.
    - unfold put_out in P2. cbn [flat_map] in P2. destruct r; discriminate P2. }
  destruct X as (c & r & ->). specialize (Hpat l1 c r l2 eq_refl).
  rewrite events_got_app in Hev. symmetry in Hev. destruct (read_before ps _ _ Hev) as (ps1 & ps2 & -> & E1).
  rewrite <- app_assoc in Hps. destruct (sent_until d _ _ Hps) as (d1 & d2 & -> & E2).
  pose proof (fair_before _ _ Hd) as Hd'.
  pose proof (allowed_read d1 (fair_before _ _ Hd')) as A1. rewrite E2, <- E1 in A1.
  pose proof (allowed_later d1 d2 Hd') as A2.
  unfold commands_sent, answers_read, last_number in Hpat. rewrite P1 in Hpat.
  unfold answers_in in A1. lia.
Qed.

Lemma turn_known os s d : Forall (typed_data_operation F V) os -> possible h s -> fair F d ->
  Forall (fun w => reserved_address_commands (snd w) = false) (sent_by d) ->
  let (s', log) := data_session F V C os s in
  written h s' = written h s ++ flat_map wire_bytes (taken d) ->
  pending h s s' = flat_map wire_bytes (sent_by d) ->
  consumed h s' = (consumed h s + length (flat_map wire_bytes (sent_by d)))%nat ->
  commands_sent log - answers_read log = how_many is_command (taken d) - how_many is_reply (sent_by d)
  /\ (how_many is_reply (sent_by d) = how_many is_command (taken d) -> last_number log = allowed d).
Proof.
  intros Ho Hs Hd Hr. pose proof (both_streams os s d Ho Hs (proj1 Hd) (proj1 (fair_packets _ Hd))) as K. destruct (data_session F V C os s) as [s' log].
  intros W R Hcon. destruct K as (_ & _ & ps & later & Hps & Hev & P & M).
  { exists []. now rewrite app_nil_r. }
  { exists []. now rewrite app_nil_r, R. }
  specialize (P W). specialize (M Hcon). subst later. rewrite app_nil_r in Hps.
  destruct (fair_packets d Hd) as [_ D]. rewrite Hps in D.
  assert (Q : Forall (fun p => reserved_address_commands p = false) ps).
  { rewrite <- Hps. unfold events_in. apply Forall_forall. intros p I. apply in_map_iff in I. destruct I as (w & <- & I).
    apply filter_In in I. exact (proj1 (Forall_forall _ _) Hr w (proj1 I)). }
  unfold commands_sent, answers_read, last_number. rewrite P, Hev. fold (answers_in (flat_map (one F V) ps)).
  rewrite (proj2 (answers_all ps D) Q). rewrite how_many_replies, Hps. split; [reflexivity|].
  intros A. rewrite (room_steps F V ps D).
  rewrite (allowed_exact d Hd) by (now rewrite how_many_replies, Hps). rewrite Hps. f_equal.
  clear - Q. induction Q as [|p ps Hp _ IH]; [reflexivity|]. cbn [filter]. rewrite Hp. cbn [negb]. now rewrite IH.
Qed.
End Steps.

(** For given histories. *)
Ltac places :=
  repeat match goal with
         | H : _ = ?l ++ _ :: _ |- _ =>
             let x := fresh "x" in let K := fresh "K" in
             destruct l as [|x l]; [injection H as K _; try discriminate K|injection H as <- H]
         | H : [] = ?l ++ _ |- _ => now destruct l
         | H : [] = _ :: _ |- _ => discriminate H
         end.
