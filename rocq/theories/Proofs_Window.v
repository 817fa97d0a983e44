(** * Data buffers of a controller, and a host that counts (proofs). *)
From Coq Require Import Lia.
From Verif Require Import Base Model_Types Model_Intervals Model_EventBase Model_Command Model_Event Model_Host
  Spec_Wire Spec_Errors Spec_Host Spec_Link Spec_Split Spec_Conform Spec_Follow Spec_Credit Spec_Facts Spec_Data Spec_Window
  Proofs_Base Proofs_Link Proofs_Conform Proofs_Follow Proofs_Report Proofs_Credit Proofs_Facts Proofs_Data.
Open Scope list_scope.
Open Scope N_scope.

(** ** Counting *)
Lemma cons_count c x l : packets_of c (x :: l) = ((if N.eqb x c then 1 else 0) + packets_of c l)%nat.
Proof.
  unfold packets_of. cbn [count_occ]. destruct (N.eq_dec x c) as [->|H].
  - now rewrite N.eqb_refl.
  - now rewrite (proj2 (N.eqb_neq x c) H).
Qed.
Lemma without_count c x l : forall n,
  packets_of c (without n x l) = if x =? c then (packets_of c l - n)%nat else packets_of c l.
Proof.
  induction l as [|y l IH]; intros n; cbn [without].
  - destruct (x =? c); reflexivity.
  - destruct (N.eqb_spec y x) as [->|Hy].
    + destruct n as [|n].
      * destruct (x =? c); [now rewrite Nat.sub_0_r|reflexivity].
      * rewrite IH, cons_count. destruct (x =? c); [cbn; reflexivity|reflexivity].
    + rewrite !cons_count, IH. destruct (N.eqb_spec x c) as [->|Hx]; [|reflexivity].
      rewrite (proj2 (N.eqb_neq y c) Hy). reflexivity.
Qed.
Lemma without_all_count c x l :
  packets_of c (without_all x l) = if x =? c then 0%nat else packets_of c l.
Proof.
  induction l as [|y l IH]; [now destruct (x =? c)|]. unfold without_all in *. cbn [filter].
  destruct (N.eqb_spec y x) as [->|Hy]; cbn [negb].
  - rewrite IH, cons_count. destruct (x =? c); reflexivity.
  - rewrite !cons_count, IH. destruct (N.eqb_spec x c) as [->|Hx]; [|reflexivity].
    rewrite (proj2 (N.eqb_neq y c) Hy). reflexivity.
Qed.
Lemma count_split c a b : packets_of c (a ++ b) = (packets_of c a + packets_of c b)%nat.
Proof. unfold packets_of. apply count_occ_app. Qed.
Lemma length_counts a : forall b, (forall c, (packets_of c a <= packets_of c b)%nat) -> (length a <= length b)%nat.
Proof.
  induction a as [|x a IH]; intros b H; [cbn; lia|].
  assert (I : In x b).
  { apply (count_occ_In N.eq_dec). pose proof (H x) as K. rewrite cons_count, N.eqb_refl in K.
    unfold packets_of in K. lia. }
  apply in_split in I. destruct I as (b1 & b2 & ->).
  assert (L : (length a <= length (b1 ++ b2))%nat).
  { apply IH. intros c. pose proof (H c) as K. rewrite cons_count, count_split, cons_count in K.
    rewrite count_split. destruct (x =? c); lia. }
  rewrite app_length in *. cbn [length]. lia.
Qed.
Definition all_of (c : N) (qs : list (N * N)) : N := total (map (fun q => if fst q =? c then snd q else 0) qs).
Lemma removals c qs : forall l,
  packets_of c (fold_left (fun l q => without (N.to_nat (snd q)) (fst q) l) qs l)
  = (packets_of c l - N.to_nat (all_of c qs))%nat.
Proof.
  induction qs as [|q qs IH]; intros l; cbn [fold_left].
  - unfold all_of. cbn. lia.
  - rewrite IH, without_count. unfold all_of. cbn [map total fold_right]. fold (total (map (fun q => if fst q =? c then snd q else 0) qs)).
    destruct (fst q =? c); lia.
Qed.
Lemma freed_all c n : forall p, freed c n p = all_of c (pairs_from n p).
Proof.
  induction n as [|n IH]; intros p; [reflexivity|]. cbn [freed pairs_from]. rewrite IH. reflexivity.
Qed.
Lemma completed_all c pkt : completed c pkt = all_of c (pairs_in pkt).
Proof. unfold completed, pairs_in. destruct (at_ pkt 0 =? 0x13); [apply freed_all|reflexivity]. Qed.

(** ** Packets in a stream *)
Lemma outgoing_delimited w : outgoing_packet w -> self_delimiting w.
Proof.
  intros [H|(a & b & params & -> & L)]; [now apply data_delimited|]. intros m. cbn [fst snd app body_length length].
  change (1 =? 4) with false. change ((1 =? 1) || (1 =? 3))%bool with true. cbv iota. f_equal. lia.
Qed.
Lemma one_start (w v : N * list N) x y : self_delimiting w -> self_delimiting v ->
  wire_bytes w ++ x = wire_bytes v ++ y -> w = v /\ x = y.
Proof.
  intros Hw Hv H. destruct w as [t b], v as [u c]. unfold wire_bytes in H. cbn [fst snd app] in H.
  injection H as <- H. pose proof (Hw x) as Kw. pose proof (Hv y) as Kv. cbn [fst snd] in *.
  rewrite H in Kw. rewrite Kw in Kv. injection Kv as L.
  assert (B : b = c).
  { apply (f_equal (firstn (length b))) in H. rewrite firstn_app, firstn_all, Nat.sub_diag in H.
    rewrite L, firstn_app, firstn_all, Nat.sub_diag in H. cbn [firstn] in H. now rewrite !app_nil_r in H. }
  subst c. apply app_inv_head in H. auto.
Qed.
Lemma stream_start ws : Forall self_delimiting ws -> forall vs rest, Forall self_delimiting vs ->
  flat_map wire_bytes vs = flat_map wire_bytes ws ++ rest ->
  exists more, vs = ws ++ more /\ rest = flat_map wire_bytes more.
Proof.
  induction 1 as [|w ws Hw _ IH]; intros vs rest Hvs H; cbn [flat_map app] in *.
  - exists vs. now rewrite H.
  - destruct Hvs as [|v vs Hv Hvs]; [destruct w; discriminate|]. cbn [flat_map] in H.
    rewrite <- app_assoc in H. destruct (one_start v w _ _ Hv Hw H) as [-> H'].
    destruct (IH vs rest Hvs H') as (more & -> & ->). now exists more.
Qed.

(** ** The controller *)
Definition events_in (ws : list (N * list N)) : list (list N) := map snd (filter (fun w => fst w =? 0x04) ws).
Definition says_gone (c : N) (pkt : list N) : bool :=
  (at_ pkt 0 =? 0x05) && (at_ pkt 2 =? 0x00) && (u16_le pkt 3 =? c).
Lemma events_in_app a b : events_in (a ++ b) = events_in a ++ events_in b.
Proof. unfold events_in. now rewrite filter_app, map_app. Qed.
Lemma taken_app a b : taken (a ++ b) = taken a ++ taken b.
Proof. apply flat_map_app. Qed.
Lemma sent_by_app a b : sent_by (a ++ b) = sent_by a ++ sent_by b.
Proof. apply flat_map_app. Qed.
Lemma total_app a b : total (a ++ b) = total a + total b.
Proof.
  unfold total. induction a as [|x a IH]; [reflexivity|]. cbn [app fold_right]. rewrite IH. lia.
Qed.
Definition handles_in (ws : list (N * list N)) : list N := map handle_of (filter is_data ws).
Lemma handles_in_app a b : handles_in (a ++ b) = handles_in a ++ handles_in b.
Proof. unfold handles_in. now rewrite filter_app, map_app. Qed.

Section Device.
Context (F : features) (size number : N).

Lemma honest_before d x : honest F size number (d ++ [x]) -> honest F size number d.
Proof.
  intros [H1 H2]. split.
  - rewrite taken_app in H1. apply Forall_app in H1. apply H1.
  - intros before w after ->. apply (H2 before w (after ++ [x])). now rewrite <- app_assoc.
Qed.

Lemma not_both pkt : at_ pkt 0 = 0x05 -> pairs_in pkt = [].
Proof. intros H. unfold pairs_in. now rewrite H. Qed.

Lemma device_counts d : honest F size number d -> forall c,
  (existsb (N.eqb c) (ended (memory_after d)) = existsb (says_gone c) (events_in (sent_by d)))
  /\ (existsb (N.eqb c) (ended (memory_after d)) = true -> packets_of c (held (memory_after d)) = 0%nat)
  /\ (existsb (N.eqb c) (ended (memory_after d)) = false ->
      (packets_of c (held (memory_after d)) + N.to_nat (total (map (completed c) (events_in (sent_by d))))
       = packets_of c (handles_in (taken d)))%nat).
Proof.
  induction d as [|x d IH] using rev_ind; intros H c.
  - cbn. repeat split.
  - specialize (IH (honest_before _ _ H) c). destruct IH as (I1 & I2 & I3).
    unfold memory_after in *. rewrite fold_left_app. cbn [fold_left].
    set (m := fold_left happens d _) in *. rewrite taken_app, sent_by_app, events_in_app, handles_in_app.
    rewrite existsb_app, map_app, total_app, count_split.
    destruct x as [w|w]; cbn [happens taken sent_by flat_map app].
    + cbn [events_in filter map existsb total fold_right]. rewrite orb_false_r, N.add_0_r.
      unfold handles_in at 2. cbn [filter]. destruct (is_data w); cbn [andb map].
      * destruct (existsb (N.eqb (handle_of w)) (ended m)) eqn:Ew; cbn [negb held ended].
        { split; [exact I1|]. split; [exact I2|]. intros Hc. rewrite I3 by exact Hc.
          rewrite cons_count. destruct (N.eqb_spec (handle_of w) c) as [<-|]; [congruence|].
          unfold packets_of at 3. cbn. lia. }
        { split; [exact I1|]. split.
          - intros Hc. rewrite cons_count, I2 by exact Hc.
            destruct (N.eqb_spec (handle_of w) c) as [<-|]; [congruence|reflexivity].
          - intros Hc. specialize (I3 Hc). rewrite !cons_count. unfold packets_of at 3. cbn [count_occ]. lia. }
      * cbn [packets_of count_occ]. rewrite Nat.add_0_r. auto.
    + unfold handles_in at 2. cbn [filter map]. unfold packets_of at 3. cbn [count_occ]. rewrite Nat.add_0_r.
      unfold events_in at 2 4. cbn [filter]. destruct (N.eqb_spec (fst w) 0x04) as [Ht|Ht]; cbn [map existsb total fold_right].
      2:{ rewrite orb_false_r, N.add_0_r. auto. }
      rewrite orb_false_r, N.add_0_r.
      destruct H as [_ H]. destruct (H d w [] eq_refl) as [_ H']. destruct (H' Ht) as (_ & Hn & _).
      specialize (Hn c). change (memory_after d) with m in Hn. pose proof (completed_all c (snd w)) as Ca. rewrite Ca in *.
      unfold says_gone at 2. destruct (N.eqb_spec (at_ (snd w) 0) 0x05) as [H5|H5]; cbn [andb].
      * rewrite (not_both _ H5) in *. cbn [fold_left]. change (all_of c []) with 0 in *.
        destruct (at_ (snd w) 2 =? 0x00); cbn [andb held ended existsb].
        { rewrite (N.eqb_sym (u16_le (snd w) 3) c), I1. split; [apply orb_comm|]. rewrite without_all_count, <- I1.
          destruct (N.eqb_spec (u16_le (snd w) 3) c) as [->|Hc].
          - split; [reflexivity|]. rewrite N.eqb_refl. cbn [orb]. discriminate.
          - rewrite (proj2 (N.eqb_neq c _)) by congruence. cbn [orb]. split; [exact I2|].
            intros Hx. rewrite N.add_0_r. now apply I3. }
        { rewrite orb_false_r, N.add_0_r. auto. }
      * cbn [held ended]. rewrite orb_false_r. split; [exact I1|]. rewrite removals. split.
        { intros Hx. rewrite (I2 Hx). reflexivity. }
        { intros Hx. specialize (I3 Hx). unfold packets_of in *. lia. }
Qed.
End Device.

(** ** The host *)
Section Accounts.
Context {V : vendor} {E : Type}.
Implicit Types log : list (data_operation V * @data_report V E).

Lemma pairs_same ev l l' : @pairs_read V ev l -> pairs_read ev l' -> l = l'.
Proof.
  destruct ev; cbn [pairs_read]; try (intros -> ->; reflexivity). apply iterates_inj.
Qed.
Lemma all_pairs_same evs ls : Forall2 (@pairs_read V) evs ls -> forall ls', Forall2 pairs_read evs ls' -> ls = ls'.
Proof.
  induction 1 as [|ev l evs ls H _ IH]; intros ls' K; inversion K; subst; [reflexivity|].
  f_equal; [eapply pairs_same; eassumption|now apply IH].
Qed.
Definition pairs_total (c : N) (ps : list completed_packets_pair) : N :=
  total (map (fun p => if cpp_conn_handle p =? c then cpp_num_completed_packets p else 0) ps).
Definition is_gone (c : N) (f : fact) : bool := match f with ConnectionGone x => x =? c | _ => false end.
Lemma settled c ps : forall l,
  packets_of c (fold_left (fun o p => without (N.to_nat (cpp_num_completed_packets p)) (cpp_conn_handle p) o) ps l)
  = (packets_of c l - N.to_nat (pairs_total c ps))%nat.
Proof.
  induction ps as [|p ps IH]; intros l; cbn [fold_left].
  - unfold pairs_total. cbn. lia.
  - rewrite IH, without_count. unfold pairs_total. cbn [map total fold_right].
    fold (total (map (fun p => if cpp_conn_handle p =? c then cpp_num_completed_packets p else 0) ps)).
    destruct (cpp_conn_handle p =? c); lia.
Qed.
Lemma forgotten c fs : forall l,
  packets_of c (fold_left (fun o f => match f with ConnectionGone c => without_all c o | _ => o end) fs l)
  = if existsb (is_gone c) fs then 0%nat else packets_of c l.
Proof.
  induction fs as [|f fs IH]; intros l; cbn [fold_left existsb]; [reflexivity|].
  rewrite IH. destruct f; cbn [is_gone orb]; try reflexivity. rewrite without_all_count.
  destruct (h =? c); cbn [orb]; [now destruct (existsb _ fs)|reflexivity].
Qed.
Lemma outstanding_counts log out : outstanding log out ->
  exists ls, Forall2 pairs_read (events_got log) ls
  /\ forall c, packets_of c out
     = if existsb (is_gone c) (flat_map noted (events_got log)) then 0%nat
       else (packets_of c (data_sent log) - N.to_nat (pairs_total c (concat ls)))%nat.
Proof.
  intros (ls & H & ->). exists ls. split; [exact H|]. intros c. now rewrite forgotten, settled.
Qed.

Lemma events_got_app a b : events_got (a ++ b : list (data_operation V * @data_report V E)) = events_got a ++ events_got b.
Proof. unfold events_got, got. now rewrite !flat_map_app. Qed.
Lemma data_sent_app a b : data_sent (a ++ b : list (data_operation V * @data_report V E)) = data_sent a ++ data_sent b.
Proof. unfold data_sent, put_out. now rewrite flat_map_app, filter_app, map_app. Qed.
Lemma pairs_total_app c a b : pairs_total c (a ++ b) = pairs_total c a + pairs_total c b.
Proof. unfold pairs_total. now rewrite map_app, total_app. Qed.

(** The last data packet that was sent. *)
Lemma last_sent log : data_sent log = []
  \/ exists before w u after, log = before ++ (Transmit w, Transmitted (Ok u)) :: after
     /\ is_data w = true /\ data_sent after = [].
Proof.
  induction log as [|x log IH]; [now left|].
  change (x :: log) with ([x] ++ log). rewrite data_sent_app.
  destruct IH as [IH|(before & w & u & after & -> & Hw & Ha)].
  - rewrite IH, app_nil_r. unfold data_sent, put_out. cbn [flat_map]. rewrite app_nil_r.
    destruct x as [[c|w|] [r|[u|e|]|a]]; try (left; reflexivity).
    + destruct (succeeded r); left; reflexivity.
    + cbn [filter]. destruct (is_data w) eqn:D; [|now left]. right. exists [], w, u, log. auto.
  - right. exists (x :: before), w, u, after. auto.
Qed.

Lemma limits_are size number log a b :
  (forall x y, In (Buffers x y) (flat_map noted (events_got log)) -> x = size /\ y = number) ->
  limits log = Some (a, b) -> a = size /\ b = number.
Proof.
  unfold limits. generalize (flat_map noted (events_got log)) as fs. intros fs H.
  enough (K : forall o, (forall x y, o = Some (x, y) -> x = size /\ y = number) ->
    forall x y, fold_left (fun o f => match f with Buffers a b => Some (a, b) | _ => o end) fs o = Some (x, y) ->
    x = size /\ y = number) by (apply K; discriminate).
  induction fs as [|f fs IH]; intros o Ho x y; cbn [fold_left]; [apply Ho|].
  apply IH; [intros ? ? I; apply H; now right|].
  destruct f; try exact Ho. intros ? ? [= <- <-]. apply H. now left.
Qed.

(** A careful host has at most as many packets outstanding as there are buffers. *)
Lemma careful_outstanding size number log out :
  (forall x y, In (Buffers x y) (flat_map noted (events_got log)) -> x = size /\ y = number) ->
  careful log -> outstanding log out -> N.of_nat (length out) <= number.
Proof.
  intros HB HC HO. destruct (outstanding_counts _ _ HO) as (ls & H2 & Hc).
  destruct (last_sent log) as [L|(before & w & u & after & -> & Hw & Ha)].
  - assert (Z : (length out <= length (@nil N))%nat).
    { apply length_counts. intros c. rewrite Hc, L. cbn. now destruct (existsb _ _). }
    cbn in Z. lia.
  - destruct (HC before w _ after eq_refl Hw) as (out' & a & b & HO' & HL & Hn & _).
    assert (b = number) as ->.
    { apply (limits_are size number before a b); [|exact HL]. intros x y I. apply HB.
      rewrite events_got_app, flat_map_app. apply in_or_app. now left. }
    destruct (outstanding_counts _ _ HO') as (ls' & H2' & Hc').
    change ((Transmit w, Transmitted (Ok u)) :: after) with ([(@Transmit V w, @Transmitted V E (Ok u))] ++ after) in *.
    rewrite !events_got_app in H2. apply Forall2_app_inv_l in H2. destruct H2 as (l1 & l2 & G1 & _ & ->).
    pose proof (all_pairs_same _ _ G1 _ H2') as ->.
    assert (L : (length out <= length (handle_of w :: out'))%nat).
    { apply length_counts. intros c. rewrite cons_count, Hc, Hc'. rewrite !events_got_app, !data_sent_app, !flat_map_app, existsb_app.
      rewrite Ha, app_nil_r, count_split, concat_app, pairs_total_app.
      replace (data_sent [(Transmit w, Transmitted (Ok u))]) with [handle_of w]
        by (unfold data_sent, put_out; cbn [flat_map filter app]; now rewrite Hw).
      rewrite cons_count. change (packets_of c []) with 0%nat.
      destruct (existsb _ (flat_map noted (events_got before))); cbn [orb].
      - lia.
      - destruct (existsb _ _); destruct (handle_of w =? c); lia. }
    cbn [length] in L. lia.
Qed.

(** No packet larger than the buffers is sent. *)
Lemma careful_size size number log w :
  (forall x y, In (Buffers x y) (flat_map noted (events_got log)) -> x = size /\ y = number) ->
  careful log -> In w (put_out V log) -> is_data w = true -> data_size w <= size.
Proof.
  intros HB HC I Hw. unfold put_out in I. apply in_flat_map in I. destruct I as (x & Ix & I).
  apply in_split in Ix. destruct Ix as (before & after & ->).
  destruct x as [[c|v|] [r|[u|e|]|a]]; try contradiction.
  - destruct (succeeded r); [|contradiction]. destruct I as [<-|[]]. discriminate.
  - destruct I as [<-|[]]. destruct (HC before v _ after eq_refl Hw) as (out & a & b & _ & HL & _ & Hs).
    destruct (limits_are size number before a b) as [-> _]; [|exact HL|exact Hs].
    intros x y I. apply HB. rewrite events_got_app, flat_map_app. apply in_or_app. now left.
Qed.
End Accounts.

(** ** Both *)
Section Session.
Context (F : features) (V : vendor) {St E : Type} (C : controller St E) (h : history St) (HC : contract C h).

Lemma events_are ws :
  flat_map (fun a : @arrival V E => match a with Reported (Ok (PEvent ev)) => [ev] | _ => [] end) (map (arrives_as F V) ws)
  = flat_map (one F V) (events_in ws).
Proof.
  induction ws as [|w ws IH]; [reflexivity|]. cbn [map flat_map]. rewrite IH.
  change (w :: ws) with ([w] ++ ws). rewrite events_in_app, flat_map_app. f_equal.
  unfold arrives_as, events_in. cbn [filter]. destruct (fst w =? 4); [|reflexivity]. cbn [map flat_map].
  rewrite app_nil_r. unfold uart_result, one. now destruct (event_new F V (snd w)).
Qed.
Lemma pairs_counted c ev l : pairs_read ev l -> @counted V c ev (pairs_total c l).
Proof.
  destruct ev; cbn [pairs_read counted]; try (intros ->; reflexivity).
  intros H. exists l. now split.
Qed.
Lemma packet_bytes pkt : conforming_packet F pkt -> bytes pkt.
Proof.
  intros (code & q & -> & Hc). destruct (conforming_is F code q Hc) as (B1 & B2 & B3).
  now apply framed_is_bytes.
Qed.
Lemma pairs_completed ps : Forall (conforming_packet F) ps -> forall ls, Forall2 pairs_read (flat_map (one F V) ps) ls ->
  forall c, pairs_total c (concat ls) = total (map (completed c) ps).
Proof.
  induction 1 as [|p ps Hp _ IH]; intros ls H c; cbn [flat_map] in H.
  - inversion H. reflexivity.
  - apply Forall2_app_inv_l in H. destruct H as (l1 & l2 & H1 & H2 & ->).
    rewrite concat_app, pairs_total_app, (IH _ H2). cbn [map total fold_right]. f_equal.
    unfold one in H1.
    destruct (event_new F V p) as [ev|e|] eqn:Ep.
    + inversion H1 as [|? l ? ? K1 K2]; subst. inversion K2; subst. cbn [concat]. rewrite app_nil_r.
      apply (counted_ok F V c p ev); [|exact Ep|now apply pairs_counted].
      now apply packet_bytes.
    + inversion H1. symmetry. apply (not_completed F V c p Hp). rewrite Ep. discriminate.
    + inversion H1. symmetry. apply (not_completed F V c p Hp). rewrite Ep. discriminate.
Qed.
Lemma pairs_exist ps : Forall (conforming_packet F) ps -> exists ls, Forall2 pairs_read (flat_map (one F V) ps) ls.
Proof.
  induction 1 as [|p ps Hp _ [ls IH]]; [exists []; constructor|]. cbn [flat_map].
  enough (exists l, Forall2 pairs_read (one F V p) l) as [l Hl] by (exists (l ++ ls); now apply Forall2_app).
  unfold one. destruct (event_new F V p) as [ev|e|] eqn:Ep; try (exists []; constructor).
  pose proof (proj2 (counted_ok F V 0 _ ev (packet_bytes p Hp) Ep _) eq_refl) as K.
  assert (Q : exists l, pairs_read ev l).
  { destruct ev; cbn [counted] in K; try (exists []; reflexivity). destruct K as (l & K & _). now exists l. }
  destruct Q as [l Q]. exists [l]. now repeat constructor.
Qed.
Lemma gone_told c pkt : existsb (is_gone c) (told F pkt) = says_gone c pkt.
Proof.
  unfold says_gone, told. destruct ((at_ pkt 0 =? 5) && (at_ pkt 2 =? 0))%bool eqn:A; cbn [andb].
  - cbn [existsb is_gone]. apply orb_false_r.
  - repeat match goal with |- context [if ?b then _ else _] => destruct b end; reflexivity.
Qed.
Lemma gone_all c ps : existsb (is_gone c) (flat_map (told F) ps) = existsb (says_gone c) ps.
Proof.
  induction ps as [|p ps IH]; [reflexivity|]. cbn [flat_map existsb]. now rewrite existsb_app, gone_told, IH.
Qed.

(** What a receiver finds begins with what came first. *)
Lemma parse_start ws : Forall self_delimiting ws -> forall fuel rest ps,
  parse_packets_fuel fuel (flat_map wire_bytes ws ++ rest) = Some ps -> exists more, ps = ws ++ more.
Proof.
  induction 1 as [|[t b] ws Hw _ IH]; intros fuel rest ps H; [now exists ps|].
  cbn [flat_map wire_bytes app fst snd] in H. destruct fuel as [|fuel]; [discriminate|]. cbn [parse_packets_fuel] in H.
  rewrite <- app_assoc, (Hw _) in H. cbn [snd] in H. rewrite app_length in H.
  replace (Nat.leb _ _) with true in H by (symmetry; apply Nat.leb_le; lia).
  rewrite skipn_all_app in H by reflexivity.
  destruct (parse_packets_fuel fuel _) as [found|] eqn:P; [|discriminate].
  destruct (IH _ _ _ P) as [more ->]. injection H as <-. exists more.
  rewrite firstn_app, firstn_all, Nat.sub_diag. cbn [firstn]. now rewrite app_nil_r.
Qed.

Lemma no_bytes ws : length (flat_map wire_bytes ws) = 0%nat -> ws = [].
Proof. now destruct ws as [|[t b] ws]. Qed.

Context (size number : N).
Lemma device_packets d : honest F size number d ->
  Forall incoming_packet (sent_by d) /\ Forall (conforming_packet F) (events_in (sent_by d))
  /\ forall a b, In (Buffers a b) (flat_map (told F) (events_in (sent_by d))) -> a = size /\ b = number.
Proof.
  intros [_ H].
  assert (K : forall w, In w (sent_by d) -> incoming_packet w
    /\ (fst w = 0x04 -> conforming_packet F (snd w)
        /\ forall a b, In (Buffers a b) (told F (snd w)) -> a = size /\ b = number)).
  { intros w I. unfold sent_by in I. apply in_flat_map in I. destruct I as (x & Ix & I).
    apply in_split in Ix. destruct Ix as (before & after & ->). destruct x as [v|v]; [contradiction|].
    destruct I as [<-|[]]. destruct (H before v after eq_refl) as [H1 H2]. split; [exact H1|].
    intros Ht. destruct (H2 Ht) as (A & _ & B). now split. }
  split; [apply Forall_forall; intros w I; now apply K|].
  assert (L : forall p, In p (events_in (sent_by d)) -> exists w, In w (sent_by d) /\ fst w = 0x04 /\ snd w = p).
  { intros p I. unfold events_in in I. apply in_map_iff in I. destruct I as (w & <- & I).
    apply filter_In in I. destruct I as [I Ht]. apply N.eqb_eq in Ht. now exists w. }
  split.
  - apply Forall_forall. intros p I. destruct (L p I) as (w & Iw & Ht & <-). now apply K.
  - intros a b I. apply in_flat_map in I. destruct I as (p & Ip & I). destruct (L p Ip) as (w & Iw & Ht & <-).
    destruct (K w Iw) as [_ K']. now apply (K' Ht).
Qed.

(** How the log of the host and the history of the controller belong together. *)
Lemma both os s d : Forall (typed_data_operation F V) os -> possible h s -> honest F size number d ->
  let (s', log) := data_session F V C os s in
  (exists rest, written h s' = written h s ++ flat_map wire_bytes (taken d) ++ rest) ->
  (exists rest, flat_map wire_bytes (sent_by d) = pending h s s' ++ rest) ->
  (exists more, put_out V log = taken d ++ more)
  /\ exists ps more, events_in (sent_by d) = ps ++ more /\ events_got log = flat_map (one F V) ps
     /\ (written h s' = written h s ++ flat_map wire_bytes (taken d) -> put_out V log = taken d)
     /\ (consumed h s' = (consumed h s + length (flat_map wire_bytes (sent_by d)))%nat -> more = []).
Proof.
  intros Ho Hs Hd. pose proof (data_session_spec F V C h HC os s Ho Hs) as K.
  destruct (data_session F V C os s) as [s' log].
  destruct K as (_ & (out & W & P) & ws & Hws & _ & (rest & Hp) & Hc & G).
  intros (r1 & W1) (r2 & W2).
  rewrite W in W1. apply app_inv_head in W1. subst out.
  assert (T : Forall self_delimiting (taken d)).
  { eapply Forall_impl; [|exact (proj1 Hd)]. intros w. apply outgoing_delimited. }
  split; [exact (parse_start _ T _ _ _ P)|].
  destruct (device_packets d Hd) as (D1 & D2 & _).
  rewrite Hp, <- app_assoc in W2.
  destruct (stream_start ws) with (vs := sent_by d) (rest := rest ++ r2) as (m & M & R).
  { eapply Forall_impl; [|exact Hws]. intros w. apply incoming_delimited. }
  { eapply Forall_impl; [|exact D1]. intros w. apply incoming_delimited. }
  { exact W2. }
  exists (events_in ws), (events_in m). rewrite M. split; [apply events_in_app|].
  split; [unfold events_got; rewrite G; apply events_are|]. split.
  - intros W'. rewrite W' in W. apply app_inv_head in W.
    assert (r1 = []) as ->.
    { apply (f_equal (@length N)) in W. rewrite app_length in W. destruct r1; [reflexivity|cbn in W; lia]. }
    rewrite app_nil_r in P. rewrite (parse_all _ T) in P. now injection P.
  - intros Hc'. rewrite flat_map_app, app_length in Hc'. rewrite (no_bytes m); [reflexivity|]. lia.
Qed.

Lemma never_overrun os s d : Forall (typed_data_operation F V) os -> possible h s -> honest F size number d ->
  let (s', log) := data_session F V C os s in
  careful log ->
  (exists rest, written h s' = written h s ++ flat_map wire_bytes (taken d) ++ rest) ->
  (exists rest, flat_map wire_bytes (sent_by d) = pending h s s' ++ rest) ->
  N.of_nat (length (held (memory_after d))) <= number
  /\ Forall (fun w => is_data w = true -> data_size w <= size) (taken d).
Proof.
  intros Ho Hs Hd. pose proof (both os s d Ho Hs Hd) as K. destruct (data_session F V C os s) as [s' log].
  intros Hcare W R. destruct (K W R) as ((more & P) & ps & later & Hps & Hev & _). clear K.
  destruct (device_packets d Hd) as (_ & D2 & D3). pose proof (device_counts F size number d Hd) as Dc.
  rewrite Hps in D2, D3. apply Forall_app in D2. destruct D2 as [D2 _].
  assert (HB : forall x y, In (Buffers x y) (flat_map noted (events_got log)) -> x = size /\ y = number).
  { intros x y I. rewrite Hev, (facts_steps F V ps D2) in I. apply D3. rewrite flat_map_app. apply in_or_app. now left. }
  split.
  - destruct (pairs_exist ps D2) as [ls Hls]. rewrite <- Hev in Hls.
    assert (HO : outstanding log _) by (exists ls; split; [exact Hls|reflexivity]).
    pose proof (careful_outstanding size number log _ HB Hcare HO) as L.
    destruct (outstanding_counts _ _ HO) as (ls' & H2 & Hc). rewrite Hev in H2.
    match type of HO with outstanding _ ?o => set (out := o) in * end.
    enough (Le : (length (held (memory_after d)) <= length out)%nat) by lia.
    apply length_counts. intros c. rewrite Hc, Hev, (facts_steps F V ps D2), gone_all.
    rewrite (pairs_completed ps D2 ls' H2 c).
    destruct (Dc c) as (E1 & E2 & E3). rewrite Hps, existsb_app in E1. rewrite Hps, map_app, total_app in E3.
    destruct (existsb (says_gone c) ps); cbn [orb] in E1.
    + rewrite (E2 E1). lia.
    + destruct (existsb (N.eqb c) (ended (memory_after d))) eqn:Ec.
      * rewrite (E2 eq_refl). lia.
      * specialize (E3 eq_refl). fold (data_sent log). unfold data_sent. fold (handles_in (put_out V log)).
        rewrite P, handles_in_app, count_split. lia.
  - apply Forall_forall. intros w I Hw. apply (careful_size size number log w HB Hcare); [|exact Hw].
    rewrite P. apply in_or_app. now left.
Qed.

Lemma no_room_lost os s d : Forall (typed_data_operation F V) os -> possible h s -> honest F size number d ->
  let (s', log) := data_session F V C os s in
  written h s' = written h s ++ flat_map wire_bytes (taken d) ->
  pending h s s' = flat_map wire_bytes (sent_by d) ->
  consumed h s' = (consumed h s + length (flat_map wire_bytes (sent_by d)))%nat ->
  (exists out, outstanding log out)
  /\ forall out, outstanding log out ->
     length out = length (held (memory_after d))
     /\ forall c, packets_of c out = packets_of c (held (memory_after d)).
Proof.
  intros Ho Hs Hd. pose proof (both os s d Ho Hs Hd) as K. destruct (data_session F V C os s) as [s' log].
  intros W R Hcon. destruct K as (_ & ps & later & Hps & Hev & P & M).
  { exists []. now rewrite app_nil_r. }
  { exists []. now rewrite app_nil_r, R. }
  specialize (P W). specialize (M Hcon). subst later. rewrite app_nil_r in Hps.
  destruct (device_packets d Hd) as (_ & D2 & _). pose proof (device_counts F size number d Hd) as Dc. rewrite Hps in D2.
  split.
  - destruct (pairs_exist ps D2) as [ls Hls]. rewrite <- Hev in Hls. eexists. exists ls. split; [exact Hls|reflexivity].
  - intros out HO. destruct (outstanding_counts _ _ HO) as (ls & H2 & Hc). rewrite Hev in H2.
    assert (Q : forall c, packets_of c out = packets_of c (held (memory_after d))).
    { intros c. rewrite Hc, Hev, (facts_steps F V ps D2), gone_all, (pairs_completed ps D2 ls H2 c).
      destruct (Dc c) as (E1 & E2 & E3). rewrite Hps in E1, E3. rewrite <- E1.
      destruct (existsb (N.eqb c) (ended (memory_after d))); [now rewrite E2|].
      specialize (E3 eq_refl). unfold data_sent. rewrite P. fold (handles_in (taken d)). lia. }
    split; [|exact Q]. apply Nat.le_antisymm; apply length_counts; intros c; rewrite Q; lia.
Qed.
End Session.

(** For accounts of given histories. *)
Ltac account ls :=
  exists ls; split;
    [repeat (apply Forall2_nil || (apply Forall2_cons;
       [first [reflexivity | repeat ((apply iterates_end; reflexivity) || (eapply iterates_next; [reflexivity|]))]|]))
    |reflexivity].
