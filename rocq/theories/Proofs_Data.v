(** * Data packets between commands and events (proofs). *)
From Verif Require Import Base Model_Types Model_EventBase Model_Event Model_Host
  Spec_Wire Spec_Errors Spec_Host Spec_Link Spec_Split Spec_Data
  Proofs_Base Proofs_Event Proofs_Host Proofs_Calls Proofs_Streams Proofs_Link Proofs_Dialogue.
Open Scope list_scope.
Open Scope N_scope.

Lemma le_single v : le 1 v = [v mod 256].
Proof. unfold le. cbn [map seq]. now rewrite N.pow_0_r, N.div_1_r. Qed.

(** ** The receiver *)
Definition self_delimiting (w : N * list N) : Prop :=
  forall m, body_length (fst w) (snd w ++ m) = Some (length (snd w)).
Lemma data_delimited w : data_packet w -> self_delimiting w.
Proof.
  intros (a & b & d & _ & _ & _ & [[-> L]|[-> L]]) m; cbn [fst snd].
  - rewrite le_2. cbn [app body_length length]. change (2 =? 4) with false. change ((2 =? 1) || (2 =? 3))%bool with false.
    change (2 =? 2) with true. cbv iota. do 3 f_equal. lia.
  - rewrite le_single. cbn [app body_length length]. change (3 =? 4) with false. change ((3 =? 1) || (3 =? 3))%bool with true. cbv iota.
    f_equal. rewrite N.mod_small by lia. lia.
Qed.
Lemma incoming_delimited w : incoming_packet w -> self_delimiting w.
Proof.
  intros [[Ht (code & params & Hp & _ & _ & L)]|H]; [|now apply data_delimited].
  intros m. rewrite Ht, Hp. unfold framed. cbn [app body_length length]. change (4 =? 4) with true. cbv iota.
  f_equal. lia.
Qed.
Lemma parse_fuel ws : Forall self_delimiting ws -> forall fuel, (length (flat_map wire_bytes ws) <= fuel)%nat ->
  parse_packets_fuel fuel (flat_map wire_bytes ws) = Some ws.
Proof.
  induction 1 as [|[t b] ws Hw _ IH]; intros fuel Hf; cbn [flat_map wire_bytes app fst snd] in *.
  - now destruct fuel.
  - cbn [length] in Hf. rewrite app_length in Hf. destruct fuel as [|fuel]; [lia|]. cbn [parse_packets_fuel].
    rewrite (Hw _). cbn [snd]. rewrite app_length. replace (Nat.leb _ _) with true by (symmetry; apply Nat.leb_le; lia).
    rewrite skipn_all_app by reflexivity. rewrite IH by lia. rewrite firstn_app, firstn_all, Nat.sub_diag.
    cbn [firstn]. now rewrite app_nil_r.
Qed.
Lemma parse_all ws : Forall self_delimiting ws -> parse_packets (flat_map wire_bytes ws) = Some ws.
Proof. intros H. now apply parse_fuel. Qed.

(** ** Reads *)
Section Contract.
Context (F : features) (V : vendor) {St E : Type} (C : controller St E) (h : history St) (HC : contract C h).

Lemma in_front s x s' data k v : possible h x -> consumed h x = consumed h s -> arrives h x s' ->
  (exists more, pending h s s' = data ++ more) -> nth_error (pending h s x) k = Some v -> (k < length data)%nat ->
  nth_error data k = Some v.
Proof.
  intros Hx Hc Ha [more M] Hn Hk.
  assert (L : (consumed h s <= length (received h x))%nat) by (rewrite <- Hc; now apply (consumed_received _ _ HC)).
  pose proof (pending_nth h s x s' k v L Ha Hn) as Q. rewrite M in Q. now rewrite nth_error_app1 in Q.
Qed.

Lemma le_pair lo hi : byte lo -> byte hi -> le 2 (lo + 256 * hi) = [lo; hi].
Proof. intros H1 H2. unfold byte in *. rewrite le_2. f_equal; [lia|]. f_equal. lia. Qed.

Lemma take_data_cases t s : possible h s -> nth_error (pending h s s) 0 = Some t ->
  let (s', r) := take_data C t s in
  match r with
  | Ok data => exists w, data_packet w /\ fst w = t /\ data = wire_bytes w /\ took h s s' data
  | Err _ => nothing h s s'
  | Panic => False
  end.
Proof.
  intros Hs H0. unfold take_data. destruct (N.eqb_spec t 2) as [->|H2]; [|destruct (N.eqb_spec t 3) as [->|H3]].
  - unfold abind. destruct (peek_cases C h HC s 3 Hs) as (s1 & r1 & -> & N1 & P1).
    destruct r1 as [lo|e|]; [|exact N1|exact P1]. destruct P1 as [P1 B1]. assert (Hs1 : possible h s1) by apply N1.
    destruct (peek_cases C h HC s1 4 Hs1) as (s2 & r2 & -> & N2 & P2).
    pose proof (nothing_trans h s s1 s2 N1 N2) as N3. assert (Hs2 : possible h s2) by apply N2.
    destruct r2 as [hi|e|]; [|exact N3|exact P2]. destruct P2 as [P2 B2].
    rewrite (pending_same h s s1 s2) in P2 by apply N1.
    destruct (read_cases C h HC s2 (zeros (5 + N.to_nat (lo + 256 * hi))) Hs2) as (s3 & r3 & -> & K).
    destruct r3 as [data|e|]; [|eapply nothing_trans; eassumption|exact K].
    destruct K as (L & B & T). unfold zeros in L. rewrite repeat_length in L.
    assert (T' : took h s s3 data) by (eapply nothing_took; eassumption).
    assert (A2 : arrives h s2 s3) by apply T. assert (A1 : arrives h s1 s3) by (eapply arrives_trans; [apply N2|exact A2]).
    assert (M : exists more, pending h s s3 = data ++ more) by apply T'.
    pose proof (in_front s s s3 data 0 2 Hs eq_refl (proj1 (proj2 T')) M H0 ltac:(lia)) as D0.
    pose proof (in_front s s1 s3 data 3 lo Hs1 ltac:(apply N1) A1 M P1 ltac:(lia)) as D1.
    pose proof (in_front s s2 s3 data 4 hi Hs2 ltac:(apply N3) A2 M P2 ltac:(lia)) as D2.
    destruct data as [|x0 [|x1 [|x2 [|x3 [|x4 d]]]]]; try (cbn in L; lia).
    cbn in D0, D1, D2. injection D0 as ->. injection D1 as ->. injection D2 as ->.
    assert (Ld : N.of_nat (length d) = lo + 256 * hi) by (cbn [length] in L; lia).
    exists (2, [x1; x2] ++ [lo; hi] ++ d). split; [|split; [reflexivity|split; [reflexivity|exact T']]].
    inversion B as [|? ? _ B']; subst. inversion B' as [|? ? Bx1 B'']; subst. inversion B'' as [|? ? Bx2 B3]; subst.
    inversion B3 as [|? ? _ B4]; subst. inversion B4 as [|? ? _ B5]; subst.
    exists x1, x2, d. split; [exact Bx1|]. split; [exact Bx2|]. split; [exact B5|]. left.
    rewrite Ld, le_pair by assumption. split; [reflexivity|]. unfold byte in *. lia.
  - unfold abind. destruct (peek_cases C h HC s 3 Hs) as (s1 & r1 & -> & N1 & P1).
    destruct r1 as [n|e|]; [|exact N1|exact P1]. destruct P1 as [P1 B1]. assert (Hs1 : possible h s1) by apply N1.
    destruct (read_cases C h HC s1 (zeros (4 + N.to_nat n)) Hs1) as (s3 & r3 & -> & K).
    destruct r3 as [data|e|]; [|eapply nothing_trans; eassumption|exact K].
    destruct K as (L & B & T). unfold zeros in L. rewrite repeat_length in L.
    assert (T' : took h s s3 data) by (eapply nothing_took; eassumption).
    assert (M : exists more, pending h s s3 = data ++ more) by apply T'.
    pose proof (in_front s s s3 data 0 3 Hs eq_refl (proj1 (proj2 T')) M H0 ltac:(lia)) as D0.
    pose proof (in_front s s1 s3 data 3 n Hs1 ltac:(apply N1) (proj1 (proj2 T)) M P1 ltac:(lia)) as D1.
    destruct data as [|x0 [|x1 [|x2 [|x3 d]]]]; try (cbn in L; lia).
    cbn in D0, D1. injection D0 as ->. injection D1 as ->.
    assert (Ld : N.of_nat (length d) = n) by (cbn [length] in L; lia).
    exists (3, [x1; x2] ++ [n] ++ d). split; [|split; [reflexivity|split; [reflexivity|exact T']]].
    inversion B as [|? ? _ B']; subst x l. inversion B' as [|? ? Bx1 B'']; subst x l. inversion B'' as [|? ? Bx2 B3]; subst x l.
    inversion B3 as [|? ? _ B4]; subst x l.
    exists x1, x2, d. split; [exact Bx1|]. split; [exact Bx2|]. split; [exact B4|]. right.
    rewrite Ld. unfold byte in B1. split; [|exact B1]. rewrite le_single. now rewrite N.mod_small.
  - unfold pure. split; [exact Hs|]. split; [apply arrives_refl|auto].
Qed.

Lemma data_not_event w : data_packet w -> (fst w =? 4) = false.
Proof. intros (a & b & d & _ & _ & _ & [[-> _]|[-> _]]); reflexivity. Qed.

Lemma read_any_cases s : possible h s ->
  let (s', r) := read_any F V C s in
  match r with
  | Some a => exists w, incoming_packet w /\ took h s s' (wire_bytes w) /\ a = arrives_as F V w
  | None => nothing h s s'
  end.
Proof.
  intros Hs. unfold read_any. destruct (uart_read_cases F V C h HC s Hs) as (s1 & r & -> & K).
  destruct K as [(Hf & HN & Hb)|(p & Hp & HT & ->)].
  - destruct r as [u|[[t|x|x]|]|]; try discriminate Hf; try exact HN.
    destruct (Hb t eq_refl) as [Ht Hn]. assert (Hs1 : possible h s1) by apply HN.
    rewrite <- (pending_same h s s1 s1) in Hn by apply HN.
    pose proof (take_data_cases t s1 Hs1 Hn) as K. destruct (take_data C t s1) as [s2 [data|e|]].
    + destruct K as (w & Hw & Hf' & -> & HT). exists w. split; [now right|].
      split; [eapply nothing_took; eassumption|]. unfold arrives_as. rewrite (data_not_event w Hw), Hf'. reflexivity.
    + eapply nothing_trans; eassumption.
    + contradiction.
  - assert (G : exists w, incoming_packet w /\ took h s s1 (wire_bytes w)
        /\ Reported (uart_result F V p) = arrives_as (E := E) F V w).
    { exists (4, p). split; [left; split; [reflexivity|exact Hp]|]. split; [exact HT|reflexivity]. }
    pose proof (uart_result_reports (E := E) F V p) as R.
    destruct (uart_result F V p) as [u|[[t|x|x]|]|]; try discriminate R; exact G.
Qed.

Lemma exchange_then a b c l m : took h a b l -> arrives h b c -> (exists more, pending h b c = m ++ more) ->
  exists more, pending h a c = (l ++ m) ++ more.
Proof.
  intros (A1 & A2 & [x X] & A4 & A5) B2 [y Y].
  exists y. destruct (pending_grows h a b c) as [z Z]; [|exact B2|].
  - apply (consumed_received _ _ HC) in A1. lia.
  - rewrite Z, X, <- app_assoc. rewrite <- app_assoc. f_equal.
    unfold pending in Y. rewrite A4, skipn_add in Y. fold (pending h a c) in Y.
    rewrite Z, X, <- app_assoc, skipn_all_app in Y by reflexivity. exact Y.
Qed.

Lemma order_delimited c : arguments_typed F c -> @rejection V E c = None -> self_delimiting (0x01, link_bytes c).
Proof.
  intros HA HR m. destruct (params_ok F V c HA HR) as [HL _]. cbn [fst snd]. unfold link_bytes. rewrite le_2.
  cbn [app body_length length]. change (1 =? 4) with false. change ((1 =? 1) || (1 =? 3))%bool with true. cbv iota.
  f_equal. lia.
Qed.

Lemma data_session_spec os s : Forall (typed_data_operation F V) os -> possible h s ->
  let (s', log) := data_session F V C os s in
  map fst log = os
  /\ (exists out, written h s' = written h s ++ out /\ parse_packets out = Some (put_out V log))
  /\ exists ws, Forall incoming_packet ws /\ parse_packets (flat_map wire_bytes ws) = Some ws
      /\ (exists more, pending h s s' = flat_map wire_bytes ws ++ more)
      /\ consumed h s' = (consumed h s + length (flat_map wire_bytes ws))%nat
      /\ got V log = map (arrives_as F V) ws.
Proof.
  intros H. revert s.
  assert (G : forall s, possible h s ->
    let (s', log) := data_session F V C os s in
    possible h s' /\ arrives h s s' /\
    map fst log = os
    /\ written h s' = written h s ++ flat_map wire_bytes (put_out V log)
    /\ Forall self_delimiting (put_out V log)
    /\ exists ws, Forall incoming_packet ws
      /\ (exists more, pending h s s' = flat_map wire_bytes ws ++ more)
      /\ consumed h s' = (consumed h s + length (flat_map wire_bytes ws))%nat
      /\ got V log = map (arrives_as F V) ws).
  2: { intros s Hs. specialize (G s Hs). destruct (data_session F V C os s) as [s' log].
       destruct G as (_ & _ & G1 & G2 & G3 & ws & G4 & G5). split; [exact G1|]. split.
       - exists (flat_map wire_bytes (put_out V log)). split; [exact G2|now apply parse_all].
       - exists ws. split; [exact G4|]. split; [|exact G5]. apply parse_all.
         eapply Forall_impl; [|exact G4]. exact incoming_delimited. }
  induction H as [|o os Ho _ IH]; intros s Hs; cbn [data_session].
  - split; [exact Hs|]. split; [apply arrives_refl|]. split; [reflexivity|]. split; [now rewrite app_nil_r|].
    split; [constructor|]. exists []. split; [constructor|]. split; [now eexists|]. cbn. split; [lia|reflexivity].
  - assert (Out : forall s1 r, possible h s1 -> arrives h s s1 -> consumed h s1 = consumed h s ->
      got V [(o, r)] = [] -> Forall self_delimiting (put_out V [(o, r)]) ->
      written h s1 = written h s ++ flat_map wire_bytes (put_out V [(o, r)]) ->
      let (s', log) := let (s', log) := data_session F V C os s1 in (s', (o, r) :: log) in
      possible h s' /\ arrives h s s' /\
      map fst log = o :: os
      /\ written h s' = written h s ++ flat_map wire_bytes (put_out V log)
      /\ Forall self_delimiting (put_out V log)
      /\ exists ws, Forall incoming_packet ws
        /\ (exists more, pending h s s' = flat_map wire_bytes ws ++ more)
        /\ consumed h s' = (consumed h s + length (flat_map wire_bytes ws))%nat
        /\ got V log = map (arrives_as F V) ws).
    { intros s1 r K1 K2 K3 K4 K5 K6. specialize (IH s1 K1). destruct (data_session F V C os s1) as [s2 log].
      destruct IH as (I1 & I2 & I3 & I4 & I5 & ws & I6 & I7 & I8 & I9).
      assert (P : put_out V ((o, r) :: log) = put_out V [(o, r)] ++ put_out V log).
      { unfold put_out. cbn [flat_map]. now rewrite app_nil_r. }
      split; [exact I1|]. split; [eapply arrives_trans; eassumption|]. split; [cbn; now rewrite I3|].
      split; [rewrite P, flat_map_app, app_assoc, <- K6; exact I4|].
      split; [rewrite P; apply Forall_app; auto|].
      exists ws. split; [exact I6|]. rewrite <- (pending_same h s s1 s2 K3). split; [exact I7|].
      split; [lia|]. assert (Gt : got V ((o, r) :: log) = got V [(o, r)] ++ got V log).
      { unfold got. cbn [flat_map]. now rewrite app_nil_r. }
      rewrite Gt, K4. exact I9. }
    destruct o as [c|w|]; cbn [data_perform typed_data_operation] in *.
    + pose proof (call_contract F V C h HC c s Ho Hs) as K. destruct (run_command _ _ _ _ _ _) as [s1 r] eqn:Er.
      destruct K as (K1 & K2 & K3 & K4). apply Out; auto.
      * cbn. destruct (succeeded r) eqn:Es; [|constructor]. constructor; [|constructor].
        apply order_delimited; [exact Ho|]. destruct (@rejection V E c) as [e|] eqn:HR; [|reflexivity]. exfalso.
        assert (HH : In (uart_header, uart_header_bytes) header_formats) by (left; reflexivity).
        rewrite (call_rejected F V uart_header uart_header_bytes C HH c s e Ho HR) in Er.
        injection Er as _ <-. discriminate Es.
      * rewrite K4. cbn. destruct (succeeded r); [|reflexivity]. cbn. now rewrite !app_nil_r.
    + pose proof (write_contract _ _ HC s [fst w] (snd w) Hs) as K. destruct (ctl_write C s [fst w] (snd w)) as [s1 r].
      destruct K as (K1 & K2 & K3 & K4). apply Out; auto.
      * cbn. destruct r as [[]|e|]; [|constructor|constructor]. constructor; [|constructor]. now apply data_delimited.
      * cbn. destruct r as [[]|e|]; [|now rewrite app_nil_r|contradiction]. cbn. rewrite app_nil_r. exact K4.
    + pose proof (read_any_cases s Hs) as K. destruct (read_any F V C s) as [s1 [a|]].
      * destruct K as (w & K1 & K2 & K3). pose proof K2 as (J1 & J2 & J3 & J4 & J5).
        specialize (IH s1 J1). destruct (data_session F V C os s1) as [s2 log].
        destruct IH as (I1 & I2 & I3 & I4 & I5 & ws & I6 & I7 & I8 & I9).
        split; [exact I1|]. split; [eapply arrives_trans; eassumption|]. split; [cbn; now rewrite I3|].
        split; [rewrite I4, J5; reflexivity|]. split; [exact I5|].
        exists (w :: ws). split; [now constructor|]. cbn [flat_map].
        split; [eapply exchange_then; eassumption|]. split; [rewrite app_length; lia|].
        change (got V ((Fetch, Fetched (Some a)) :: log)) with (a :: got V log). rewrite I9, K3. reflexivity.
      * destruct K as (K1 & K2 & K3 & K4). apply Out; auto; cbn; [constructor|now rewrite app_nil_r].
Qed.
End Contract.

(** Packets that are there are delivered. *)
Section Buffering.
Context (F : features) (V : vendor) {St E : Type} (C : controller St E) (h : history St) (HB : buffering C h).
Local Lemma HC : contract C h.
Proof. exact (buffering_contract _ _ HB). Qed.

Lemma peek_there s k b : possible h s -> nth_error (pending h s s) k = Some b ->
  exists s', ctl_peek C s k = (s', Ok b) /\ nothing h s s'.
Proof.
  intros Hs Hn. destruct (peek_cases C h HC s k Hs) as (s1 & r1 & Hp & N1 & P1).
  pose proof (peek_ready _ _ HB s k Hs) as R. rewrite Hp in R |- *.
  assert (Hn' : nth_error (pending h s s1) k = Some b).
  { apply (pending_nth h s s s1); [now apply (consumed_received _ _ HC)|apply N1|exact Hn]. }
  assert (Hk : (k < length (pending h s s1))%nat) by (apply nth_error_Some; congruence).
  rewrite (proj2 (Nat.ltb_lt _ _) Hk) in R. destruct R as [x ->]. destruct P1 as [P1 _].
  exists s1. split; [congruence|exact N1].
Qed.
Lemma read_there s buf : possible h s -> (length buf <= length (pending h s s))%nat ->
  exists s', ctl_read_into C s buf = (s', Ok (firstn (length buf) (pending h s s)))
    /\ took h s s' (firstn (length buf) (pending h s s)).
Proof.
  intros Hs Hl. destruct (read_cases C h HC s buf Hs) as (s1 & r1 & Hp & P1).
  pose proof (read_ready _ _ HB s buf Hs) as R. rewrite Hp in R |- *.
  assert (Ha : arrives h s s1) by (destruct r1; [apply P1|apply P1|contradiction]).
  destruct (pending_start C h HB s s1 Hs Ha) as [more M].
  rewrite M, app_length in R. rewrite (proj2 (Nat.leb_le _ _)) in R by lia. destruct R as [data ->].
  destruct P1 as (L & B & T). pose proof T as (_ & _ & [x X] & _).
  assert (E1 : data = firstn (length buf) (pending h s s)).
  { rewrite M in X. apply (f_equal (firstn (length buf))) in X. rewrite !firstn_app in X.
    replace (length buf - length (pending h s s))%nat with 0%nat in X by lia.
    replace (length buf - length data)%nat with 0%nat in X by lia. cbn [firstn] in X. rewrite !app_nil_r in X.
    rewrite X. symmetry. apply firstn_all2. lia. }
  exists s1. rewrite <- E1. auto.
Qed.
Lemma nothing_pending s s1 l : possible h s -> nothing h s s1 -> pending h s s = l ->
  exists more, pending h s1 s1 = l ++ more.
Proof.
  intros Hs (A1 & A2 & A3 & A4) <-. rewrite (pending_same h s s1 s1 A3). exact (pending_start C h HB s s1 Hs A2).
Qed.

Lemma take_data_there w rest s : data_packet w -> possible h s -> pending h s s = wire_bytes w ++ rest ->
  exists s', take_data C (fst w) s = (s', Ok (wire_bytes w)) /\ took h s s' (wire_bytes w).
Proof.
  intros (a & b & d & Ha & Hb & Hd & K) Hs Hp.
  assert (Last : forall s1 more, possible h s1 -> pending h s1 s1 = (wire_bytes w ++ rest) ++ more ->
    forall n, n = length (wire_bytes w) ->
    exists s', ctl_read_into C s1 (zeros n) = (s', Ok (wire_bytes w)) /\ took h s1 s' (wire_bytes w)).
  { intros s1 more Hs1 Hp1 n ->.
    destruct (read_there s1 (zeros (length (wire_bytes w))) Hs1) as (s2 & E2 & T2).
    { unfold zeros. rewrite repeat_length, Hp1, !app_length. lia. }
    unfold zeros in E2 at 2, T2. rewrite repeat_length, Hp1, <- app_assoc in E2, T2.
    rewrite firstn_app, firstn_all, Nat.sub_diag in E2, T2. cbn [firstn] in E2, T2. rewrite app_nil_r in E2, T2.
    eauto. }
  destruct K as [[-> L]|[-> L]]; unfold take_data; cbn [fst].
  - change (2 =? 2) with true. cbv iota. unfold abind. set (n := N.of_nat (length d)) in *.
    destruct (peek_there s 3 (n mod 256) Hs) as (s1 & -> & N1); [rewrite Hp, le_2; reflexivity|].
    assert (Hs1 : possible h s1) by apply N1.
    destruct (nothing_pending s s1 _ Hs N1 Hp) as [m1 M1].
    destruct (peek_there s1 4 (n / 256 mod 256) Hs1) as (s2 & -> & N2); [rewrite M1, le_2; reflexivity|].
    assert (Hs2 : possible h s2) by apply N2.
    destruct (nothing_pending s1 s2 _ Hs1 N2 M1) as [m2 M2]. rewrite <- app_assoc in M2.
    destruct (Last s2 _ Hs2 M2 (5 + N.to_nat (n mod 256 + 256 * (n / 256 mod 256)))%nat) as (s3 & -> & T).
    { rewrite le_2. unfold wire_bytes. cbn [fst snd app length]. lia. }
    exists s3. split; [reflexivity|]. eapply nothing_took; [eapply nothing_trans; eassumption|exact T].
  - change (3 =? 2) with false. change (3 =? 3) with true. cbv iota. unfold abind. set (n := N.of_nat (length d)) in *.
    destruct (peek_there s 3 (n mod 256) Hs) as (s1 & -> & N1); [rewrite Hp, le_single; reflexivity|].
    assert (Hs1 : possible h s1) by apply N1.
    destruct (nothing_pending s s1 _ Hs N1 Hp) as [m1 M1].
    destruct (Last s1 _ Hs1 M1 (4 + N.to_nat (n mod 256))%nat) as (s3 & -> & T).
    { rewrite le_single. unfold wire_bytes. cbn [fst snd app length]. lia. }
    exists s3. split; [reflexivity|]. eapply nothing_took; eassumption.
Qed.

Lemma read_any_there w rest s : incoming_packet w -> possible h s -> pending h s s = wire_bytes w ++ rest ->
  exists s', read_any F V C s = (s', Some (arrives_as F V w)) /\ took h s s' (wire_bytes w).
Proof.
  intros Hw Hs Hp. unfold read_any. pose proof (uart_read_front F V C h HB s Hs) as K.
  destruct (uart_read F V C s) as [s1 r].
  assert (Ha : arrives h s s1) by (destruct (uart_front _); destruct K as [_ K]; apply K).
  destruct (pending_start C h HB s s1 Hs Ha) as [more M]. rewrite Hp in M.
  destruct Hw as [[Ht (code & params & Hq & _)]|Hw].
  - destruct w as [t p]. cbn [fst snd] in *. subst t p. rewrite M in K. unfold wire_bytes in K. cbn [fst snd app uart_front] in K.
    change (4 =? 4) with true in K. cbv iota in K. rewrite <- app_assoc, link_front_whole in K. destruct K as [-> HT].
    exists s1. split; [|exact HT]. pose proof (uart_result_reports (E := E) F V (framed code params)) as R.
    unfold arrives_as. cbn [fst snd]. change (4 =? 4) with true. cbv iota.
    destruct (uart_result F V (framed code params)) as [u|[[t|x|x]|]|]; try discriminate R; reflexivity.
  - pose proof (data_not_event w Hw) as Ne. rewrite M in K. unfold wire_bytes at 1 in K. cbn [app uart_front] in K.
    rewrite Ne in K. destruct K as [-> HN].
    assert (Hs1 : possible h s1) by apply HN.
    destruct (nothing_pending s s1 _ Hs HN Hp) as [m1 M1]. rewrite <- app_assoc in M1.
    destruct (take_data_there w _ s1 Hw Hs1 M1) as (s2 & -> & T). exists s2.
    split; [|eapply nothing_took; eassumption]. unfold arrives_as. now rewrite Ne.
Qed.

Lemma data_deliver ws : Forall incoming_packet ws -> forall rest s, possible h s ->
  pending h s s = flat_map wire_bytes ws ++ rest ->
  let (s', rs) := repeated (read_any F V C) (length ws) s in
  rs = map (fun w => Some (arrives_as F V w)) ws /\ took h s s' (flat_map wire_bytes ws).
Proof.
  induction 1 as [|w ws Hw _ IH]; intros rest s Hs Hl; cbn [length repeated].
  - split; [reflexivity|]. now apply (took_refl h).
  - cbn [flat_map] in Hl. rewrite <- app_assoc in Hl.
    destruct (read_any_there w _ s Hw Hs Hl) as (s1 & -> & HT). pose proof HT as (T1 & T2 & _ & T4 & _).
    destruct (pending_start C h HB s s1 Hs T2) as [more M].
    assert (Hl1 : pending h s1 s1 = flat_map wire_bytes ws ++ (rest ++ more)).
    { unfold pending at 1. rewrite T4, skipn_add. fold (pending h s s1). rewrite M, Hl, <- app_assoc.
      rewrite skipn_all_app by reflexivity. now rewrite app_assoc. }
    specialize (IH _ s1 T1 Hl1). destruct (repeated _ _ s1) as [s2 rs]. destruct IH as [-> HT2].
    split; [reflexivity|]. cbn [flat_map]. eapply took_then; [exact HC|exact HT|exact HT2].
Qed.
End Buffering.
