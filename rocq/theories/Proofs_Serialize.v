(** * Serialization of time parameters and addresses. *)
From Verif Require Import Base Model_Types Model_Bitflags Model_Intervals
  Spec_Wire Spec_Interval Proofs_Base Proofs_Interval.

Lemma write_u16_2 {E} v a b : @write_u16 E v [a; b] = Ok (le 2 v).
Proof. unfold write_u16, write_le. cbn [Nat.leb length skipn]. now rewrite le_bytes_le, app_nil_r. Qed.

(** Writing a field in the middle of a buffer. *)
Lemma update_range_mid {E} pre mid post i j f (r : list N) :
  length pre = i -> (i + length mid)%nat = j ->
  f mid = @Ok E _ r ->
  update_range (pre ++ mid ++ post) i j f = Ok (pre ++ r ++ post).
Proof.
  intros <- <- Hf. unfold update_range, slice.
  rewrite (proj2 (Nat.leb_le (length pre) (length pre + length mid))) by lia.
  rewrite (proj2 (Nat.leb_le (length pre + length mid) (length (pre ++ mid ++ post))))
    by (rewrite !app_length; lia).
  cbn [andb bind]. rewrite skipn_all_app by reflexivity.
  rewrite firstn_all_app by lia. rewrite Hf. cbn [bind].
  rewrite firstn_all_app by reflexivity.
  rewrite (app_assoc pre mid post), skipn_all_app by (rewrite app_length; reflexivity). reflexivity.
Qed.

Lemma update_range_panic {E} buf i j f : (length buf < j)%nat -> @update_range E buf i j f = Panic.
Proof.
  intros H. unfold update_range, slice.
  replace (Nat.leb j (length buf)) with false by (symmetry; apply Nat.leb_gt; exact H).
  now rewrite andb_false_r.
Qed.

Ltac split_buffer buf n H :=
  lazymatch n with
  | O => idtac
  | S ?m => let b := fresh "b" in
      destruct buf as [|b buf]; [exfalso; cbn [length] in H; lia|]; split_buffer buf m H
  end.

Lemma front_8 {E} a b c d b0 b1 b2 b3 b4 b5 b6 b7 rest :
  (let! buf := @update_range E (b0 :: b1 :: b2 :: b3 :: b4 :: b5 :: b6 :: b7 :: rest) 0 2 (write_u16 a) in
   let! buf := update_range buf 2 4 (write_u16 b) in
   let! buf := update_range buf 4 6 (write_u16 c) in
   update_range buf 6 8 (write_u16 d))
  = Ok ((le 2 a ++ le 2 b ++ le 2 c ++ le 2 d) ++ rest).
Proof.
  rewrite (update_range_mid [] [b0; b1] (b2 :: b3 :: b4 :: b5 :: b6 :: b7 :: rest) 0 2 _ (le 2 a))
    by (reflexivity || apply write_u16_2). cbn [bind app].
  rewrite (update_range_mid (le 2 a) [b2; b3] (b4 :: b5 :: b6 :: b7 :: rest) 2 4 _ (le 2 b))
    by (apply write_u16_2 || now rewrite ?le_length). cbn [bind].
  rewrite (app_assoc (le 2 a)).
  rewrite (update_range_mid (le 2 a ++ le 2 b) [b4; b5] (b6 :: b7 :: rest) 4 6 _ (le 2 c))
    by (apply write_u16_2 || now rewrite ?app_length, ?le_length). cbn [bind].
  rewrite (app_assoc _ (le 2 c)).
  rewrite (update_range_mid ((le 2 a ++ le 2 b) ++ le 2 c) [b6; b7] rest 6 8 _ (le 2 d))
    by (apply write_u16_2 || now rewrite ?app_length, ?le_length).
  now rewrite <- !app_assoc.
Qed.

Lemma front_4 {E} a b b0 b1 b2 b3 rest :
  (let! buf := @update_range E (b0 :: b1 :: b2 :: b3 :: rest) 0 2 (write_u16 a) in
   update_range buf 2 4 (write_u16 b))
  = Ok ((le 2 a ++ le 2 b) ++ rest).
Proof.
  rewrite (update_range_mid [] [b0; b1] (b2 :: b3 :: rest) 0 2 _ (le 2 a))
    by (reflexivity || apply write_u16_2). cbn [bind app].
  rewrite (update_range_mid (le 2 a) [b2; b3] rest 2 4 _ (le 2 b))
    by (apply write_u16_2 || now rewrite ?le_length).
  now rewrite <- !app_assoc.
Qed.

(** ** Reachable values are legal *)
Lemma ci_reachable_legal ci : ci_reachable ci ->
  legal_interval (fst (ci_interval ci)) (snd (ci_interval ci)) (ci_latency ci) (ci_timeout ci).
Proof.
  intros [[calls H]|(bs & Hb & H)].
  - rewrite build_after_spec in H.
    destruct (given_range calls) as [[a b]|]; [|discriminate].
    destruct (given_latency calls); [|discriminate].
    destruct (given_timeout calls); [|discriminate].
    destruct (first_failure _) eqn:E in H; [discriminate|]. injection H as <-.
    apply no_failure_iff. exact E.
  - destruct (Nat.ltb_spec (length bs) 8) as [Hl|Hl].
    + unfold ci_from_bytes in H. replace (Nat.leb 8 (length bs)) with false in H
        by (symmetry; apply Nat.leb_gt; lia). discriminate.
    + split_buffer bs 8%nat Hl. bytes_inv.
      rewrite ci_from_bytes_eq in H by assumption. cbv zeta in H.
      destruct (first_failure _) eqn:E in H; [discriminate|]. injection H as <-.
      apply no_failure_iff. exact E.
Qed.

Lemma ci_copy_spec {E} ci :
  legal_interval (fst (ci_interval ci)) (snd (ci_interval ci)) (ci_latency ci) (ci_timeout ci) ->
  @writes_front E (ci_copy_into_slice ci) (conn_interval_bytes ci).
Proof.
  intros (H1 & H2 & H3 & H4 & H5 & H6 & H7) buf. unfold ci_copy_into_slice.
  replace (length (conn_interval_bytes ci)) with 8%nat
    by (unfold conn_interval_bytes; now rewrite !app_length, !le_length).
  destruct (Nat.leb_spec 8 (length buf)) as [Hl|Hl]; cbn [assert bind]; [|reflexivity].
  rewrite !interval_as_u16_eq by lia. cbn [bind]. rewrite timeout_as_u16_eq by lia.
  split_buffer buf 8%nat Hl. apply front_8.
Qed.

Lemma ecl_new_spec min max :
  ecl_new min max =
  if max <? min then Err (ECL_Inverted min max) else
  if us 40959375 <? max then Err (ECL_TooLong max) else Ok {| ecl_range := (min, max) |}.
Proof.
  unfold ecl_new. destruct (max <? min); [reflexivity|].
  rewrite duration_as_u16_eq by (vm_compute; discriminate). cbn [bind].
  replace (from_micros 40959375 / scan_unit =? 0xFFFF) with true by reflexivity. reflexivity.
Qed.

Lemma ecl_copy_spec {E} e : fst (ecl_range e) <= snd (ecl_range e) -> snd (ecl_range e) <= us 40959375 ->
  @writes_front E (ecl_copy_into_slice e) (expected_length_bytes e).
Proof.
  intros H1 H2 buf. unfold ecl_copy_into_slice.
  replace (length (expected_length_bytes e)) with 4%nat
    by (unfold expected_length_bytes; now rewrite !app_length, !le_length).
  destruct (Nat.leb_spec 4 (length buf)) as [Hl|Hl]; cbn [assert bind]; [|reflexivity].
  rewrite !duration_as_u16_eq by lia. cbn [bind].
  split_buffer buf 4%nat Hl. apply front_4.
Qed.

Lemma ecl_reachable_range e : ecl_reachable e ->
  fst (ecl_range e) <= snd (ecl_range e) /\ snd (ecl_range e) <= us 40959375.
Proof.
  intros (min & max & _ & _ & H). rewrite ecl_new_spec in H.
  destruct (N.ltb_spec max min); [discriminate|].
  destruct (N.ltb_spec (us 40959375) max); [discriminate|]. injection H as <-. cbn [fst snd ecl_range]. auto.
Qed.

(** ** Scan window *)
Lemma sw_validate_spec d : sw_validate d =
  if d <? us 2500 then Err (SW_TooShort d) else
  if ms 10240 <? d then Err (SW_TooLong d) else Ok d.
Proof. reflexivity. Qed.

Lemma sw_reachable_range s : sw_reachable s <->
  us 2500 <= sw_window s /\ sw_window s <= sw_interval s /\ sw_interval s <= ms 10240.
Proof.
  unfold sw_reachable, sw_start_every, sw_open_for. split.
  - intros (i & w & H1 & H2). rewrite sw_validate_spec in *.
    destruct (N.ltb_spec i (us 2500)); [discriminate|].
    destruct (N.ltb_spec (ms 10240) i); [discriminate|].
    destruct (N.ltb_spec i w); [discriminate|].
    destruct (N.ltb_spec w (us 2500)); [discriminate|].
    destruct (N.ltb_spec (ms 10240) w); [discriminate|].
    injection H2 as <-. cbn. auto.
  - intros (H1 & H2 & H3). exists (sw_interval s), (sw_window s). rewrite !sw_validate_spec.
    destruct (N.ltb_spec (sw_interval s) (us 2500)); [lia|].
    destruct (N.ltb_spec (ms 10240) (sw_interval s)); [lia|].
    destruct (N.ltb_spec (sw_interval s) (sw_window s)); [lia|].
    destruct (N.ltb_spec (sw_window s) (us 2500)); [lia|].
    destruct (N.ltb_spec (ms 10240) (sw_window s)); [lia|].
    split; [reflexivity|]. cbn [bind]. now destruct s.
Qed.

Lemma sw_copy_spec {E} s : sw_window s <= sw_interval s -> sw_interval s <= ms 10240 ->
  @writes_front E (sw_copy_into_slice s) (scan_window_bytes s).
Proof.
  intros H1 H2 buf. unfold sw_copy_into_slice.
  replace (length (scan_window_bytes s)) with 4%nat
    by (unfold scan_window_bytes; now rewrite !app_length, !le_length).
  destruct (Nat.leb_spec 4 (length buf)) as [Hl|Hl]; cbn [assert bind]; [|reflexivity].
  rewrite !duration_as_u16_eq by (durations; lia). cbn [bind].
  split_buffer buf 4%nat Hl. apply front_4.
Qed.

(** ** Advertising interval *)
Definition ai_legal (F : features) (a : advertising_interval) : Prop :=
  (ms 20 <= fst (ai_interval a) /\ fst (ai_interval a) <= snd (ai_interval a)
   /\ snd (ai_interval a) <= ms 10240
   /\ (version_5_0 F = false -> ai_type a = ScannableUndirected -> ms 100 <= fst (ai_interval a)))
  \/ (ai_type a = ConnectableDirectedHighDutyCycle /\ ai_interval a = (0, 0)).

Lemma advertising_type_eqb_spec a b : advertising_type_eqb a b = true <-> a = b.
Proof. destruct a, b; cbn; split; intros; try discriminate; reflexivity. Qed.

Lemma ai_with_range_spec F t min max a : ai_with_range F t min max = Ok a <->
  a = {| ai_interval := (min, max); ai_type := t |}
  /\ ms 20 <= min /\ min <= max /\ max <= ms 10240
  /\ (version_5_0 F = false -> t = ScannableUndirected -> ms 100 <= min).
Proof.
  unfold ai_with_range. change (from_millis 20) with (ms 20).
  change (from_millis 100) with (ms 100). change (from_millis 10240) with (ms 10240).
  destruct (N.ltb_spec min (ms 20)); [split; [discriminate|intros; lia]|].
  destruct (version_5_0 F) eqn:EF; cbn [negb andb].
  - destruct (N.ltb_spec (ms 10240) max); [split; [discriminate|intros; lia]|].
    destruct (N.ltb_spec max min); [split; [discriminate|intros; lia]|].
    split.
    + intros K. injection K as <-. repeat (split; [auto; lia|]). discriminate.
    + intros [-> _]. reflexivity.
  - destruct (advertising_type_eqb t ScannableUndirected) eqn:Et; cbn [andb].
    + apply advertising_type_eqb_spec in Et. subst t.
      destruct (N.ltb_spec min (ms 100)).
      { split; [discriminate|]. intros (_ & _ & _ & _ & K). specialize (K eq_refl eq_refl). lia. }
      destruct (N.ltb_spec (ms 10240) max); [split; [discriminate|intros; lia]|].
      destruct (N.ltb_spec max min); [split; [discriminate|intros; lia]|].
      split.
      * intros K. injection K as <-. repeat (split; [auto; lia|]). auto.
      * intros [-> _]. reflexivity.
    + destruct (N.ltb_spec (ms 10240) max); [split; [discriminate|intros; lia]|].
      destruct (N.ltb_spec max min); [split; [discriminate|intros; lia]|].
      split.
      * intros K. injection K as <-. repeat (split; [auto; lia|]). intros _ ->. discriminate.
      * intros [-> _]. reflexivity.
Qed.

Lemma ai_build_spec t a : ai_build t = Ok a <->
  t = ConnectableDirectedHighDutyCycle /\ a = {| ai_interval := (0, 0); ai_type := t |}.
Proof.
  unfold ai_build. destruct (advertising_type_eqb t _) eqn:E.
  - apply advertising_type_eqb_spec in E. subst. change (from_secs 0) with 0. split.
    + intros H. injection H as <-. auto.
    + intros [_ ->]. reflexivity.
  - split; [discriminate|]. intros [-> _]. discriminate.
Qed.

Lemma ai_reachable_legal F a : ai_reachable F a -> ai_legal F a.
Proof.
  intros [(t & min & max & _ & _ & H)|(t & H)].
  - apply ai_with_range_spec in H. destruct H as (-> & H). left. exact H.
  - apply ai_build_spec in H. destruct H as [-> ->]. right. auto.
Qed.

Lemma ai_copy_spec {E} F a : ai_legal F a ->
  @writes_front E (ai_copy_into_slice a) (advertising_interval_bytes a).
Proof.
  intros H buf. unfold ai_copy_into_slice.
  assert (Hlen : length (advertising_interval_bytes a) = 5%nat).
  { unfold advertising_interval_bytes. destruct (ai_type a);
      rewrite ?app_length, ?le_length; reflexivity. }
  rewrite Hlen.
  assert (Hcode : advertising_type_as_u8 (ai_type a) = advertising_type_code (ai_type a))
    by (destruct (ai_type a); reflexivity).
  destruct (advertising_type_eqb (ai_type a) ConnectableDirectedHighDutyCycle) eqn:Et.
  - apply advertising_type_eqb_spec in Et.
    destruct (Nat.leb_spec 5 (length buf)) as [Hl|Hl].
    + split_buffer buf 5%nat Hl.
      rewrite (update_range_mid [] [b; b0; b1; b2] (b3 :: buf) 0 4 _ [0; 0; 0; 0]) by reflexivity.
      cbn [app bind]. unfold set_idx. cbn [length Nat.ltb Nat.leb firstn skipn app].
      unfold advertising_interval_bytes. rewrite Et. reflexivity.
    + destruct (Nat.ltb_spec (length buf) 4) as [Hl'|Hl'].
      * now rewrite update_range_panic.
      * split_buffer buf 4%nat Hl'. destruct buf; [|cbn [length] in Hl; lia].
        reflexivity.
  - destruct H as [H|[H _]]; [|rewrite H in Et; discriminate].
    destruct H as (H1 & H2 & H3 & _).
    rewrite !duration_as_u16_eq by (durations; lia). cbn [bind].
    destruct (Nat.leb_spec 5 (length buf)) as [Hl|Hl].
    + split_buffer buf 5%nat Hl. rewrite front_4. cbn [bind].
      unfold set_idx. rewrite !app_length, !le_length. cbn [Nat.add length Nat.ltb Nat.leb].
      rewrite firstn_all_app by (now rewrite !app_length, !le_length).
      replace (skipn 5 _) with buf.
      * unfold advertising_interval_bytes. rewrite Hcode.
        replace (match ai_type a with
                 | ConnectableDirectedHighDutyCycle => [0; 0; 0; 0]
                 | _ => le 2 (slots (fst (ai_interval a))) ++ le 2 (slots (snd (ai_interval a)))
                 end) with (le 2 (slots (fst (ai_interval a))) ++ le 2 (slots (snd (ai_interval a))))
          by (destruct (ai_type a); try reflexivity; discriminate Et).
        rewrite <- !app_assoc. reflexivity.
      * rewrite !le_2. reflexivity.
    + destruct (Nat.ltb_spec (length buf) 4) as [Hl'|Hl'].
      * destruct (Nat.ltb_spec (length buf) 2).
        -- now rewrite update_range_panic.
        -- split_buffer buf 2%nat H.
           rewrite (update_range_mid [] [b; b0] buf 0 2 _ (le 2 (fst (ai_interval a) / scan_unit)))
             by (reflexivity || apply write_u16_2).
           cbn [bind app]. rewrite update_range_panic; [reflexivity|].
           rewrite app_length, le_length. cbn [length] in Hl'. lia.
      * split_buffer buf 4%nat Hl'. destruct buf; [|cbn [length] in Hl; lia].
        rewrite front_4. cbn [bind]. unfold set_idx. now rewrite !app_length, !le_length.
Qed.

(** ** Addresses *)
Lemma bd_addr_type_copy_spec {E} a : address_ok a ->
  @writes_exactly E (bd_addr_type_copy a) (address_bytes a).
Proof.
  intros Ha buf.
  assert (Hlen : length (address_bytes a) = 7%nat) by (destruct a; cbn in *; now rewrite Ha).
  rewrite Hlen. unfold bd_addr_type_copy.
  destruct (Nat.eqb_spec (length buf) 7) as [Hl|Hl]; cbn [assert bind]; [|reflexivity].
  destruct_len Hl. destruct a as [l|l]; cbn in Ha; destruct_len Ha; reflexivity.
Qed.
