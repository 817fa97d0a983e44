(** * Time parameters: acceptance, ranges of what is sent, round trips. *)
From Verif Require Import Base Model_Types Model_Bitflags Model_Intervals
  Spec_Wire Spec_Interval Spec_Example Proofs_Base Proofs_Interval Proofs_Serialize.

(** ** The builder *)
Lemma build_accepts calls ci : build_after calls = Ok ci <->
  exists min max latency timeout,
    given_range calls = Some (min, max) /\ given_latency calls = Some latency
    /\ given_timeout calls = Some timeout /\ legal_interval min max latency timeout
    /\ ci = {| ci_interval := (min, max); ci_latency := latency; ci_timeout := timeout |}.
Proof.
  rewrite build_after_spec. split.
  - destruct (given_range calls) as [[a b]|]; [|discriminate].
    destruct (given_latency calls); [|discriminate].
    destruct (given_timeout calls); [|discriminate].
    destruct (first_failure _) eqn:E; [discriminate|]. intros H. injection H as <-.
    apply no_failure_iff in E. exists a, b. eauto 10.
  - intros (a & b & l & t & -> & -> & -> & H & ->). apply no_failure_iff in H. now rewrite H.
Qed.

Lemma build_no_panic calls : build_after calls <> Panic.
Proof.
  rewrite build_after_spec. destruct (given_range calls) as [[a b]|]; [|discriminate].
  destruct (given_latency calls); [|discriminate].
  destruct (given_timeout calls); [|discriminate].
  destruct (first_failure _); discriminate.
Qed.

(** ** What is sent *)
Lemma sent_interval_floor d :
  sent_interval d + (if loses_unit d then 1 else 0) = d / interval_unit.
Proof. exact (interval_units d). Qed.

Lemma sent_interval_mono a b : a <= b -> sent_interval a <= sent_interval b.
Proof. unfold sent_interval. durations. intros H. lia. Qed.

Lemma sent_ranges ci : ci_reachable ci ->
  let a := sent_interval (fst (ci_interval ci)) in
  let b := sent_interval (snd (ci_interval ci)) in
  let t := ci_timeout ci / timeout_unit in
  5 <= a /\ a <= b /\ b <= 0x0C80 /\ ci_latency ci <= 0x01F3 /\ 0x000A <= t /\ t <= 0x0C80
  /\ (a < 6 <-> fst (ci_interval ci) < ms 8).
Proof.
  intros H. apply ci_reachable_legal in H. destruct H as (H1 & H2 & H3 & H4 & H5 & _ & H7).
  unfold sent_interval. durations. repeat split; lia.
Qed.

Lemma sent_interval_off ci : ci_reachable ci ->
  forall d, In d [fst (ci_interval ci); snd (ci_interval ci)] ->
  sent_interval d <= d / interval_unit <= sent_interval d + 1
  /\ (sent_interval d < d / interval_unit <->
      let whole := d / ms 1 in let part := d mod ms 1 in
      (whole mod 5 = 1 /\ us 250 <= part) \/ (whole mod 5 = 2 /\ us 500 <= part)
      \/ (whole mod 5 = 3 /\ us 750 <= part)).
Proof.
  intros _ d _. assert (H := sent_interval_floor d). unfold loses_unit in H.
  cbv zeta in *. change (ms 1) with 1000000. change (us 250) with 250000.
  change (us 500) with 500000. change (us 750) with 750000.
  set (r := d / 1000000 mod 5) in *. set (p := d mod 1000000) in *.
  assert (Hr : r < 5) by (apply N.mod_lt; discriminate). clearbody r p.
  destruct (N.leb_spec 1 r), (N.leb_spec r 3), (N.leb_spec (r * 250000) p); cbn [andb] in H; lia.
Qed.

(** ** Wire formats *)
Lemma read_u16_le v rest : u16 v -> exists a b,
  le 2 v ++ rest = a :: b :: rest /\ a + 256 * b = v /\ byte a /\ byte b.
Proof.
  intros H. exists (v mod 256), (v / 256 mod 256). rewrite le_2. split; [reflexivity|].
  split; [now apply read_le_2|]. unfold byte. split; apply N.mod_lt; discriminate.
Qed.

Lemma legal_u16 i m l t : legal_parameters i m l t -> u16 i /\ u16 m /\ u16 l /\ u16 t.
Proof. unfold legal_parameters, u16. change (2 ^ 16) with 65536. intros. lia. Qed.

Lemma ci_from_bytes_iff bs ci : bytes bs ->
  ci_from_bytes bs = Ok ci <->
  exists i m latency t rest, legal_parameters i m latency t
    /\ bs = le 2 i ++ le 2 m ++ le 2 latency ++ le 2 t ++ rest
    /\ ci = {| ci_interval := (i * interval_unit, m * interval_unit);
               ci_latency := latency; ci_timeout := t * timeout_unit |}.
Proof.
  intros Hb. split.
  - intros H. destruct (Nat.ltb_spec (length bs) 8) as [Hl|Hl].
    + unfold ci_from_bytes in H. replace (Nat.leb 8 (length bs)) with false in H
        by (symmetry; apply Nat.leb_gt; lia). discriminate.
    + split_buffer bs 8%nat Hl. bytes_inv.
      rewrite ci_from_bytes_eq in H by assumption. cbv zeta in H.
      destruct (first_failure _) eqn:E in H; [discriminate|]. injection H as <-.
      apply no_failure_iff, legal_wire in E.
      do 4 eexists. exists bs. split; [exact E|]. split; [|reflexivity].
      rewrite !le_2_of_bytes by assumption. reflexivity.
  - intros (i & m & l & t & rest & H & -> & ->).
    destruct (legal_u16 _ _ _ _ H) as (U1 & U2 & U3 & U4).
    destruct (read_u16_le t rest U4) as (t0 & t1 & -> & Et & ? & ?).
    destruct (read_u16_le l (t0 :: t1 :: rest) U3) as (l0 & l1 & -> & El & ? & ?).
    destruct (read_u16_le m (l0 :: l1 :: t0 :: t1 :: rest) U2) as (m0 & m1 & -> & Em & ? & ?).
    destruct (read_u16_le i (m0 :: m1 :: l0 :: l1 :: t0 :: t1 :: rest) U1) as (i0 & i1 & -> & Ei & ? & ?).
    rewrite ci_from_bytes_eq by assumption. cbv zeta. rewrite Et, El, Em, Ei.
    apply legal_wire, no_failure_iff in H. now rewrite H.
Qed.

Lemma ci_from_bytes_panic bs : bytes bs -> ci_from_bytes bs = Panic <-> (length bs < 8)%nat.
Proof.
  intros Hb. destruct (Nat.ltb_spec (length bs) 8) as [Hl|Hl].
  - split; [auto|]. intros _. unfold ci_from_bytes. replace (Nat.leb 8 (length bs)) with false
      by (symmetry; apply Nat.leb_gt; lia). reflexivity.
  - split; [|intros; lia]. intros H. exfalso. split_buffer bs 8%nat Hl. bytes_inv.
    rewrite ci_from_bytes_eq in H by assumption. cbv zeta in H.
    destruct (first_failure _) in H; discriminate.
Qed.

Lemma ci_from_bytes_error bs : bytes bs -> (8 <= length bs)%nat ->
  let v k := nth k bs 0 + 256 * nth (S k) bs 0 in
  let e := first_failure (interval_checks (v 0%nat * interval_unit) (v 2%nat * interval_unit) (v 4%nat)
                            (v 6%nat * timeout_unit)) in
  match e with
  | Some e => ci_from_bytes bs = Err e
  | None => exists ci, ci_from_bytes bs = Ok ci
  end.
Proof.
  intros Hb Hl. split_buffer bs 8%nat Hl. bytes_inv. cbn [nth].
  rewrite ci_from_bytes_eq by assumption. cbv zeta.
  destruct (first_failure _); eauto.
Qed.

Lemma fci_from_bytes_iff bs ci : bytes bs ->
  fci_from_bytes bs = Ok ci <->
  exists i latency t rest, legal_parameters i i latency t
    /\ bs = le 2 i ++ le 2 latency ++ le 2 t ++ rest
    /\ ci = {| fci_interval := i * interval_unit; fci_latency := latency;
               fci_timeout := t * timeout_unit |}.
Proof.
  intros Hb. split.
  - intros H. destruct (Nat.ltb_spec (length bs) 6) as [Hl|Hl].
    + unfold fci_from_bytes in H. replace (Nat.leb 6 (length bs)) with false in H
        by (symmetry; apply Nat.leb_gt; lia). discriminate.
    + split_buffer bs 6%nat Hl. bytes_inv.
      rewrite fci_from_bytes_eq in H by assumption. cbv zeta in H.
      destruct (first_failure _) eqn:E in H; [discriminate|]. injection H as <-.
      apply no_failure_iff, legal_wire in E.
      do 3 eexists. exists bs. split; [exact E|]. split; [|reflexivity].
      rewrite !le_2_of_bytes by assumption. reflexivity.
  - intros (i & l & t & rest & H & -> & ->).
    destruct (legal_u16 _ _ _ _ H) as (U1 & _ & U3 & U4).
    destruct (read_u16_le t rest U4) as (t0 & t1 & -> & Et & ? & ?).
    destruct (read_u16_le l (t0 :: t1 :: rest) U3) as (l0 & l1 & -> & El & ? & ?).
    destruct (read_u16_le i (l0 :: l1 :: t0 :: t1 :: rest) U1) as (i0 & i1 & -> & Ei & ? & ?).
    rewrite fci_from_bytes_eq by assumption. cbv zeta. rewrite Et, El, Ei.
    apply legal_wire, no_failure_iff in H. now rewrite H.
Qed.

Lemma fci_from_bytes_panic bs : bytes bs -> fci_from_bytes bs = Panic <-> (length bs < 6)%nat.
Proof.
  intros Hb. destruct (Nat.ltb_spec (length bs) 6) as [Hl|Hl].
  - split; [auto|]. intros _. unfold fci_from_bytes. replace (Nat.leb 6 (length bs)) with false
      by (symmetry; apply Nat.leb_gt; lia). reflexivity.
  - split; [|intros; lia]. intros H. exfalso. split_buffer bs 6%nat Hl. bytes_inv.
    rewrite fci_from_bytes_eq in H by assumption. cbv zeta in H.
    destruct (first_failure _) in H; discriminate.
Qed.

Lemma fci_from_bytes_error bs : bytes bs -> (6 <= length bs)%nat ->
  let v k := nth k bs 0 + 256 * nth (S k) bs 0 in
  let e := first_failure (interval_checks (v 0%nat * interval_unit) (v 0%nat * interval_unit) (v 2%nat)
                            (v 4%nat * timeout_unit)) in
  match e with
  | Some e => fci_from_bytes bs = Err e
  | None => exists ci, fci_from_bytes bs = Ok ci
  end.
Proof.
  intros Hb Hl. split_buffer bs 6%nat Hl. bytes_inv. cbn [nth].
  rewrite fci_from_bytes_eq by assumption. cbv zeta.
  destruct (first_failure _); eauto.
Qed.

(** ** Round trip *)
Lemma sent_wire v : sent_interval (v * interval_unit) = if v mod 4 =? 0 then v else v - 1.
Proof.
  assert (H := sent_interval_floor (v * interval_unit)). rewrite loses_unit_wire in H.
  rewrite N.div_mul in H by discriminate.
  destruct (N.eqb_spec (v mod 4) 0); cbn [negb] in H; lia.
Qed.

Lemma from_bytes_sent i m latency t rest : legal_parameters i m latency t ->
  exists ci, ci_from_bytes (le 2 i ++ le 2 m ++ le 2 latency ++ le 2 t ++ rest) = Ok ci
  /\ conn_interval_bytes ci
     = le 2 (if i mod 4 =? 0 then i else i - 1) ++ le 2 (if m mod 4 =? 0 then m else m - 1)
       ++ le 2 latency ++ le 2 t.
Proof.
  intros H. eexists. split.
  - destruct (legal_u16 _ _ _ _ H) as (U1 & U2 & U3 & U4).
    destruct (read_u16_le t rest U4) as (t0 & t1 & -> & Et & ? & ?).
    destruct (read_u16_le latency (t0 :: t1 :: rest) U3) as (l0 & l1 & -> & El & ? & ?).
    destruct (read_u16_le m (l0 :: l1 :: t0 :: t1 :: rest) U2) as (m0 & m1 & -> & Em & ? & ?).
    destruct (read_u16_le i (m0 :: m1 :: l0 :: l1 :: t0 :: t1 :: rest) U1) as (i0 & i1 & -> & Ei & ? & ?).
    rewrite ci_from_bytes_eq by assumption. cbv zeta. rewrite Et, El, Em, Ei.
    apply legal_wire, no_failure_iff in H. rewrite H. reflexivity.
  - unfold conn_interval_bytes. cbn [ci_interval ci_latency ci_timeout fst snd].
    rewrite !sent_wire, N.div_mul by discriminate. reflexivity.
Qed.

Lemma down_lt (v bound : N) : v < bound -> (if v mod 4 =? 0 then v else v - 1) < bound.
Proof. intros H. destruct (v mod 4 =? 0); lia. Qed.

Lemma round_trip_iff i m latency t rest buf ci : legal_parameters i m latency t ->
  length buf = 8%nat ->
  ci_from_bytes (le 2 i ++ le 2 m ++ le 2 latency ++ le 2 t ++ rest) = Ok ci ->
  exists out, @ci_copy_into_slice Empty_set ci buf = Ok out
  /\ out = le 2 (if i mod 4 =? 0 then i else i - 1) ++ le 2 (if m mod 4 =? 0 then m else m - 1)
           ++ le 2 latency ++ le 2 t
  /\ (out = le 2 i ++ le 2 m ++ le 2 latency ++ le 2 t <-> i mod 4 = 0 /\ m mod 4 = 0).
Proof.
  intros H Hb Hc. destruct (from_bytes_sent i m latency t rest H) as (ci' & Hc' & Hs).
  rewrite Hc in Hc'. injection Hc' as <-.
  assert (L : legal_interval (fst (ci_interval ci)) (snd (ci_interval ci)) (ci_latency ci) (ci_timeout ci)).
  { destruct (legal_u16 _ _ _ _ H) as (U1 & U2 & U3 & U4).
    destruct (read_u16_le t rest U4) as (t0 & t1 & Q4 & Et & ? & ?). rewrite Q4 in Hc.
    destruct (read_u16_le latency (t0 :: t1 :: rest) U3) as (l0 & l1 & Q3 & El & ? & ?). rewrite Q3 in Hc.
    destruct (read_u16_le m (l0 :: l1 :: t0 :: t1 :: rest) U2) as (m0 & m1 & Q2 & Em & ? & ?). rewrite Q2 in Hc.
    destruct (read_u16_le i (m0 :: m1 :: l0 :: l1 :: t0 :: t1 :: rest) U1) as (i0 & i1 & Q1 & Ei & ? & ?). rewrite Q1 in Hc.
    rewrite ci_from_bytes_eq in Hc by assumption. cbv zeta in Hc.
    destruct (first_failure _) eqn:E in Hc; [discriminate|]. injection Hc as <-.
    apply no_failure_iff. exact E. }
  exists (conn_interval_bytes ci). split.
  - rewrite (ci_copy_spec ci L buf).
    replace (length (conn_interval_bytes ci)) with 8%nat
      by (unfold conn_interval_bytes; now rewrite !app_length, !le_length).
    rewrite Hb. cbn [Nat.leb]. rewrite skipn_all2 by lia. now rewrite app_nil_r.
  - split; [exact Hs|]. rewrite Hs. split.
    + intros K. destruct (legal_u16 _ _ _ _ H) as (U1 & U2 & _ & _).
      unfold u16 in *. change (2 ^ 16) with 65536 in *.
      assert (K1 := f_equal (firstn 2) K). rewrite !firstn_all_app in K1 by apply le_length.
      assert (K2 := f_equal (skipn 2) K). rewrite !skipn_all_app in K2 by apply le_length.
      apply (f_equal (firstn 2)) in K2. rewrite !firstn_all_app in K2 by apply le_length.
      change 65536 with (256 ^ N.of_nat 2) in U1, U2.
      apply le_inj in K1; [|now apply down_lt|assumption].
      apply le_inj in K2; [|now apply down_lt|assumption].
      destruct H as (H & H' & _).
      destruct (N.eqb_spec (i mod 4) 0), (N.eqb_spec (m mod 4) 0); lia.
    + intros [-> ->]. reflexivity.
Qed.

Lemma round_trip_refuted :
  exists bs ci, bytes bs /\ ci_from_bytes bs = Ok ci
    /\ @ci_copy_into_slice Empty_set ci (repeat 0 8) <> Ok bs.
Proof.
  exists [6; 0; 6; 0; 0; 0; 100; 0]. eexists. split; [repeat constructor|].
  split; [vm_compute; reflexivity|]. vm_compute. discriminate.
Qed.

Lemma lower_bound_refuted :
  exists calls ci, build_after calls = Ok ci /\ @ci_copy_into_slice Empty_set ci (repeat 0 8)
    = Ok ([0x05; 0x00] ++ [0x08; 0x00] ++ [0x00; 0x00] ++ [0x64; 0x00]).
Proof.
  exists [WithRange (us 7500) (ms 10); WithLatency 0; WithTimeout (ms 1000)],
    {| ci_interval := (us 7500, ms 10); ci_latency := 0; ci_timeout := ms 1000 |}.
  split; vm_compute; reflexivity.
Qed.

(** ** Expected connection length *)
Lemma ecl_accepts min max e : ecl_new min max = Ok e <->
  min <= max /\ max <= us 40959375 /\ e = {| ecl_range := (min, max) |}.
Proof.
  rewrite ecl_new_spec.
  destruct (N.ltb_spec max min); [split; [discriminate|intros; lia]|].
  destruct (N.ltb_spec (us 40959375) max); [split; [discriminate|intros; lia]|].
  split; [intros K; injection K as <-; auto|]. intros (_ & _ & ->). reflexivity.
Qed.

Lemma ecl_rejects min max :
  ecl_new min max <> Panic
  /\ (max < min -> ecl_new min max = Err (ECL_Inverted min max))
  /\ (min <= max -> us 40959375 < max -> ecl_new min max = Err (ECL_TooLong max)).
Proof.
  rewrite ecl_new_spec. destruct (N.ltb_spec max min); destruct (N.ltb_spec (us 40959375) max);
    repeat split; intros; try discriminate; try lia; reflexivity.
Qed.

Lemma slots_range d : d <= us 40959375 -> slots d <= 0xFFFF.
Proof. unfold slots, slot. durations. intros. lia. Qed.

Lemma ecl_sent e : ecl_reachable e ->
  slots (fst (ecl_range e)) <= slots (snd (ecl_range e)) /\ slots (snd (ecl_range e)) <= 0xFFFF
  /\ @writes_front Empty_set (ecl_copy_into_slice e) (expected_length_bytes e).
Proof.
  intros H. apply ecl_reachable_range in H. destruct H as [H1 H2].
  split; [unfold slots; apply N.div_le_mono; [discriminate|exact H1]|].
  split; [now apply slots_range|]. now apply ecl_copy_spec.
Qed.

(** ** Advertising interval *)
Lemma ai_with_range_error F t min max :
  ai_with_range F t min max =
  let low := negb (version_5_0 F) && match t with ScannableUndirected => true | _ => false end in
  match first_failure [ Check (min <? if low then ms 100 else ms 20) (AI_TooShort min);
                        Check (ms 10240 <? max) (AI_TooLong max);
                        Check (max <? min) (AI_Inverted min max) ] with
  | Some e => Err e
  | None => Ok {| ai_interval := (min, max); ai_type := t |}
  end.
Proof.
  unfold ai_with_range. cbv zeta. cbn [first_failure].
  replace (advertising_type_eqb t ScannableUndirected) with (match t with ScannableUndirected => true | _ => false end)
    by (now destruct t).
  change (from_millis 20) with (ms 20). change (from_millis 100) with (ms 100).
  change (from_millis 10240) with (ms 10240).
  destruct (negb _ && _)%bool; cbn [andb].
  - destruct (N.ltb_spec min (ms 20)), (N.ltb_spec min (ms 100)); try reflexivity;
      [durations; lia|]. now destruct (ms 10240 <? max), (max <? min).
  - destruct (min <? ms 20); [reflexivity|]. now destruct (ms 10240 <? max), (max <? min).
Qed.

Lemma ai_sent F a : ai_reachable F a ->
  @writes_front Empty_set (ai_copy_into_slice a) (advertising_interval_bytes a)
  /\ (ai_type a <> ConnectableDirectedHighDutyCycle ->
      0x0020 <= slots (fst (ai_interval a)) /\ slots (fst (ai_interval a)) <= slots (snd (ai_interval a))
      /\ slots (snd (ai_interval a)) <= 0x4000).
Proof.
  intros H. apply ai_reachable_legal in H. split; [now apply (ai_copy_spec F)|].
  intros Ht. destruct H as [(H1 & H2 & H3 & _)|[H _]]; [|contradiction].
  unfold slots, slot. durations. lia.
Qed.

Lemma ai_nonconnectable_refuted :
  exists a, ai_with_range F41 NonConnectableUndirected (ms 20) (ms 50) = Ok a.
Proof. eexists. vm_compute. reflexivity. Qed.

(** ** Scan window *)
Lemma sw_accepts interval window s :
  (sw_start_every interval = Ok interval /\ sw_open_for interval window = Ok s) <->
  us 2500 <= window /\ window <= interval /\ interval <= ms 10240
  /\ s = {| sw_interval := interval; sw_window := window |}.
Proof.
  unfold sw_start_every, sw_open_for. rewrite !sw_validate_spec.
  destruct (N.ltb_spec interval (us 2500)); [split; [intros [? _]; discriminate|intros; lia]|].
  destruct (N.ltb_spec (ms 10240) interval); [split; [intros [? _]; discriminate|intros; lia]|].
  destruct (N.ltb_spec interval window); [split; [intros [_ ?]; discriminate|intros; lia]|].
  destruct (N.ltb_spec window (us 2500)); [split; [intros [_ ?]; discriminate|intros; lia]|].
  destruct (N.ltb_spec (ms 10240) window); [split; [intros [_ ?]; discriminate|intros; lia]|].
  cbn [bind]. split.
  - intros [_ K]. injection K as <-. auto.
  - intros (_ & _ & _ & ->). auto.
Qed.

Lemma sw_start_every_errors interval :
  sw_start_every interval <> Panic
  /\ (interval < us 2500 -> sw_start_every interval = Err (SW_TooShort interval))
  /\ (ms 10240 < interval -> sw_start_every interval = Err (SW_TooLong interval)).
Proof.
  unfold sw_start_every. rewrite sw_validate_spec.
  destruct (N.ltb_spec interval (us 2500)); destruct (N.ltb_spec (ms 10240) interval);
    repeat split; intros; try discriminate; try lia; try reflexivity. durations. lia.
Qed.

Lemma sw_open_for_errors interval window : sw_start_every interval = Ok interval ->
  sw_open_for interval window <> Panic
  /\ (interval < window -> sw_open_for interval window = Err (SW_Inverted interval window))
  /\ (window <= interval -> window < us 2500 -> sw_open_for interval window = Err (SW_TooShort window)).
Proof.
  intros _. unfold sw_open_for. rewrite sw_validate_spec.
  destruct (N.ltb_spec interval window); [split; [discriminate|split; intros; first [reflexivity | lia]]|].
  destruct (N.ltb_spec window (us 2500)); [cbn [bind]; split; [discriminate|split; intros; first [reflexivity | lia]]|].
  destruct (ms 10240 <? window); cbn [bind]; (split; [discriminate|split; intros; lia]).
Qed.

Lemma sw_sent s : sw_reachable s ->
  @writes_front Empty_set (sw_copy_into_slice s) (scan_window_bytes s)
  /\ 0x0004 <= slots (sw_window s) /\ slots (sw_window s) <= slots (sw_interval s)
  /\ slots (sw_interval s) <= 0x4000.
Proof.
  intros H. apply sw_reachable_range in H. destruct H as (H1 & H2 & H3).
  split; [apply sw_copy_spec; assumption|]. unfold slots, slot. durations. lia.
Qed.
