(** * Getters; asking again for the parameters of a connection (proofs). *)
From Verif Require Import Base Model_Types Model_Bitflags Model_Intervals Model_EventBase Model_Event Model_Host
  Model_Access
  Spec_Wire Spec_Errors Spec_Interval Spec_Example Spec_Host Spec_Conform Spec_Sent Spec_Repeat
  Proofs_Base Proofs_Serialize Proofs_Interval Proofs_Time Proofs_Calls Proofs_Sent.
Open Scope list_scope.
Open Scope N_scope.

(** ** Getters *)
Lemma getters_built calls ci : build_after calls = Ok ci ->
  given_range calls = Some (ci_get_interval ci)
  /\ given_latency calls = Some (ci_get_conn_latency ci)
  /\ given_timeout calls = Some (ci_get_supervision_timeout ci).
Proof.
  intros H. apply build_accepts in H. destruct H as (a & b & l & t & R & L & T & _ & ->). now split.
Qed.

Lemma getters_received bs ci : bytes bs -> ci_from_bytes bs = Ok ci ->
  exists i m t rest, bs = le 2 i ++ le 2 m ++ le 2 (ci_get_conn_latency ci) ++ le 2 t ++ rest
    /\ u16 i /\ u16 m /\ u16 (ci_get_conn_latency ci) /\ u16 t
    /\ ci_get_interval ci = (i * interval_unit, m * interval_unit)
    /\ ci_get_supervision_timeout ci = t * timeout_unit.
Proof.
  intros B H. apply (ci_from_bytes_iff bs ci B) in H.
  destruct H as (i & m & l & t & rest & L & E & ->). exists i, m, t, rest.
  unfold legal_parameters in L. unfold u16. cbn. repeat split; try assumption; lia.
Qed.

Lemma getters_fixed bs ci : bytes bs -> fci_from_bytes bs = Ok ci ->
  exists i t rest, bs = le 2 i ++ le 2 (fci_get_conn_latency ci) ++ le 2 t ++ rest
    /\ u16 i /\ u16 (fci_get_conn_latency ci) /\ u16 t
    /\ fci_get_interval ci = i * interval_unit
    /\ fci_get_supervision_timeout ci = t * timeout_unit.
Proof.
  intros B H. apply (fci_from_bytes_iff bs ci B) in H.
  destruct H as (i & l & t & rest & L & E & ->). exists i, t, rest.
  unfold legal_parameters in L. unfold u16. cbn. repeat split; try assumption; lia.
Qed.

Lemma getters_decide a b : ci_get_interval a = ci_get_interval b ->
  ci_get_conn_latency a = ci_get_conn_latency b ->
  ci_get_supervision_timeout a = ci_get_supervision_timeout b -> a = b.
Proof. destruct a, b. unfold ci_get_interval, ci_get_conn_latency, ci_get_supervision_timeout. cbn. now intros -> -> ->. Qed.

Lemma getters_advertising F t min max a : duration_ok min -> duration_ok max ->
  aib_with_range F (ai_for_type t) min max = Ok a \/ aib_build (ai_for_type t) = Ok a ->
  ai_get_advertising_type a = t
  /\ exists times, length times = 4%nat
     /\ @writes_front Empty_set (ai_copy_into_slice a) (times ++ [advertising_type_code t]).
Proof.
  unfold aib_with_range, aib_build, ai_for_type. cbn [aib_advertising_type]. intros D1 D2 H.
  assert (T : ai_type a = t).
  { destruct H as [H|H].
    - unfold ai_with_range in H.
      repeat match type of H with (if ?b then _ else _) = _ => destruct b; try discriminate H end.
      injection H as <-. reflexivity.
    - apply ai_build_spec in H. destruct H as [_ ->]. reflexivity. }
  split; [exact T|].
  assert (R : ai_reachable F a).
  { destruct H as [H|H]; [left; now exists t, min, max|right; now exists t]. }
  apply ai_sent in R. destruct R as [W _]. unfold advertising_interval_bytes in W. rewrite T in W.
  eexists. split; [|exact W]. destruct t; reflexivity.
Qed.

Lemma getters_scan interval window b s : sw_start_every interval = Ok b -> sw_open_for b window = Ok s ->
  sw_get_interval s = interval /\ sw_get_window s = window.
Proof.
  unfold sw_start_every, sw_open_for, sw_validate. intros H K.
  repeat match type of H with (if ?b then _ else _) = _ => destruct b; try discriminate H end.
  injection H as <-. destruct (interval <? window); [discriminate K|].
  destruct (window <? from_micros 2500); [discriminate K|].
  destruct (from_millis 10240 <? window); [discriminate K|].
  injection K as <-. now split.
Qed.

Lemma scan_equal a b : sw_eqb a b = true <->
  sw_get_interval a = sw_get_interval b /\ sw_get_window a = sw_get_window b.
Proof. unfold sw_eqb. now rewrite Bool.andb_true_iff, !N.eqb_eq. Qed.

Lemma default_channels F : channels_default F = 7.
Proof. destruct F as [[] []]; reflexivity. Qed.

Lemma default_not_rejected F V E p : ap_channel_map p = channels_default F ->
  @rejection V E (CLeSetAdvertisingParameters p) = None.
Proof. intros H. rewrite default_channels in H. cbn [rejection]. rewrite H. reflexivity. Qed.

(** ** Asking again *)
Section Again.
Context (F : features) (V : vendor) (h : N) (Hh : u16 h)
        (len : expected_conn_length) (Hlen : ecl_reachable len).

Lemma report_is t : u16 (lt_interval t) -> u16 (lt_latency t) -> u16 (lt_timeout t) ->
  (legal_timing t -> event_new F V (timing_report h t)
     = Ok (EvLeConnectionUpdateComplete (Build_le_connection_update_complete Success h
         {| fci_interval := lt_interval t * interval_unit; fci_latency := lt_latency t;
            fci_timeout := lt_timeout t * timeout_unit |})))
  /\ (~ legal_timing t -> exists e, event_new F V (timing_report h t) = Err e).
Proof.
  intros U1 U2 U3.
  exact (updated_is F V {| asked_min := 0; asked_max := 0; asked_latency := lt_latency t;
                           asked_timeout := lt_timeout t |} (lt_interval t) h U1 U2 U3 Hh).
Qed.

Lemma ask_again_is t : legal_timing t ->
  ask_again {| fci_interval := lt_interval t * interval_unit; fci_latency := lt_latency t;
               fci_timeout := lt_timeout t * timeout_unit |}
  = Ok {| ci_interval := (lt_interval t * interval_unit, lt_interval t * interval_unit);
          ci_latency := lt_latency t; ci_timeout := lt_timeout t * timeout_unit |}.
Proof.
  intros L. unfold ask_again. apply build_accepts.
  do 4 eexists. split; [reflexivity|]. split; [reflexivity|]. split; [reflexivity|].
  split; [|reflexivity].
  unfold fci_get_interval, fci_get_conn_latency, fci_get_supervision_timeout.
  cbn [fci_interval fci_latency fci_timeout].
  unfold legal_timing, legal_parameters in L. unfold legal_interval, us, ms, interval_unit, timeout_unit.
  nia.
Qed.

Lemma round_exactly t t' : typed_timing t ->
  round F V h len t t' <->
  legal_timing t
  /\ t' = with_interval t (if lt_interval t mod 4 =? 0 then lt_interval t else lt_interval t - 1).
Proof.
  intros (U1 & U2 & U3). destruct (report_is t U1 U2 U3) as [R1 R2].
  set (ci := {| ci_interval := (lt_interval t * interval_unit, lt_interval t * interval_unit);
                ci_latency := lt_latency t; ci_timeout := lt_timeout t * timeout_unit |}).
  set (p := Build_connection_update_parameters h ci len).
  assert (HA : legal_timing t -> arguments_typed F (CLeConnectionUpdate (V := V) p)).
  { intros L. split; [exact Hh|]. split; [|exact Hlen]. left. eexists. exact (ask_again_is t L). }
  assert (HS : legal_timing t -> forall header params,
    In (header, params) (sent F V uart_header (CLeConnectionUpdate p)) ->
    asked params 2 = {| asked_min := if lt_interval t mod 4 =? 0 then lt_interval t else lt_interval t - 1;
                        asked_max := if lt_interval t mod 4 =? 0 then lt_interval t else lt_interval t - 1;
                        asked_latency := lt_latency t; asked_timeout := lt_timeout t |}).
  { intros L header params Hin. rewrite (asked_update F V p header params (HA L) Hin).
    subst p ci. cbn [cu_conn_interval ci_interval ci_latency ci_timeout fst snd].
    rewrite sent_wire. f_equal. now rewrite N.div_mul. }
  split.
  - intros X. destruct X as [t e ci' header params t' E1 E2 E3 E4 E5 E6 E7].
    assert (L : legal_timing t).
    { unfold legal_timing, legal_parameters.
      destruct (N.le_gt_cases 6 (lt_interval t)) as [A1|A1];
      [destruct (N.le_gt_cases (lt_interval t) 3200) as [A2|A2];
      [destruct (N.le_gt_cases (lt_latency t) 499) as [A3|A3];
      [destruct (N.lt_ge_cases 10 (lt_timeout t)) as [A4|A4];
      [destruct (N.le_gt_cases (lt_timeout t) 3200) as [A5|A5];
      [destruct (N.lt_ge_cases ((1 + lt_latency t) * lt_interval t) (4 * lt_timeout t)) as [A6|A6];
       [repeat split; (assumption || apply N.le_refl)|]|]|]|]|]|];
      exfalso; (destruct R2 as [x R2]; [unfold legal_timing, legal_parameters; intros L; lia|]);
      rewrite R2 in E1; discriminate E1. }
    specialize (R1 L). rewrite R1 in E1. injection E1 as <-.
    cbn [lcu_conn_interval lcu_conn_handle] in *.
    rewrite (ask_again_is t L) in E2. injection E2 as <-.
    split; [exact L|]. rewrite (HS L _ _ E3) in E4, E5, E6, E7.
    cbn [asked_min asked_max asked_latency asked_timeout] in *.
    destruct t' as [i' l' t']. cbn [lt_interval lt_latency lt_timeout] in *. subst l' t'.
    unfold with_interval. f_equal. lia.
  - intros [L ->].
    pose proof (sent_spec F V uart_header uart_header_bytes _ (or_introl eq_refl) (HA L)) as E.
    cbn [rejection] in E.
    assert (Hin : In (uart_header_bytes (command_opcode (CLeConnectionUpdate (V := V) p))
        (length (command_params (CLeConnectionUpdate (V := V) p))), command_params (CLeConnectionUpdate (V := V) p))
        (sent F V uart_header (CLeConnectionUpdate p))) by (rewrite E; now left).
    refine (Round F V h len t _ ci _ _ _ (R1 L) (ask_again_is t L) Hin _ _ _ _);
      rewrite (HS L _ _ Hin); cbn [asked_min asked_max asked_latency asked_timeout with_interval lt_interval lt_latency lt_timeout];
      try apply N.le_refl; reflexivity.
Qed.

Lemma legal_lower t i : legal_timing t -> 6 <= i -> i <= lt_interval t -> legal_timing (with_interval t i).
Proof. unfold legal_timing, legal_parameters, with_interval. cbn. intros H A B. nia. Qed.

Lemma legal_typed t : legal_timing t -> typed_timing t.
Proof. unfold legal_timing, legal_parameters, typed_timing, u16. lia. Qed.

Lemma with_interval_same t : with_interval t (lt_interval t) = t.
Proof. now destruct t. Qed.
Lemma with_interval_twice t i j : with_interval (with_interval t i) j = with_interval t j.
Proof. reflexivity. Qed.

Lemma rounds_exactly n : forall t t', legal_timing t -> 8 <= lt_interval t ->
  rounds F V h len n t t' <->
  t' = with_interval t (N.max (lt_interval t - N.of_nat n) (4 * (lt_interval t / 4))).
Proof.
  induction n as [|n IH]; intros t t' L H8.
  - split.
    + intros X. inversion X; subst. rewrite <- (with_interval_same t') at 1. f_equal. lia.
    + intros ->. replace (N.max _ _) with (lt_interval t) by lia. rewrite with_interval_same. constructor.
  - set (i := lt_interval t) in *.
    set (j := if i mod 4 =? 0 then i else i - 1).
    assert (J : 8 <= j /\ j <= i /\ N.max (j - N.of_nat n) (4 * (j / 4)) = N.max (i - N.of_nat (S n)) (4 * (i / 4))).
    { subst j. destruct (N.eqb_spec (i mod 4) 0); lia. }
    destruct J as (J1 & J2 & J3).
    assert (L' : legal_timing (with_interval t j)) by (apply legal_lower; [exact L|lia|exact J2]).
    specialize (IH (with_interval t j) t' L' J1). cbn [with_interval lt_interval] in IH.
    rewrite with_interval_twice in IH. rewrite J3 in IH. rewrite <- IH. split.
    + intros X. inversion X as [|? ? m ? R R']; subst.
      apply (round_exactly t _ (legal_typed t L)) in R. destruct R as [_ ->]. exact R'.
    + intros X. econstructor; [|exact X]. apply (round_exactly t _ (legal_typed t L)). now split.
Qed.

Lemma rounds_lost t : legal_timing t -> lt_interval t < 8 ->
  exists t', rounds F V h len (N.to_nat (lt_interval t - 5)) t t' /\ t' = with_interval t 5
  /\ exists e, event_new F V (timing_report h t') = Err e.
Proof.
  intros L H8. exists (with_interval t 5).
  assert (L5 : typed_timing (with_interval t 5)).
  { destruct (legal_typed t L) as (_ & B & C). split; [reflexivity|]. now split. }
  assert (Hi : lt_interval t = 6 \/ lt_interval t = 7) by (unfold legal_timing, legal_parameters in L; lia).
  assert (R6 : forall t, lt_interval t = 6 -> legal_timing t -> round F V h len t (with_interval t 5)).
  { intros u E Lu. apply (round_exactly u _ (legal_typed u Lu)). split; [exact Lu|]. now rewrite E. }
  split; [|split; [reflexivity|]].
  - destruct Hi as [E|E]; rewrite E; cbn [N.sub N.to_nat Pos.to_nat].
    + econstructor; [now apply R6|constructor].
    + apply Rounds_more with (with_interval t 6).
      * apply (round_exactly t _ (legal_typed t L)). split; [exact L|]. now rewrite E.
      * econstructor; [|constructor].
        change (with_interval t 5) with (with_interval (with_interval t 6) 5).
        apply R6; [reflexivity|]. apply legal_lower; [exact L|lia|lia].
  - destruct L5 as (A & B & C). apply (report_is _ A B C).
    unfold legal_timing, legal_parameters. cbn. lia.
Qed.
End Again.

(** An interval of 11.25 ms becomes 10 ms. *)
Definition short_link : link_timing := {| lt_interval := 9; lt_latency := 2; lt_timeout := 200 |}.
Lemma again_refuted F V : exists h len t t', u16 h /\ ecl_reachable len /\ legal_timing t
  /\ round F V h len t t' /\ lt_interval t' <> lt_interval t.
Proof.
  exists 1, no_length, short_link, (with_interval short_link 8).
  assert (L : legal_timing short_link) by (unfold legal_timing, legal_parameters; cbn; lia).
  split; [reflexivity|]. split; [exact no_length_reachable|]. split; [exact L|]. split; [|discriminate].
  apply round_exactly; [reflexivity|exact no_length_reachable|now apply legal_typed|]. now split.
Qed.

(** ** The default builder *)
Lemma default_builder calls : cib_build (fold_left apply_call calls cib_default) = build_after calls.
Proof. reflexivity. Qed.
