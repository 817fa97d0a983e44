(** * Time parameters. *)
From Verif Require Import Base Model_Types Model_Intervals Spec_Wire Spec_Interval
  Model_EventBase Model_Command Model_Event Proofs_Base.

Lemma checked_ok {E} b v : v < b -> @checked E b v = Ok v.
Proof. intros H. unfold checked. destruct (N.ltb_spec v b); [reflexivity|lia]. Qed.

Ltac durations :=
  unfold u32_bound, u64_bound, as_u32, as_u16, as_secs, subsec_millis, subsec_micros,
    nanos_per_sec, from_micros, from_millis, from_secs, us, ms, interval_unit, timeout_unit in *;
  change (2 ^ 32) with 4294967296 in *; change (2 ^ 64) with 18446744073709551616 in *;
  change (2 ^ 16) with 65536 in *.

Lemma duration_mul_ok {E} d k : d * k < duration_bound -> @duration_mul E d k = Ok (d * k).
Proof. apply checked_ok. Qed.

Lemma duration_bound_value : duration_bound = 18446744073709551616000000000.
Proof. reflexivity. Qed.

(** ** The builder *)
Lemma cib_build_some min max latency timeout :
  cib_build {| b_interval := Some (min, max); b_latency := Some latency; b_timeout := Some timeout |}
  = match first_failure (interval_checks min max latency timeout) with
    | Some e => Err e
    | None => Ok {| ci_interval := (min, max); ci_latency := latency; ci_timeout := timeout |}
    end.
Proof.
  unfold cib_build, interval_checks. cbn [b_interval b_latency b_timeout fst snd first_failure].
  change (from_micros 7500) with (us 7500).
  change (from_secs 4) with (ms 4000).
  destruct (min <? us 7500); [reflexivity|].
  destruct (N.ltb_spec (ms 4000) max) as [|Hmax]; [reflexivity|].
  destruct (max <? min); [reflexivity|].
  change 0x1F3 with 499.
  destruct (N.ltb_spec 499 latency) as [|Hlat]; [reflexivity|].
  rewrite checked_ok by (durations; lia). cbn [bind].
  assert (max * (1 + latency) <= 4000000000 * 500) by (apply N.mul_le_mono; durations; lia).
  rewrite duration_mul_ok by (rewrite duration_bound_value; lia). cbn [bind].
  rewrite duration_mul_ok by (rewrite duration_bound_value; lia). cbn [bind].
  replace (max * (1 + latency) * 2) with (2 * (1 + latency) * max) by lia.
  change (from_secs 32) with (ms 32000). change (from_millis 100) with (ms 100).
  destruct (ms 32000 <=? 2 * (1 + latency) * max); [reflexivity|].
  destruct (timeout <=? N.max (2 * (1 + latency) * max) (ms 100)); [reflexivity|].
  destruct (ms 32000 <? timeout); reflexivity.
Qed.

Lemma no_failure_iff min max latency timeout :
  first_failure (interval_checks min max latency timeout) = None
  <-> legal_interval min max latency timeout.
Proof.
  unfold interval_checks, legal_interval. cbn [first_failure].
  set (needed := 2 * (1 + latency) * max).
  destruct (N.ltb_spec min (us 7500)); [split; intros; [discriminate|lia]|].
  destruct (N.ltb_spec (ms 4000) max); [split; intros; [discriminate|lia]|].
  destruct (N.ltb_spec max min); [split; intros; [discriminate|lia]|].
  destruct (N.ltb_spec 499 latency); [split; intros; [discriminate|lia]|].
  destruct (N.leb_spec (ms 32000) needed); [split; intros; [discriminate|lia]|].
  destruct (N.leb_spec timeout (N.max needed (ms 100))); [split; intros; [discriminate|lia]|].
  destruct (N.ltb_spec (ms 32000) timeout); [split; intros; [discriminate|lia]|].
  split; intros; [lia|reflexivity].
Qed.

Lemma apply_calls calls b :
  fold_left apply_call calls b =
  {| b_interval := last_given (fun c => match c with WithRange a b => Some (a, b) | _ => None end)
                     calls (b_interval b);
     b_latency := last_given (fun c => match c with WithLatency l => Some l | _ => None end)
                    calls (b_latency b);
     b_timeout := last_given (fun c => match c with WithTimeout t => Some t | _ => None end)
                    calls (b_timeout b) |}.
Proof.
  revert b. induction calls as [|c calls IH]; intros b; [destruct b; reflexivity|].
  cbn [fold_left last_given]. rewrite IH. destruct c; reflexivity.
Qed.

Lemma build_after_spec calls :
  build_after calls =
  match given_range calls, given_latency calls, given_timeout calls with
  | Some (min, max), Some latency, Some timeout =>
      match first_failure (interval_checks min max latency timeout) with
      | Some e => Err e
      | None => Ok {| ci_interval := (min, max); ci_latency := latency; ci_timeout := timeout |}
      end
  | _, _, _ => Err Incomplete
  end.
Proof.
  unfold build_after. rewrite apply_calls. cbn [b_interval b_latency b_timeout cib_new].
  fold (given_range calls) (given_latency calls) (given_timeout calls).
  destruct (given_range calls) as [[min max]|]; [|reflexivity].
  destruct (given_latency calls); [|reflexivity].
  destruct (given_timeout calls); [|reflexivity].
  apply cib_build_some.
Qed.

(** ** From bytes *)
Lemma legal_wire i1 i2 latency t :
  legal_interval (i1 * interval_unit) (i2 * interval_unit) latency (t * timeout_unit)
  <-> legal_parameters i1 i2 latency t.
Proof.
  unfold legal_interval, legal_parameters. durations.
  replace (2 * (1 + latency) * (i2 * 1250000)) with (((1 + latency) * i2) * 2500000) by lia.
  generalize ((1 + latency) * i2). intros x. lia.
Qed.

Lemma scale_ok {E} a b (u : N) : byte a -> byte b -> u <= 10000000 ->
  @duration_mul E u (a + 256 * b) = Ok ((a + 256 * b) * u).
Proof.
  unfold byte. intros Ha Hb Hu. rewrite duration_mul_ok; [f_equal; lia|].
  rewrite duration_bound_value.
  assert (u * (a + 256 * b) <= 10000000 * 65536) by (apply N.mul_le_mono; lia). lia.
Qed.

Lemma fci_from_bytes_eq a0 a1 l0 l1 t0 t1 rest :
  byte a0 -> byte a1 -> byte t0 -> byte t1 ->
  let i := a0 + 256 * a1 in let latency := l0 + 256 * l1 in let t := t0 + 256 * t1 in
  fci_from_bytes (a0 :: a1 :: l0 :: l1 :: t0 :: t1 :: rest)
  = match first_failure (interval_checks (i * interval_unit) (i * interval_unit)
                           latency (t * timeout_unit)) with
    | Some e => Err e
    | None => Ok {| fci_interval := i * interval_unit; fci_latency := latency;
                    fci_timeout := t * timeout_unit |}
    end.
Proof.
  intros Ha0 Ha1 Ht0 Ht1 i latency t.
  unfold fci_from_bytes. cbn -[duration_mul cib_build interval_unit timeout_unit from_micros from_millis first_failure].
  change (from_micros 1250) with interval_unit. change (from_millis 10) with timeout_unit.
  rewrite scale_ok by (try assumption; vm_compute; discriminate). cbn [bind].
  rewrite scale_ok by (try assumption; vm_compute; discriminate). cbn [bind].
  fold i latency t.
  unfold cib_with_range, cib_with_latency, cib_with_supervision_timeout, cib_new.
  cbn [b_interval b_latency b_timeout]. rewrite cib_build_some.
  destruct (first_failure _); reflexivity.
Qed.

Lemma ci_from_bytes_eq a0 a1 m0 m1 l0 l1 t0 t1 rest :
  byte a0 -> byte a1 -> byte m0 -> byte m1 -> byte t0 -> byte t1 ->
  let i := a0 + 256 * a1 in let m := m0 + 256 * m1 in
  let latency := l0 + 256 * l1 in let t := t0 + 256 * t1 in
  ci_from_bytes (a0 :: a1 :: m0 :: m1 :: l0 :: l1 :: t0 :: t1 :: rest)
  = match first_failure (interval_checks (i * interval_unit) (m * interval_unit)
                           latency (t * timeout_unit)) with
    | Some e => Err e
    | None => Ok {| ci_interval := (i * interval_unit, m * interval_unit);
                    ci_latency := latency; ci_timeout := t * timeout_unit |}
    end.
Proof.
  intros Ha0 Ha1 Hm0 Hm1 Ht0 Ht1 i m latency t.
  unfold ci_from_bytes. cbn -[duration_mul cib_build interval_unit timeout_unit from_micros from_millis first_failure].
  change (from_micros 1250) with interval_unit. change (from_millis 10) with timeout_unit.
  rewrite scale_ok by (try assumption; vm_compute; discriminate). cbn [bind].
  rewrite scale_ok by (try assumption; vm_compute; discriminate). cbn [bind].
  rewrite scale_ok by (try assumption; vm_compute; discriminate). cbn [bind].
  fold i m latency t.
  unfold cib_with_range, cib_with_latency, cib_with_supervision_timeout, cib_new.
  cbn [b_interval b_latency b_timeout]. rewrite cib_build_some.
  destruct (first_failure _); reflexivity.
Qed.

(** Decoding six bytes: exactly the legal parameters. *)
Lemma fci_from_bytes_ok bs ci : bytes bs -> length bs = 6%nat ->
  (fci_from_bytes bs = Ok ci <-> fixed_interval_bytes ci bs).
Proof.
  intros Hb Hl. destruct_len Hl. bytes_inv.
  rewrite fci_from_bytes_eq by assumption. cbv zeta.
  match goal with |- context [interval_checks ?a ?b ?c ?d] =>
    destruct (first_failure (interval_checks a b c d)) eqn:E end.
  - split; [discriminate|]. intros (i & t & Hleg & Hi & Ht & Heq).
    rewrite !le_2 in Heq. cbn [app] in Heq. injection Heq as -> -> -> -> -> ->. exfalso.
    unfold legal_parameters in Hleg.
    rewrite !read_le_2 in E by (unfold u16; change (2 ^ 16) with 65536; lia).
    assert (K := proj2 (legal_wire i i (fci_latency ci) t) Hleg).
    apply no_failure_iff in K. congruence.
  - apply no_failure_iff, legal_wire in E. split.
    + intros HX. injection HX as <-. unfold fixed_interval_bytes. cbn [fci_interval fci_latency fci_timeout].
      eexists _, _. split; [exact E|]. split; [reflexivity|]. split; [reflexivity|].
      rewrite !le_2_of_bytes by assumption. reflexivity.
    + intros (i & t & Hleg & Hi & Ht & Heq).
      rewrite !le_2 in Heq. cbn [app] in Heq. injection Heq as -> -> -> -> -> ->.
      unfold legal_parameters in Hleg.
      rewrite !read_le_2 by (unfold u16; change (2 ^ 16) with 65536; lia).
      destruct ci; cbn in *; subst; reflexivity.
Qed.

(** ** To bytes *)

(** The unit count sent for an interval: 0.8 per whole millisecond, rounded
    down. *)
Lemma interval_as_u16_eq {E} d : d <= ms 4000 ->
  @interval_as_u16 E d = Ok (4 * (d / 1000000) / 5).
Proof.
  intros H. unfold interval_as_u16. durations.
  rewrite checked_ok by lia. cbn [bind]. rewrite checked_ok by lia. cbn [bind].
  rewrite checked_ok by lia. cbn [bind]. f_equal. lia.
Qed.

Lemma timeout_as_u16_eq {E} d : d <= ms 32000 ->
  @timeout_as_u16 E d = Ok (d / timeout_unit).
Proof.
  intros H. unfold timeout_as_u16. durations.
  rewrite checked_ok by lia. cbn [bind]. rewrite checked_ok by lia. cbn [bind].
  f_equal. lia.
Qed.

Definition scan_unit : N := 625000.

Lemma duration_as_u16_eq {E} d : d <= us 40959375 ->
  @duration_as_u16 E d = Ok (d / scan_unit).
Proof.
  intros H. unfold duration_as_u16, scan_unit. durations.
  rewrite checked_ok by lia. cbn [bind]. rewrite checked_ok by lia. cbn [bind].
  f_equal. lia.
Qed.

(** Exactly when the sent interval is one unit below the true one. *)
Definition loses_unit (d : N) : bool :=
  let r := d / 1000000 mod 5 in
  (1 <=? r) && (r <=? 3) && (r * 250000 <=? d mod 1000000).

Lemma interval_units d :
  4 * (d / 1000000) / 5 + (if loses_unit d then 1 else 0) = d / interval_unit.
Proof.
  unfold loses_unit, interval_unit.
  assert (H : d = 1000000 * (d / 1000000) + d mod 1000000) by (apply N.div_mod; discriminate).
  assert (Hm : d mod 1000000 < 1000000) by (apply N.mod_lt; discriminate).
  set (k := d / 1000000) in *. set (f := d mod 1000000) in *. clearbody k f. subst d.
  assert (Hk : k = 5 * (k / 5) + k mod 5) by (apply N.div_mod; discriminate).
  assert (Hr : k mod 5 < 5) by (apply N.mod_lt; discriminate).
  set (q := k / 5) in *. set (r := k mod 5) in *. clearbody q r. subst k.
  destruct (N.leb_spec 1 r), (N.leb_spec r 3), (N.leb_spec (r * 250000) f); cbn [andb]; try lia.
  all: assert (r = 0 \/ r = 1 \/ r = 2 \/ r = 3 \/ r = 4) as [->|[->|[->|[->| ->]]]] by lia; lia.
Qed.

Lemma loses_unit_wire v : loses_unit (v * interval_unit) = negb (v mod 4 =? 0).
Proof.
  unfold loses_unit, interval_unit.
  assert (Hv : exists q r, v = 4 * q + r /\ r < 4).
  { exists (v / 4), (v mod 4). split; [apply N.div_mod; discriminate|apply N.mod_lt; discriminate]. }
  destruct Hv as (q & r & -> & Hr).
  assert (C : r = 0 \/ r = 1 \/ r = 2 \/ r = 3) by lia.
  destruct C as [-> | [-> | [-> | ->]]].
  - replace ((4 * q + 0) * 1250000 / 1000000 mod 5) with 0 by lia.
    replace ((4 * q + 0) mod 4) with 0 by lia. reflexivity.
  - replace ((4 * q + 1) * 1250000 / 1000000 mod 5) with 1 by lia.
    replace ((4 * q + 1) * 1250000 mod 1000000) with 250000 by lia.
    replace ((4 * q + 1) mod 4) with 1 by lia. reflexivity.
  - replace ((4 * q + 2) * 1250000 / 1000000 mod 5) with 2 by lia.
    replace ((4 * q + 2) * 1250000 mod 1000000) with 500000 by lia.
    replace ((4 * q + 2) mod 4) with 2 by lia. reflexivity.
  - replace ((4 * q + 3) * 1250000 / 1000000 mod 5) with 3 by lia.
    replace ((4 * q + 3) * 1250000 mod 1000000) with 750000 by lia.
    replace ((4 * q + 3) mod 4) with 3 by lia. reflexivity.
Qed.
