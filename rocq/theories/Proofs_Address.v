(** * Addresses as numbers. *)
From Verif Require Import Base Model_Types Model_Host Spec_Wire Spec_Flags Spec_Adv Spec_Host
  Proofs_Base Proofs_Bits Proofs_Flags Proofs_Host.

Lemma number_bit l i : bytes l -> array_bit l i = N.testbit (number l) i.
Proof.
  intros H. revert i. induction H as [|b l Hb _ IH]; intros i.
  - unfold array_bit. cbn [number fold_right]. rewrite N.bits_0. now destruct (N.to_nat _).
  - cbn [number fold_right]. fold (number l).
    assert (Hm : b = (b + 256 * number l) mod 2 ^ 8) by (change (2 ^ 8) with 256; unfold byte in Hb; lia).
    assert (Hd : number l = (b + 256 * number l) / 2 ^ 8) by (change (2 ^ 8) with 256; unfold byte in Hb; lia).
    destruct (N.lt_ge_cases i 8) as [Hi|Hi].
    + unfold array_bit. rewrite N.div_small, N.mod_small by exact Hi. change (nth_error (b :: l) (N.to_nat 0)) with (Some b).
      rewrite <- (N.mod_pow2_bits_low (b + 256 * number l) 8 i Hi). now rewrite <- Hm.
    + replace (N.testbit (b + 256 * number l) i) with (N.testbit (number l) (i - 8)).
      2: { replace i with (i - 8 + 8) at 2 by lia. rewrite <- N.div_pow2_bits. now rewrite <- Hd. }
      rewrite <- IH. unfold array_bit.
      replace (N.to_nat (i / 8)) with (S (N.to_nat ((i - 8) / 8))) by lia.
      cbn [nth_error]. replace ((i - 8) mod 8) with (i mod 8) by lia. reflexivity.
Qed.

(** The bits [a .. a + n - 1] of [v]: some set, some clear. *)
Lemma bits_zero v n : v < 2 ^ N.of_nat n ->
  existsb (N.testbit v) (map N.of_nat (seq 0 n)) = negb (v =? 0).
Proof.
  intros Hv. destruct (N.eqb_spec v 0) as [->|Hne]; cbn [negb].
  - apply not_true_is_false. intros H. apply existsb_exists in H. destruct H as (x & _ & H).
    now rewrite N.bits_0 in H.
  - apply existsb_exists. exists (N.log2 v). split; [|now apply N.bit_log2].
    apply in_map_iff. exists (N.to_nat (N.log2 v)). split; [apply N2Nat.id|].
    apply in_seq. apply N.log2_lt_pow2 in Hv; lia.
Qed.

Lemma bits_ones v n : v < 2 ^ N.of_nat n ->
  existsb (fun i => negb (N.testbit v i)) (map N.of_nat (seq 0 n)) = negb (v =? 2 ^ N.of_nat n - 1).
Proof.
  intros Hv.
  assert (Hs : 2 ^ N.of_nat n - 1 - v < 2 ^ N.of_nat n) by lia.
  pose proof (bits_zero _ _ Hs) as H.
  assert (Hl : N.lnot v (N.of_nat n) = 2 ^ N.of_nat n - 1 - v).
  { destruct (N.eq_dec v 0) as [->|Hv0].
    - rewrite N.lnot_0_l, N.ones_equiv. lia.
    - rewrite N.lnot_sub_low; [rewrite N.ones_equiv; lia|]. apply N.log2_lt_pow2; lia. }
  rewrite <- Hl in H.
  replace (negb (v =? 2 ^ N.of_nat n - 1)) with (negb (N.lnot v (N.of_nat n) =? 0)).
  2: { f_equal. rewrite Hl. apply eq_true_iff_eq. rewrite !N.eqb_eq. lia. }
  rewrite <- H. apply eq_true_iff_eq. rewrite !existsb_exists.
  assert (B : forall x, In x (map N.of_nat (seq 0 n)) ->
                negb (N.testbit v x) = N.testbit (N.lnot v (N.of_nat n)) x).
  { intros x Hx. apply in_map_iff in Hx. destruct Hx as (k & <- & Hk). apply in_seq in Hk.
    rewrite N.lnot_spec_low by lia. reflexivity. }
  split; intros (x & Hx & Hb); exists x; (split; [exact Hx|]); [rewrite <- B|rewrite B]; assumption.
Qed.

Lemma existsb_shift (f g : N -> bool) a n : (forall i, g (i + N.of_nat a) = f i) ->
  existsb g (map N.of_nat (seq a n)) = existsb f (map N.of_nat (seq 0 n)).
Proof.
  intros H. replace (seq a n) with (map (fun i => (i + a)%nat) (seq 0 n)).
  - rewrite map_map. induction (seq 0 n) as [|x l IH]; [reflexivity|]. cbn [map existsb].
    rewrite IH, Nat2N.inj_add, H. reflexivity.
  - clear H. revert a. induction n as [|n IH]; intros a; [reflexivity|]. cbn [seq map]. f_equal.
    rewrite <- (IH (S a)), <- seq_shift, map_map. apply map_ext. intros x. lia.
Qed.
Lemma existsb_low v n k (f : bool -> bool) : (n <= k)%nat ->
  existsb (fun i => f (N.testbit v i)) (map N.of_nat (seq 0 n))
  = existsb (fun i => f (N.testbit (v mod 2 ^ N.of_nat n) i)) (map N.of_nat (seq 0 n)).
Proof.
  intros _. assert (G : forall l, (forall x, In x l -> x < N.of_nat n) ->
    existsb (fun i => f (N.testbit v i)) l = existsb (fun i => f (N.testbit (v mod 2 ^ N.of_nat n) i)) l).
  { induction l as [|x l IH]; intros Hl; [reflexivity|]. cbn [existsb].
    rewrite N.mod_pow2_bits_low by (apply Hl; now left). f_equal. apply IH. intros y Hy. apply Hl. now right. }
  apply G. intros x Hx. apply in_map_iff in Hx. destruct Hx as (k' & <- & Hk). apply in_seq in Hk. lia.
Qed.

Definition address_rule (v : N) : Prop :=
  ((v / 2 ^ 46 = 0 \/ v / 2 ^ 46 = 3) /\ 0 < v mod 2 ^ 46 < 2 ^ 46 - 1)
  \/ (v / 2 ^ 46 = 2 /\ 0 < (v / 2 ^ 24) mod 2 ^ 22 < 2 ^ 22 - 1).

Lemma number_bound l : bytes l -> number l < 256 ^ N.of_nat (length l).
Proof.
  induction 1 as [|b l Hb _ IH]; [reflexivity|]. cbn [number fold_right length]. fold (number l).
  rewrite Nat2N.inj_succ, N.pow_succ_r'. unfold byte in Hb. lia.
Qed.

Lemma some_not_all v n : v < 2 ^ N.of_nat n ->
  (existsb (N.testbit v) (map N.of_nat (seq 0 n))
   && existsb (fun i => negb (N.testbit v i)) (map N.of_nat (seq 0 n)))%bool = true
  <-> 0 < v < 2 ^ N.of_nat n - 1.
Proof.
  intros Hv. rewrite bits_zero, bits_ones by exact Hv. rewrite andb_true_iff, !negb_true_iff, !N.eqb_neq. lia.
Qed.

Lemma valid_number a : bd_addr_typed a ->
  valid_random_address a = true <-> address_rule (number a).
Proof.
  intros [Hl Hb]. pose proof (number_bound a Hb) as Hv. rewrite Hl in Hv.
  change (256 ^ N.of_nat 6) with (2 ^ 48) in Hv. set (v := number a) in *.
  assert (T : v / 2 ^ 46 = 2 * N.b2n (array_bit a 47) + N.b2n (array_bit a 46)).
  { rewrite !number_bit by exact Hb. fold v.
    rewrite (N.div_mod (v / 2 ^ 46) 2) by discriminate. rewrite <- N.bit0_mod.
    rewrite N.div_div by discriminate. change (2 ^ 46 * 2) with (2 ^ 47).
    assert (Hq : v / 2 ^ 47 < 2) by (apply N.div_lt_upper_bound; [discriminate|exact Hv]).
    replace (v / 2 ^ 47) with (N.b2n (N.testbit (v / 2 ^ 47) 0))
      by (rewrite N.bit0_mod, N.mod_small by exact Hq; reflexivity).
    rewrite !N.div_pow2_bits. reflexivity. }
  unfold valid_random_address, random_part, address_rule.
  assert (E1 : forall (f : bool -> bool) l, existsb (fun i => f (array_bit a i)) l
             = existsb (fun i => f (N.testbit v i)) l).
  { intros f l. induction l as [|x l IH]; [reflexivity|]. cbn [existsb].
    rewrite IH, number_bit by exact Hb. reflexivity. }
  assert (S46 : (existsb (array_bit a) (map N.of_nat (seq 0 46))
     && existsb (fun i => negb (array_bit a i)) (map N.of_nat (seq 0 46)))%bool = true
     <-> 0 < v mod 2 ^ 46 < 2 ^ 46 - 1).
  { rewrite (E1 (fun b => b)), (E1 negb), (existsb_low v 46 46 (fun b => b)), (existsb_low v 46 46 negb) by lia.
    apply (some_not_all (v mod 2 ^ N.of_nat 46) 46). apply N.mod_lt. discriminate. }
  assert (S22 : (existsb (array_bit a) (map N.of_nat (seq 24 22))
     && existsb (fun i => negb (array_bit a i)) (map N.of_nat (seq 24 22)))%bool = true
     <-> 0 < (v / 2 ^ 24) mod 2 ^ 22 < 2 ^ 22 - 1).
  { rewrite (E1 (fun b => b)), (E1 negb).
    rewrite (existsb_shift (fun i => N.testbit (v / 2 ^ 24) i) _ 24)
      by (intros i; now rewrite N.div_pow2_bits).
    rewrite (existsb_shift (fun i => negb (N.testbit (v / 2 ^ 24) i)) _ 24)
      by (intros i; now rewrite N.div_pow2_bits).
    rewrite (existsb_low (v / 2 ^ 24) 22 22 (fun b => b)), (existsb_low (v / 2 ^ 24) 22 22 negb) by lia.
    apply (some_not_all ((v / 2 ^ 24) mod 2 ^ N.of_nat 22) 22). apply N.mod_lt. discriminate. }
  rewrite T. destruct (array_bit a 47), (array_bit a 46); cbn [N.b2n];
    rewrite ?S46, ?S22; (split; [intros H|intros [[[H1|H1] H]|[H1 H]]]); try discriminate; try exact H; auto;
    try (left; split; [|exact H]; auto; fail); try (right; split; [reflexivity|exact H]).
Qed.
