(** * Bit fields: the [bitflags!] types and the decoded flag arrays. *)
From Verif Require Import Base Model_Types Model_Bitflags Model_Intervals
  Model_EventBase Model_Command Model_Event Spec_Wire Proofs_Base.

Lemma bits_finite a (d : N -> bool) :
  a < 2 ^ 64 -> (forall i, 64 <= i -> d i = false) ->
  forallb (fun i => Bool.eqb (N.testbit a i) (d i)) (map N.of_nat (seq 0 64)) = true ->
  forall i, N.testbit a i = d i.
Proof.
  intros Ha Hd Hall i. destruct (N.ltb_spec i 64) as [Hi|Hi].
  - rewrite forallb_forall in Hall. apply Bool.eqb_prop. apply Hall.
    apply (below_cases 64). exact Hi.
  - rewrite Hd by exact Hi. destruct (N.eq_dec a 0) as [->|Hn].
    + apply N.bits_0.
    + apply N.bits_above_log2. apply N.log2_lt_pow2 in Ha; lia.
Qed.

Lemma le_feature_bits F i :
  N.testbit (bf_all F LinkLayerFeature) i = le_feature_defined F i.
Proof.
  revert i. apply bits_finite.
  - destruct F as [[] []]; vm_compute; reflexivity.
  - intros i Hi. unfold le_feature_defined.
    destruct F as [[] []]; cbn [version_4_2 version_5_0 orb andb]; lia.
  - destruct F as [[] []]; vm_compute; reflexivity.
Qed.

Lemma le_local_feature_bits F i :
  N.testbit (bf_all F LeFeatures) i = le_feature_defined F i.
Proof.
  revert i. apply bits_finite.
  - destruct F as [[] []]; vm_compute; reflexivity.
  - intros i Hi. unfold le_feature_defined.
    destruct F as [[] []]; cbn [version_4_2 version_5_0 orb andb]; lia.
  - destruct F as [[] []]; vm_compute; reflexivity.
Qed.

Lemma lmp_feature_bits F i :
  N.testbit (bf_all F LmpFeatures) i = lmp_feature_defined i.
Proof.
  revert i. apply bits_finite.
  - destruct F as [[] []]; vm_compute; reflexivity.
  - intros i Hi. unfold lmp_feature_defined. destruct (N.ltb_spec i 64); [lia|reflexivity].
  - destruct F as [[] []]; vm_compute; reflexivity.
Qed.

Lemma le_state_bits F i :
  N.testbit (bf_all F LeStates) i = le_state_defined i.
Proof.
  revert i. apply bits_finite.
  - destruct F as [[] []]; vm_compute; reflexivity.
  - intros i Hi. unfold le_state_defined. lia.
  - destruct F as [[] []]; vm_compute; reflexivity.
Qed.

Lemma ldiff_zero_iff v m :
  N.ldiff v m = 0 <-> forall i, N.testbit v i = true -> N.testbit m i = true.
Proof.
  split.
  - intros H i Hv. destruct (N.testbit m i) eqn:Hm; [reflexivity|].
    assert (N.testbit (N.ldiff v m) i = true) by (rewrite N.ldiff_spec, Hv, Hm; reflexivity).
    rewrite H, N.bits_0 in *. discriminate.
  - intros H. apply N.bits_inj. intros i. rewrite N.ldiff_spec, N.bits_0.
    specialize (H i). destruct (N.testbit v i); [|reflexivity]. now rewrite H.
Qed.

(** [from_bits] accepts exactly the values without undefined bits. *)
Lemma bf_from_bits_spec F d (defined : N -> bool) v :
  (forall i, N.testbit (bf_all F d) i = defined i) ->
  (bf_from_bits F d v = Some v /\ only_defined defined (N.testbit v))
  \/ (bf_from_bits F d v = None /\ ~ only_defined defined (N.testbit v)).
Proof.
  intros Hd. unfold bf_from_bits, only_defined.
  destruct (N.eqb_spec (N.ldiff v (bf_all F d)) 0) as [H|H].
  - left. split; [reflexivity|]. intros i Hi. rewrite <- Hd. eapply ldiff_zero_iff; eauto.
  - right. split; [reflexivity|]. intros Hn. apply H. apply ldiff_zero_iff.
    intros i Hi. rewrite Hd. auto.
Qed.

Lemma bf_truncate_spec F d (defined : N -> bool) v :
  (forall i, N.testbit (bf_all F d) i = defined i) ->
  forall i, N.testbit (bf_from_bits_truncate F d v) i = (N.testbit v i && defined i)%bool.
Proof. intros Hd i. unfold bf_from_bits_truncate. now rewrite N.land_spec, Hd. Qed.

(** ** Flag arrays *)
Lemma octet_allowed p a : byte p -> byte a ->
  (N.land p (255 - a) = 0 <-> forall j, N.testbit p j = true -> N.testbit a j = true).
Proof.
  intros Hp Ha.
  replace (N.land p (255 - a)) with (N.ldiff p a).
  - apply ldiff_zero_iff.
  - apply N.bits_inj. intros j. rewrite N.land_spec, N.ldiff_spec.
    destruct (N.ltb_spec j 8) as [Hj|Hj].
    + f_equal. apply (below_cases 8) in Hj. apply (below_cases 256) in Ha.
      assert (K : forallb (fun a => forallb (fun j =>
          Bool.eqb (negb (N.testbit a j)) (N.testbit (255 - a) j))
          (map N.of_nat (seq 0 8))) (map N.of_nat (seq 0 256)) = true) by (vm_compute; reflexivity).
      rewrite forallb_forall in K. specialize (K _ Ha). rewrite forallb_forall in K.
      apply Bool.eqb_prop. now apply K.
    + assert (N.testbit p j = false) as ->; [|reflexivity].
      destruct (N.eq_dec p 0) as [->|Hn]; [apply N.bits_0|].
      apply N.bits_above_log2. unfold byte in Hp. change 256 with (2 ^ 8) in Hp.
      apply N.log2_lt_pow2 in Hp; lia.
Qed.

(** The boolean computed by the loop of [from_bits]. *)
Definition octets_allowed (bits all : list N) : bool :=
  forallb (fun p => N.land (fst p) (255 - snd p) =? 0) (combine bits all).

Lemma ba_check_spec {E} pre1 pre2 bits all :
  length pre1 = length pre2 -> length bits = length all ->
  @ba_check E (pre1 ++ bits) (pre2 ++ all) (length pre1) (length bits)
  = Ok (octets_allowed bits all).
Proof.
  intros Hpre Hlen. revert pre1 pre2 all Hpre Hlen.
  induction bits as [|p bits IH]; intros pre1 pre2 all Hpre Hlen; [reflexivity|].
  destruct all as [|a all]; [discriminate|]. injection Hlen as Hlen.
  assert (Hp : nth_error (pre1 ++ p :: bits) (length pre1) = Some p)
    by (rewrite nth_error_app2, Nat.sub_diag by lia; reflexivity).
  assert (Ha : nth_error (pre2 ++ a :: all) (length pre1) = Some a)
    by (rewrite nth_error_app2, Hpre, Nat.sub_diag by lia; reflexivity).
  cbn [length ba_check]. unfold idx. rewrite Hp, Ha. cbn [bind].
  unfold octets_allowed. cbn [combine forallb fst snd].
  destruct (N.land p (255 - a) =? 0); [|reflexivity]. cbn [andb].
  specialize (IH (pre1 ++ [p]) (pre2 ++ [a]) all).
  rewrite <- !app_assoc in IH. cbn [app] in IH.
  rewrite app_length in IH. cbn [length] in IH.
  replace (length pre1 + 1)%nat with (S (length pre1)) in IH by lia.
  rewrite IH; [reflexivity| |assumption].
  rewrite app_length. cbn [length]. lia.
Qed.

Lemma ba_from_bits_spec {E} F size d all bits :
  ba_all F size d = @Ok E _ all -> length all = size -> length bits = size ->
  @ba_from_bits E F size d bits = Ok (if octets_allowed bits all then Some bits else None).
Proof.
  intros Hall Hla Hlb. unfold ba_from_bits.
  rewrite Hlb, Nat.eqb_refl. cbn [assert bind]. rewrite Hall. cbn [bind].
  assert (K := @ba_check_spec E [] [] bits all eq_refl). cbn [app length] in K.
  rewrite Hlb in K. rewrite K by congruence. cbn [bind].
  destruct (octets_allowed bits all); [|reflexivity].
  unfold copy_from_slice, zeros. rewrite repeat_length, Hlb, Nat.eqb_refl. reflexivity.
Qed.

Lemma nth_error_combine {A B} (l1 : list A) (l2 : list B) n :
  nth_error (combine l1 l2) n =
  match nth_error l1 n, nth_error l2 n with Some a, Some b => Some (a, b) | _, _ => None end.
Proof.
  revert l2 n. induction l1 as [|a l1 IH]; intros [|b l2] [|n]; simpl; try reflexivity.
  - now destruct (nth_error l1 n).
  - apply IH.
Qed.

Lemma octets_allowed_iff bits all :
  bytes bits -> bytes all -> length bits = length all ->
  (octets_allowed bits all = true <-> only_defined (array_bit all) (array_bit bits)).
Proof.
  intros Hb Ha Hlen. unfold octets_allowed. rewrite forallb_forall. unfold only_defined, array_bit.
  split.
  - intros H i Hi. destruct (nth_error bits (N.to_nat (i / 8))) as [p|] eqn:Ep; [|discriminate].
    destruct (nth_error all (N.to_nat (i / 8))) as [a|] eqn:Ea.
    2:{ apply nth_error_None in Ea. assert (nth_error bits (N.to_nat (i / 8)) <> None) by congruence.
        apply nth_error_Some in H0. lia. }
    assert (K : N.land p (255 - a) = 0).
    { apply N.eqb_eq. apply (H (p, a)). eapply nth_error_In.
      rewrite nth_error_combine, Ep, Ea. reflexivity. }
    assert (Hbp : byte p)
      by (unfold bytes in Hb; rewrite Forall_forall in Hb; apply Hb; eapply nth_error_In; eauto).
    assert (Hba : byte a)
      by (unfold bytes in Ha; rewrite Forall_forall in Ha; apply Ha; eapply nth_error_In; eauto).
    exact (proj1 (octet_allowed p a Hbp Hba) K _ Hi).
  - intros H [p a] Hin. apply In_nth_error in Hin. destruct Hin as [n Hn].
    rewrite nth_error_combine in Hn.
    destruct (nth_error bits n) as [p'|] eqn:Ep; [|discriminate].
    destruct (nth_error all n) as [a'|] eqn:Ea; [|discriminate].
    injection Hn as -> ->. cbn [fst snd]. apply N.eqb_eq.
    assert (Hbp : byte p)
      by (unfold bytes in Hb; rewrite Forall_forall in Hb; apply Hb; eapply nth_error_In; eauto).
    assert (Hba : byte a)
      by (unfold bytes in Ha; rewrite Forall_forall in Ha; apply Ha; eapply nth_error_In; eauto).
    apply octet_allowed; [assumption..|]. intros j Hj.
    assert (j < 8).
    { destruct (N.ltb_spec j 8); [assumption|]. exfalso.
      destruct (N.eq_dec p 0) as [->|Hnz]; [rewrite N.bits_0 in Hj; discriminate|].
      rewrite N.bits_above_log2 in Hj; [discriminate|].
      unfold byte in Hbp. change 256 with (2 ^ 8) in Hbp. apply N.log2_lt_pow2 in Hbp; lia. }
    specialize (H (8 * N.of_nat n + j)).
    assert (Hd : N.to_nat ((8 * N.of_nat n + j) / 8) = n) by lia.
    assert (Hm : (8 * N.of_nat n + j) mod 8 = j) by lia.
    rewrite Hd, Hm, Ep, Ea in H. auto.
Qed.

(** ** The two declared arrays *)
Definition command_all (F : features) : list N := command_octets F ++ repeat 0 24.

Lemma command_flags_all {E} F : @ba_all E F COMMAND_FLAGS_SIZE CommandFlags_decl = Ok (command_all F).
Proof. destruct F as [[] []]; vm_compute; reflexivity. Qed.

Lemma command_all_bytes F : bytes (command_all F).
Proof.
  unfold bytes, byte. apply Forall_forall. intros x Hx.
  assert (K : forallb (fun x => x <? 256) (command_all F) = true)
    by (destruct F as [[] []]; vm_compute; reflexivity).
  rewrite forallb_forall in K. apply N.ltb_lt. auto.
Qed.

Lemma command_octets_length F : length (command_octets F) = 40%nat.
Proof. reflexivity. Qed.

Lemma command_all_bit F i : array_bit (command_all F) i = command_bit_defined F i.
Proof.
  unfold array_bit, command_bit_defined, command_all.
  destruct (Nat.ltb_spec (N.to_nat (i / 8)) 40) as [H|H].
  - rewrite nth_error_app1 by (rewrite command_octets_length; lia). reflexivity.
  - rewrite nth_error_app2 by (rewrite command_octets_length; lia).
    rewrite (proj2 (nth_error_None (command_octets F) _))
      by (rewrite command_octets_length; lia).
    destruct (nth_error (repeat 0 24) _) as [x|] eqn:E; [|reflexivity].
    apply nth_error_In, repeat_spec in E. subst x. apply N.bits_0.
Qed.

Definition channel_all : list N := [0xFF; 0xFF; 0xFF; 0xFF; 0x1F].

Lemma channel_classification_all {E} F :
  @ba_all E F ChannelClassification_size ChannelClassification_decl = Ok channel_all.
Proof. destruct F as [[] []]; vm_compute; reflexivity. Qed.

Lemma channel_all_bytes : bytes channel_all.
Proof. repeat constructor. Qed.

Lemma channel_all_bit i : array_bit channel_all i = channel_defined i.
Proof.
  unfold array_bit, channel_defined.
  destruct (N.ltb_spec i 40) as [H|H].
  - apply (below_cases 40) in H. cbn -[N.of_nat N.to_nat nth_error N.testbit N.leb] in H.
    repeat (destruct H as [<-|H]; [reflexivity|]). destruct H.
  - rewrite (proj2 (nth_error_None channel_all _)).
    + lia.
    + cbn [channel_all length]. lia.
Qed.

Lemma only_defined_ext d1 d2 b : (forall i, d1 i = d2 i) -> only_defined d1 b <-> only_defined d2 b.
Proof. intros H. unfold only_defined. split; intros K i Hi; specialize (K i Hi); rewrite H in *; auto. Qed.

(** Decoding the two arrays. *)
Lemma command_flags_from_bits {E} F bits : bytes bits -> length bits = 64%nat ->
  (@ba_from_bits E F COMMAND_FLAGS_SIZE CommandFlags_decl bits = Ok (Some bits)
     /\ only_defined (command_bit_defined F) (array_bit bits))
  \/ (@ba_from_bits E F COMMAND_FLAGS_SIZE CommandFlags_decl bits = Ok None
     /\ ~ only_defined (command_bit_defined F) (array_bit bits)).
Proof.
  intros Hb Hl.
  rewrite (ba_from_bits_spec _ _ _ _ _ (command_flags_all F)) by (try reflexivity; exact Hl).
  assert (K := octets_allowed_iff bits (command_all F) Hb (command_all_bytes F)
                 ltac:(rewrite Hl; reflexivity)).
  rewrite (only_defined_ext _ _ _ (command_all_bit F)) in K.
  destruct (octets_allowed bits (command_all F)); [left|right]; (split; [reflexivity|]).
  - now apply K.
  - intros H. apply K in H. discriminate.
Qed.

Lemma channel_map_from_bits {E} F bits : bytes bits -> length bits = 5%nat ->
  (@ba_from_bits E F ChannelClassification_size ChannelClassification_decl bits = Ok (Some bits)
     /\ only_defined channel_defined (array_bit bits))
  \/ (@ba_from_bits E F ChannelClassification_size ChannelClassification_decl bits = Ok None
     /\ ~ only_defined channel_defined (array_bit bits)).
Proof.
  intros Hb Hl.
  rewrite (ba_from_bits_spec _ _ _ _ _ (channel_classification_all F)) by (try reflexivity; exact Hl).
  assert (K := octets_allowed_iff bits channel_all Hb channel_all_bytes
                 ltac:(rewrite Hl; reflexivity)).
  rewrite (only_defined_ext _ _ _ channel_all_bit) in K.
  destruct (octets_allowed bits channel_all); [left|right]; (split; [reflexivity|]).
  - now apply K.
  - intros H. apply K in H. discriminate.
Qed.
