(** * The release profile: proofs. *)
From Verif Require Import Base Model_Types Model_Intervals Model_Release Spec_Wire Spec_Interval
  Proofs_Base Proofs_Interval Proofs_Serialize.

Lemma checked_wrapped {E} b v : v < b -> @checked E b v = Ok (wrapped b v).
Proof. intros H. rewrite checked_ok by exact H. unfold wrapped. now rewrite N.mod_small. Qed.

Lemma interval_profiles {E} d : d <= ms 4000 -> @interval_as_u16 E d = Ok (interval_as_u16_release d).
Proof.
  intros H. unfold interval_as_u16, interval_as_u16_release.
  rewrite (checked_wrapped u64_bound) by (durations; lia). cbn [bind].
  rewrite (checked_wrapped u32_bound) by (durations; lia). cbn [bind].
  rewrite (checked_wrapped u32_bound) by (unfold wrapped; durations; lia). reflexivity.
Qed.

Lemma timeout_profiles {E} d : d <= ms 32000 -> @timeout_as_u16 E d = Ok (timeout_as_u16_release d).
Proof.
  intros H. unfold timeout_as_u16, timeout_as_u16_release.
  rewrite (checked_wrapped u64_bound) by (durations; lia). cbn [bind].
  rewrite (checked_wrapped u32_bound) by (unfold wrapped; durations; lia). reflexivity.
Qed.

Lemma duration_profiles {E} d : d <= us 40959375 -> @duration_as_u16 E d = Ok (duration_as_u16_release d).
Proof.
  intros H. unfold duration_as_u16, duration_as_u16_release.
  rewrite (checked_wrapped u32_bound) by (durations; lia). cbn [bind].
  rewrite (checked_wrapped u32_bound) by (unfold wrapped; durations; lia). reflexivity.
Qed.

Lemma build_profiles b : cib_build_release b = cib_build b.
Proof.
  unfold cib_build_release, cib_build.
  destruct (b_interval b) as [i|]; [|reflexivity]. destruct (b_latency b) as [l|]; [|reflexivity].
  destruct (b_timeout b) as [t|]; [|reflexivity].
  destruct (_ <? _); [reflexivity|]. destruct (_ <? _); [reflexivity|].
  destruct (_ <? _); [reflexivity|].
  destruct (N.ltb_spec 0x1F3 l); [reflexivity|].
  rewrite (checked_wrapped u32_bound) by (durations; lia). reflexivity.
Qed.

Lemma length_profiles min max : ecl_new_release min max = ecl_new min max.
Proof.
  unfold ecl_new_release, ecl_new. destruct (_ <? _); [reflexivity|].
  rewrite duration_profiles by reflexivity. reflexivity.
Qed.

Lemma ci_profiles {E} ci : ci_reachable ci ->
  forall buf, @ci_copy_into_slice_release E ci buf = ci_copy_into_slice ci buf.
Proof.
  intros H buf. apply ci_reachable_legal in H. destruct H as (H1 & H2 & H3 & H4 & H5 & H6 & H7).
  unfold ci_copy_into_slice_release, ci_copy_into_slice.
  rewrite !interval_profiles by (try assumption; eapply N.le_trans; eassumption).
  rewrite timeout_profiles by assumption. reflexivity.
Qed.

Lemma ecl_profiles {E} e : ecl_reachable e ->
  forall buf, @ecl_copy_into_slice_release E e buf = ecl_copy_into_slice e buf.
Proof.
  intros H buf. apply ecl_reachable_range in H. destruct H as [H1 H2].
  unfold ecl_copy_into_slice_release, ecl_copy_into_slice.
  rewrite !duration_profiles by (try assumption; eapply N.le_trans; eassumption). reflexivity.
Qed.

Lemma sw_profiles {E} s : sw_reachable s ->
  forall buf, @sw_copy_into_slice_release E s buf = sw_copy_into_slice s buf.
Proof.
  intros H buf. apply sw_reachable_range in H. destruct H as (H1 & H2 & H3).
  unfold sw_copy_into_slice_release, sw_copy_into_slice.
  rewrite !duration_profiles by (durations; lia). reflexivity.
Qed.

Lemma ai_profiles {E} F a : ai_reachable F a ->
  forall buf, @ai_copy_into_slice_release E a buf = ai_copy_into_slice a buf.
Proof.
  intros H buf. apply ai_reachable_legal in H.
  unfold ai_copy_into_slice_release, ai_copy_into_slice. destruct H as [(_ & H1 & H2 & _)|[-> _]].
  - rewrite !duration_profiles by (durations; lia). reflexivity.
  - reflexivity.
Qed.
