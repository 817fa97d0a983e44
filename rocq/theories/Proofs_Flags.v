(** * Flag arrays are sets of flags. *)
From Verif Require Import Base Model_Types Model_Bitflags Spec_Wire Spec_Interval Spec_Flags
  Proofs_Base Proofs_Bits.

(** What is used of a declaration. *)
Definition one_bit (size : nat) (fl : array_flag) : Prop :=
  (fst fl < size)%nat /\ N.log2 (snd fl) < 8 /\ snd fl = 2 ^ N.log2 (snd fl).
Record good_table (F : features) (T : flag_table) : Prop := {
  gt_one_bit : forall fl, In fl (constants F T) -> one_bit (ft_size T) fl;
  gt_all : exists all, @ba_all Empty_set F (ft_size T) (ft_decl T) = Ok all
             /\ length all = ft_size T /\ bytes all
             /\ forall i, array_bit all i = ft_defined T F i;
  gt_defined : forall i, ft_defined T F i = true <-> In i (map flag_bit (constants F T));
  gt_distinct : NoDup (map flag_bit (constants F T))
}.

Definition one_bit_b (size : nat) (fl : array_flag) : bool :=
  (Nat.ltb (fst fl) size && (N.log2 (snd fl) <? 8) && (snd fl =? 2 ^ N.log2 (snd fl)))%bool.
Lemma one_bit_b_spec size fl : one_bit_b size fl = true -> one_bit size fl.
Proof.
  unfold one_bit_b, one_bit. rewrite !andb_true_iff, Nat.ltb_lt, N.ltb_lt, N.eqb_eq. tauto.
Qed.

Fixpoint no_dup_b (l : list N) : bool :=
  match l with
  | [] => true
  | x :: l => negb (existsb (N.eqb x) l) && no_dup_b l
  end.
Lemma no_dup_b_spec l : no_dup_b l = true -> NoDup l.
Proof.
  induction l as [|x l IH]; cbn; [constructor|]. rewrite andb_true_iff, negb_true_iff.
  intros [H1 H2]. constructor; [|auto]. intros H.
  assert (existsb (N.eqb x) l = true); [|congruence].
  apply existsb_exists. exists x. split; [assumption|apply N.eqb_refl].
Qed.

Lemma defined_by_computation (d : N -> bool) (n : nat) (l : list N) :
  (forall i, N.of_nat n <= i -> d i = false) ->
  forallb (fun x => x <? N.of_nat n) l = true ->
  forallb (fun i => Bool.eqb (d i) (existsb (N.eqb i) l)) (map N.of_nat (seq 0 n)) = true ->
  forall i, d i = true <-> In i l.
Proof.
  intros Hd Hl Hall i. rewrite forallb_forall in Hl, Hall.
  destruct (N.ltb_spec i (N.of_nat n)) as [H|H].
  - apply below_cases in H. apply Hall, Bool.eqb_prop in H. rewrite H, existsb_exists.
    split; [intros (x & Hx & ->%N.eqb_eq); exact Hx|].
    intros Hx. exists i. split; [assumption|apply N.eqb_refl].
  - rewrite (Hd _ H). split; [discriminate|]. intros K%Hl. apply N.ltb_lt in K. lia.
Qed.

Lemma channel_good F : good_table F channel_table.
Proof.
  split.
  - intros fl H. apply one_bit_b_spec.
    assert (K : forallb (one_bit_b 5) (constants F channel_table) = true)
      by (destruct F as [[] []]; vm_compute; reflexivity).
    rewrite forallb_forall in K. auto.
  - exists channel_all. split; [apply channel_classification_all|]. split; [reflexivity|].
    split; [apply channel_all_bytes|]. intros i. apply channel_all_bit.
  - apply (defined_by_computation _ 40).
    + intros i H. cbn [ft_defined channel_table]. unfold channel_defined. lia.
    + destruct F as [[] []]; vm_compute; reflexivity.
    + destruct F as [[] []]; vm_compute; reflexivity.
  - apply no_dup_b_spec. destruct F as [[] []]; vm_compute; reflexivity.
Qed.

Lemma command_good F : good_table F command_table.
Proof.
  split.
  - intros fl H. apply one_bit_b_spec.
    assert (K : forallb (one_bit_b 64) (constants F command_table) = true)
      by (destruct F as [[] []]; vm_compute; reflexivity).
    rewrite forallb_forall in K. auto.
  - exists (command_all F). split; [apply command_flags_all|].
    split; [destruct F as [[] []]; reflexivity|].
    split; [apply command_all_bytes|]. intros i. apply command_all_bit.
  - apply (defined_by_computation _ 320).
    + intros i H. cbn [ft_defined command_table]. unfold command_bit_defined.
      rewrite (proj2 (nth_error_None (command_octets F) _)); [reflexivity|].
      rewrite command_octets_length. lia.
    + destruct F as [[] []]; vm_compute; reflexivity.
    + destruct F as [[] []]; vm_compute; reflexivity.
  - apply no_dup_b_spec. destruct F as [[] []]; vm_compute; reflexivity.
Qed.

(** ** Bits of updated arrays *)
Lemma nth_error_set (v : list N) n b k : (n < length v)%nat ->
  nth_error (firstn n v ++ b :: skipn (S n) v) k = if Nat.eqb k n then Some b else nth_error v k.
Proof.
  intros H. assert (Hf : length (firstn n v) = n) by (rewrite firstn_length; lia).
  destruct (Nat.eqb_spec k n) as [-> |Hk].
  - rewrite nth_error_app2, Hf, Nat.sub_diag by lia. reflexivity.
  - destruct (Nat.ltb_spec k n).
    + rewrite nth_error_app1 by lia.
      rewrite <- (firstn_skipn n v) at 2. rewrite nth_error_app1 by lia. reflexivity.
    + rewrite nth_error_app2, Hf by lia. destruct (k - n)%nat as [|j] eqn:E; [lia|]. cbn [nth_error].
      rewrite <- (firstn_skipn (S n) v) at 2.
      assert (Hf' : length (firstn (S n) v) = S n) by (rewrite firstn_length; lia).
      rewrite nth_error_app2, Hf' by lia. f_equal. lia.
Qed.

Lemma set_length {A} (v : list A) n b : (n < length v)%nat ->
  length (firstn n v ++ b :: skipn (S n) v) = length v.
Proof. intros H. rewrite app_length, firstn_length. cbn [length]. rewrite skipn_length. lia. Qed.

Lemma bytes_firstn n l : bytes l -> bytes (firstn n l).
Proof. intros H. rewrite <- (firstn_skipn n l) in H. now apply bytes_app in H. Qed.
Lemma bytes_skipn n l : bytes l -> bytes (skipn n l).
Proof. intros H. rewrite <- (firstn_skipn n l) in H. now apply bytes_app in H. Qed.

Lemma byte_testbit b j : byte b -> 8 <= j -> N.testbit b j = false.
Proof.
  intros Hb Hj. destruct (N.eq_dec b 0) as [-> |Hn]; [apply N.bits_0|].
  apply N.bits_above_log2. unfold byte in Hb. change 256 with (2 ^ 8) in Hb.
  apply N.log2_lt_pow2 in Hb; lia.
Qed.
Lemma byte_log2 b : byte b -> N.log2 b < 8.
Proof.
  intros H. destruct (N.eq_dec b 0) as [-> |Hn]; [reflexivity|].
  unfold byte in H. change 256 with (2 ^ 8) in H. apply N.log2_lt_pow2; lia.
Qed.
Lemma byte_lor a b : byte a -> byte b -> byte (N.lor a b).
Proof.
  intros Ha Hb. unfold byte. destruct (N.eq_dec (N.lor a b) 0) as [-> |Hn]; [reflexivity|].
  change 256 with (2 ^ 8). apply N.log2_lt_pow2; [lia|]. rewrite N.log2_lor.
  apply N.max_lub_lt; now apply byte_log2.
Qed.

Lemma flag_bit_split size fl : one_bit size fl ->
  N.to_nat (flag_bit fl / 8) = fst fl /\ flag_bit fl mod 8 = N.log2 (snd fl).
Proof. intros (_ & H & _). unfold flag_bit. split; lia. Qed.

Lemma mask_testbit size fl j : one_bit size fl -> N.testbit (snd fl) j = (j =? N.log2 (snd fl)).
Proof.
  intros (_ & _ & H). rewrite H at 1. rewrite N.pow2_bits_eqb. apply N.eqb_sym.
Qed.
Lemma mask_byte size fl : one_bit size fl -> byte (snd fl).
Proof.
  intros (_ & H & E). unfold byte. rewrite E. change 256 with (2 ^ 8). apply N.pow_lt_mono_r; lia.
Qed.

Lemma flag_bit_eq size fl i : one_bit size fl ->
  (i =? flag_bit fl) = (Nat.eqb (N.to_nat (i / 8)) (fst fl) && (i mod 8 =? N.log2 (snd fl)))%bool.
Proof.
  intros H. destruct (flag_bit_split _ _ H) as [H1 H2].
  destruct (N.eqb_spec i (flag_bit fl)) as [-> |Hi].
  - rewrite H1, H2, Nat.eqb_refl, N.eqb_refl. reflexivity.
  - destruct (Nat.eqb_spec (N.to_nat (i / 8)) (fst fl)); [|reflexivity].
    destruct (N.eqb_spec (i mod 8) (N.log2 (snd fl))); [|reflexivity].
    exfalso. apply Hi. lia.
Qed.

Lemma nth_error_len {A} (l : list A) n : (n < length l)%nat -> exists a, nth_error l n = Some a.
Proof. intros H. destruct (nth_error l n) eqn:E; [eauto|]. apply nth_error_None in E. lia. Qed.
Lemma bytes_nth l n b : bytes l -> nth_error l n = Some b -> byte b.
Proof. intros H Hn. unfold bytes in H. rewrite Forall_forall in H. apply H. eapply nth_error_In; eauto. Qed.

Lemma set_bytes l n b : bytes l -> byte b -> bytes (firstn n l ++ b :: skipn (S n) l).
Proof.
  intros H Hb. apply bytes_app. split; [now apply bytes_firstn|].
  apply bytes_cons. split; [assumption|now apply bytes_skipn].
Qed.

Lemma or_into_spec {E} v fl size : length v = size -> bytes v -> one_bit size fl ->
  exists w, @ba_or_into E v fl = Ok w /\ length w = size /\ bytes w
    /\ forall i, array_bit w i = (array_bit v i || (i =? flag_bit fl))%bool.
Proof.
  intros Hl Hv Hf. destruct (nth_error_len v (fst fl)) as [b Hb]; [rewrite Hl; apply Hf|].
  assert (Hlt : (fst fl < length v)%nat) by (rewrite Hl; apply Hf).
  unfold ba_or_into, idx. rewrite Hb. cbn [bind]. unfold set_idx.
  rewrite (proj2 (Nat.ltb_lt _ _) Hlt). eexists. split; [reflexivity|].
  split; [rewrite set_length; assumption|].
  split; [apply set_bytes; [assumption|apply byte_lor; [eapply bytes_nth; eauto|eapply mask_byte; eauto]]|].
  intros i. unfold array_bit. rewrite (nth_error_set v (fst fl)) by assumption.
  rewrite (flag_bit_eq size fl i Hf).
  destruct (Nat.eqb_spec (N.to_nat (i / 8)) (fst fl)) as [E'|_].
  - rewrite E', Hb, N.lor_spec, (mask_testbit size fl _ Hf). reflexivity.
  - cbn [andb]. now rewrite orb_false_r.
Qed.

Lemma zeros_bit n i : array_bit (zeros n) i = false.
Proof.
  unfold array_bit, zeros. destruct (nth_error (repeat 0 n) (N.to_nat (i / 8))) eqn:E; [|reflexivity].
  apply nth_error_In, repeat_spec in E. subst. apply N.bits_0.
Qed.
Lemma zeros_length n : length (zeros n) = n.
Proof. apply repeat_length. Qed.
Lemma zeros_bytes n : bytes (zeros n).
Proof. apply Forall_forall. intros x H. apply repeat_spec in H. subst. unfold byte. lia. Qed.

(** ** Making values *)
Definition is_value (F : features) (T : flag_table) (v : list N) : Prop :=
  length v = ft_size T /\ bytes v /\ only_defined (ft_defined T F) (array_bit v).

Lemma constant_defined F T fl : good_table F T -> In fl (constants F T) ->
  ft_defined T F (flag_bit fl) = true.
Proof. intros G H. apply (gt_defined _ _ G). now apply in_map. Qed.

Lemma make_spec F T m : good_table F T -> well_typed F T m ->
  (only_known_bits F T m /\ exists v, make F T m = Ok (Some v) /\ is_value F T v
     /\ forall i, array_bit v i = denotes F T m i)
  \/ (~ only_known_bits F T m /\ make F T m = Ok None).
Proof.
  intros G. assert (Z1 := zeros_length (ft_size T)). assert (Z2 := zeros_bytes (ft_size T)).
  induction m as [| |x|x y|m IH x|bs]; cbn [well_typed only_known_bits make denotes]; intros H.
  - left. split; [exact I|]. exists (zeros (ft_size T)). split; [reflexivity|].
    split; [split; [assumption|split; [assumption|]]|]; intros i; rewrite zeros_bit; [discriminate|reflexivity].
  - left. split; [exact I|]. destruct (gt_all _ _ G) as (all & Ha & Hl & Hb & Hd).
    rewrite Ha. cbn [bind]. exists all. split; [reflexivity|].
    split; [split; [assumption|split; [assumption|intros i; now rewrite Hd]]|exact Hd].
  - left. split; [exact I|]. assert (O := gt_one_bit _ _ G _ H).
    assert (K : @ba_from_flag Empty_set (ft_size T) x = ba_or_into (zeros (ft_size T)) x).
    { destruct (nth_error_len (zeros (ft_size T)) (fst x)) as [b Hb]; [rewrite Z1; apply O|].
      unfold ba_from_flag, ba_or_into, idx. rewrite Hb. cbn [bind].
      apply nth_error_In, repeat_spec in Hb. subst b. now rewrite N.lor_0_l. }
    rewrite K. destruct (@or_into_spec Empty_set _ x _ Z1 Z2 O) as (w & -> & Hw1 & Hw2 & Hw3).
    cbn [bind]. exists w. split; [reflexivity|].
    assert (D : forall i, array_bit w i = (i =? flag_bit x)) by (intros i; now rewrite Hw3, zeros_bit).
    split; [split; [assumption|split; [assumption|]]|exact D].
    intros i. rewrite D. intros ->%N.eqb_eq. now apply constant_defined.
  - left. split; [exact I|]. destruct H as [Hx Hy].
    assert (Ox := gt_one_bit _ _ G _ Hx). assert (Oy := gt_one_bit _ _ G _ Hy). unfold ba_flag_or.
    destruct (@or_into_spec Empty_set _ x _ Z1 Z2 Ox) as (w & -> & Hw1 & Hw2 & Hw3). cbn [bind].
    destruct (@or_into_spec Empty_set w y _ Hw1 Hw2 Oy) as (u & -> & Hu1 & Hu2 & Hu3). cbn [bind].
    exists u. split; [reflexivity|].
    assert (D : forall i, array_bit u i = ((i =? flag_bit x) || (i =? flag_bit y))%bool)
      by (intros i; now rewrite Hu3, Hw3, zeros_bit).
    split; [split; [assumption|split; [assumption|]]|exact D].
    intros i. rewrite D. intros [-> %N.eqb_eq | -> %N.eqb_eq]%orb_true_iff; now apply constant_defined.
  - destruct H as [Hm Hx]. destruct (IH Hm) as [(K & v & -> & (Hv1 & Hv2 & Hv3) & Hv)|[K ->]].
    2:{ right. split; [exact K|reflexivity]. }
    left. split; [exact K|]. cbn [bind]. unfold ba_or.
    destruct (@or_into_spec Empty_set v x _ Hv1 Hv2 (gt_one_bit _ _ G _ Hx)) as (w & -> & Hw1 & Hw2 & Hw3).
    cbn [bind]. exists w. split; [reflexivity|].
    split; [split; [assumption|split; [assumption|]]|].
    + intros i. rewrite Hw3. intros [H | -> %N.eqb_eq]%orb_true_iff; [now apply Hv3|now apply constant_defined].
    + intros i. now rewrite Hw3, Hv.
  - destruct H as [Hb Hl]. destruct (gt_all _ _ G) as (all & Ha & Hla & Hba & Hd).
    rewrite (ba_from_bits_spec F _ _ all bs Ha Hla Hl).
    assert (K := octets_allowed_iff bs all Hb Hba ltac:(lia)).
    rewrite (only_defined_ext _ (ft_defined T F) (array_bit bs) Hd) in K.
    destruct (octets_allowed bs all).
    + left. assert (D := proj1 K eq_refl). split; [exact D|]. exists bs. repeat split; auto.
    + right. split; [|reflexivity]. intros D. apply K in D. discriminate.
Qed.

Lemma obtainable_value F T v : good_table F T -> obtainable F T v -> is_value F T v.
Proof.
  intros G (m & Hw & Hm). destruct (make_spec F T m G Hw) as [(_ & w & H & Hv & _)|[_ H]];
    rewrite Hm in H; [injection H as ->; exact Hv|discriminate].
Qed.
Lemma value_obtainable F T v : good_table F T -> is_value F T v -> obtainable F T v.
Proof.
  intros G (H1 & H2 & H3). exists (MBits v). split; [split; assumption|].
  destruct (make_spec F T (MBits v) G (conj H2 H1)) as [(_ & w & H & _)|[K _]];
    [|contradiction].
  cbn [make] in *. rewrite H. destruct (gt_all _ _ G) as (all & Ha & Hla & Hba & Hd).
  rewrite (ba_from_bits_spec F _ _ all v Ha Hla H1) in H.
  destruct (octets_allowed v all); [exact (eq_sym H)|discriminate].
Qed.

(** ** Observers *)
Lemma is_set_spec F T v fl : good_table F T -> is_value F T v -> In fl (constants F T) ->
  @ba_is_set Empty_set v fl = Ok (array_bit v (flag_bit fl)).
Proof.
  intros G (H1 & H2 & _) Hin. assert (O := gt_one_bit _ _ G _ Hin).
  destruct (nth_error_len v (fst fl)) as [b Hb]; [rewrite H1; apply O|].
  unfold ba_is_set, idx. rewrite Hb. cbn [bind]. f_equal.
  destruct (flag_bit_split _ _ O) as [E1 E2]. unfold array_bit. rewrite E1, Hb, E2.
  assert (K : forall j, N.testbit (N.land b (snd fl)) j = (N.testbit b j && (j =? N.log2 (snd fl)))%bool)
    by (intros j; now rewrite N.land_spec, (mask_testbit _ _ _ O)).
  destruct (N.eqb_spec (N.land b (snd fl)) 0) as [Z|Z].
  - rewrite Z in K. specialize (K (N.log2 (snd fl))). rewrite N.bits_0, N.eqb_refl, andb_true_r in K.
    now rewrite <- K.
  - cbn [negb]. destruct (N.testbit b (N.log2 (snd fl))) eqn:Eb; [reflexivity|]. exfalso. apply Z.
    apply N.bits_inj_0. intros j. rewrite K. destruct (N.eqb_spec j (N.log2 (snd fl))) as [-> |_].
    + now rewrite Eb.
    + apply andb_false_r.
Qed.

(** Statements octet by octet. *)
Lemma octetwise (P : N -> N -> Prop) (test : N -> N -> bool) (rel : bool -> bool -> Prop) a b :
  length a = length b -> bytes a -> bytes b ->
  rel false false ->
  (forall x y, byte x -> byte y -> (test x y = true <-> forall j, j < 8 -> rel (N.testbit x j) (N.testbit y j))) ->
  (forallb (fun p => test (fst p) (snd p)) (combine a b) = true
   <-> forall i, rel (array_bit a i) (array_bit b i)).
Proof.
  intros Hl Ha Hb R0 Ht. rewrite forallb_forall. split.
  - intros H i. unfold array_bit. destruct (nth_error a (N.to_nat (i / 8))) as [x|] eqn:Ex.
    + destruct (nth_error b (N.to_nat (i / 8))) as [y|] eqn:Ey.
      * apply (proj1 (Ht x y (bytes_nth _ _ _ Ha Ex) (bytes_nth _ _ _ Hb Ey))).
        -- apply (H (x, y)). eapply nth_error_In. rewrite nth_error_combine, Ex, Ey. reflexivity.
        -- apply N.mod_lt. discriminate.
      * apply nth_error_None in Ey. assert (nth_error a (N.to_nat (i / 8)) <> None) by congruence.
        apply nth_error_Some in H0. lia.
    + apply nth_error_None in Ex. rewrite (proj2 (nth_error_None b _)) by lia. exact R0.
  - intros H [x y] Hin. apply In_nth_error in Hin. destruct Hin as [n Hn].
    rewrite nth_error_combine in Hn.
    destruct (nth_error a n) as [x'|] eqn:Ex; [|discriminate].
    destruct (nth_error b n) as [y'|] eqn:Ey; [|discriminate]. injection Hn as -> ->. cbn [fst snd].
    apply (proj2 (Ht x y (bytes_nth _ _ _ Ha Ex) (bytes_nth _ _ _ Hb Ey))). intros j Hj.
    specialize (H (8 * N.of_nat n + j)). unfold array_bit in H.
    assert (Hd : N.to_nat ((8 * N.of_nat n + j) / 8) = n) by lia.
    assert (Hm : (8 * N.of_nat n + j) mod 8 = j) by lia.
    rewrite Hd, Hm, Ex, Ey in H. exact H.
Qed.

Lemma contains_spec F T a b : is_value F T a -> is_value F T b ->
  ba_contains a b = true <-> forall i, array_bit b i = true -> array_bit a i = true.
Proof.
  intros (A1 & A2 & _) (B1 & B2 & _). unfold ba_contains.
  apply (octetwise (fun _ _ => True) (fun x y => N.land x y =? y) (fun p q => q = true -> p = true));
    [congruence|assumption|assumption|discriminate|].
  intros x y Hx Hy. rewrite N.eqb_eq. split.
  - intros H j _ Hj. rewrite <- H, N.land_spec in Hj. now apply andb_true_iff in Hj.
  - intros H. apply N.bits_inj. intros j. rewrite N.land_spec.
    destruct (N.ltb_spec j 8) as [Hj|Hj].
    + specialize (H j Hj). destruct (N.testbit y j); [now rewrite H|apply andb_false_r].
    + rewrite (byte_testbit y) by assumption. apply andb_false_r.
Qed.

Lemma eq_spec F T a b : is_value F T a -> is_value F T b ->
  ba_eq a b = true <-> forall i, array_bit a i = array_bit b i.
Proof.
  intros (A1 & A2 & _) (B1 & B2 & _). unfold ba_eq.
  apply (octetwise (fun _ _ => True) N.eqb (fun p q => p = q));
    [congruence|assumption|assumption|reflexivity|].
  intros x y Hx Hy. rewrite N.eqb_eq. split; [now intros ->|].
  intros H. apply N.bits_inj. intros j. destruct (N.ltb_spec j 8) as [Hj|Hj]; [auto|].
  rewrite !byte_testbit by assumption. reflexivity.
Qed.

Lemma eq_same F T a b : is_value F T a -> is_value F T b -> ba_eq a b = true <-> a = b.
Proof.
  intros (A1 & _) (B1 & _). unfold ba_eq. assert (L : length a = length b) by congruence.
  clear A1 B1. revert b L. induction a as [|x a IH]; intros [|y b] L; try discriminate; cbn [combine forallb].
  - tauto.
  - rewrite andb_true_iff, IH by (cbn in L; lia). cbn [fst snd]. rewrite N.eqb_eq.
    split; [intros [-> ->]; reflexivity|]. intros H. injection H. auto.
Qed.

Lemma is_empty_spec F T a : is_value F T a ->
  ba_is_empty a = true <-> forall i, array_bit a i = false.
Proof.
  intros (A1 & A2 & _). unfold ba_is_empty. rewrite forallb_forall. split.
  - intros H i. unfold array_bit. destruct (nth_error a _) as [x|] eqn:Ex; [|reflexivity].
    apply nth_error_In, H, N.eqb_eq in Ex. subst. apply N.bits_0.
  - intros H x Hx. apply N.eqb_eq. apply In_nth_error in Hx. destruct Hx as [n Hn].
    apply N.bits_inj_0. intros j. destruct (N.ltb_spec j 8) as [Hj|Hj].
    + specialize (H (8 * N.of_nat n + j)). unfold array_bit in H.
      assert (Hd : N.to_nat ((8 * N.of_nat n + j) / 8) = n) by lia.
      assert (Hm : (8 * N.of_nat n + j) mod 8 = j) by lia.
      now rewrite Hd, Hm, Hn in H.
    + apply byte_testbit; [eapply bytes_nth; eauto|assumption].
Qed.

Lemma eq_flag_loop_spec {E} v fl n i : (i + n = length v)%nat ->
  exists r, @ba_eq_flag_loop E v fl i n = Ok r
  /\ (r = true <-> forall k, (i <= k)%nat -> (k < length v)%nat ->
        nth_error v k = Some (if Nat.eqb k (fst fl) then snd fl else 0)).
Proof.
  revert i. induction n as [|n IH]; intros i H; cbn [ba_eq_flag_loop].
  - exists true. split; [reflexivity|]. split; [intros; lia|reflexivity].
  - destruct (nth_error_len v i) as [b Hb]; [lia|]. unfold idx. rewrite Hb. cbn [bind].
    destruct (IH (S i) ltac:(lia)) as (r & Hr & Hiff).
    assert (Step : b = (if Nat.eqb i (fst fl) then snd fl else 0) ->
      (r = true <-> forall k, (i <= k)%nat -> (k < length v)%nat ->
        nth_error v k = Some (if Nat.eqb k (fst fl) then snd fl else 0))).
    { intros Eb. rewrite Hiff. split; [|intros K k H1 H2; apply K; lia].
      intros K k H1 H2. destruct (Nat.eq_dec k i) as [-> |Hk]; [now rewrite Hb, Eb|apply K; lia]. }
    assert (Stop : b <> (if Nat.eqb i (fst fl) then snd fl else 0) ->
      (false = true <-> forall k, (i <= k)%nat -> (k < length v)%nat ->
        nth_error v k = Some (if Nat.eqb k (fst fl) then snd fl else 0))).
    { intros Eb. split; [discriminate|]. intros K. exfalso. apply Eb.
      specialize (K i ltac:(lia) ltac:(lia)). rewrite Hb in K. now injection K. }
    destruct (Nat.eqb_spec i (fst fl)) as [Ei|Ei].
    + destruct (N.eqb_spec b (snd fl)) as [Eb|Eb]; eauto.
    + destruct (N.eqb_spec b 0) as [Eb|Eb]; eauto.
Qed.

Lemma eq_flag_spec F T v fl : good_table F T -> is_value F T v -> In fl (constants F T) ->
  exists r, @ba_eq_flag Empty_set (ft_size T) v fl = Ok r
  /\ (r = true <-> forall i, array_bit v i = (i =? flag_bit fl)).
Proof.
  intros G (H1 & H2 & _) Hin. assert (O := gt_one_bit _ _ G _ Hin).
  unfold ba_eq_flag. rewrite <- H1.
  destruct (@eq_flag_loop_spec Empty_set v fl (length v) 0 eq_refl) as (r & Hr & Hiff).
  exists r. split; [exact Hr|]. rewrite Hiff. split.
  - intros K i. rewrite (flag_bit_eq _ _ _ O). unfold array_bit.
    destruct (Nat.ltb_spec (N.to_nat (i / 8)) (length v)) as [Hi|Hi].
    + rewrite K by lia. destruct (Nat.eqb _ _); [apply (mask_testbit _ _ _ O)|apply N.bits_0].
    + rewrite (proj2 (nth_error_None v _)) by assumption. destruct O as (O & _).
      destruct (Nat.eqb_spec (N.to_nat (i / 8)) (fst fl)); [lia|reflexivity].
  - intros K k _ Hk. destruct (nth_error_len v k Hk) as [b Hb]. rewrite Hb. f_equal.
    apply N.bits_inj. intros j. destruct (N.ltb_spec j 8) as [Hj|Hj].
    + specialize (K (8 * N.of_nat k + j)). rewrite (flag_bit_eq _ _ _ O) in K. unfold array_bit in K.
      assert (Hd : N.to_nat ((8 * N.of_nat k + j) / 8) = k) by lia.
      assert (Hm : (8 * N.of_nat k + j) mod 8 = j) by lia.
      rewrite Hd, Hm, Hb in K. rewrite K. destruct (Nat.eqb k (fst fl)); cbn [andb];
        [symmetry; apply (mask_testbit _ _ _ O)|symmetry; apply N.bits_0].
    + rewrite byte_testbit by (assumption || eapply bytes_nth; eauto).
      destruct (Nat.eqb k (fst fl)); [|symmetry; apply N.bits_0].
      symmetry. apply byte_testbit; [eapply mask_byte; eauto|assumption].
Qed.

Lemma from_bits_bits F T v : good_table F T -> is_value F T v ->
  @ba_from_bits Empty_set F (ft_size T) (ft_decl T) (ba_bits v) = Ok (Some v).
Proof.
  intros G Hv. assert (Hv' := Hv). destruct Hv' as (H1 & H2 & _).
  destruct (value_obtainable F T v G Hv) as (m & _ & _).
  unfold ba_bits. destruct (gt_all _ _ G) as (all & Ha & Hla & Hba & Hd).
  rewrite (ba_from_bits_spec F _ _ all v Ha Hla H1).
  rewrite (proj2 (octets_allowed_iff v all H2 Hba ltac:(lia))); [reflexivity|].
  apply (only_defined_ext _ (ft_defined T F) (array_bit v) Hd). apply Hv.
Qed.

Lemma copy_exactly {E} v : @writes_exactly E (ba_copy_into_slice v) v.
Proof.
  intros buf. unfold ba_copy_into_slice, copy_from_slice. rewrite (Nat.eqb_sym (length buf)).
  destruct (Nat.eqb_spec (length v) (length buf)) as [E'|E']; cbn [assert bind]; reflexivity.
Qed.

Lemma subset_of_all F T v all : good_table F T -> is_value F T v ->
  @ba_all Empty_set F (ft_size T) (ft_decl T) = Ok all -> ba_contains all v = true.
Proof.
  intros G Hv Ha. destruct (gt_all _ _ G) as (all' & Ha' & Hl & Hb & Hd).
  rewrite Ha in Ha'. injection Ha' as <-.
  apply (contains_spec F T); [|assumption|].
  - split; [assumption|]. split; [assumption|]. intros i. now rewrite Hd.
  - intros i Hi. rewrite Hd. now apply Hv.
Qed.

(** ** The two types *)
Lemma tables_good F T : In T flag_tables -> good_table F T.
Proof. intros [<- | [<- | []]]; [apply channel_good|apply command_good]. Qed.

Lemma maker_result F T m : In T flag_tables -> well_typed F T m ->
  (only_known_bits F T m -> exists v, make F T m = Ok (Some v) /\ length v = ft_size T /\ bytes v
     /\ forall i, array_bit v i = denotes F T m i)
  /\ (~ only_known_bits F T m -> make F T m = Ok None).
Proof.
  intros HT Hw. destruct (make_spec F T m (tables_good F T HT) Hw)
    as [(K & v & H & (H1 & H2 & _) & Hv)|[K H]]; split; intros K'; try contradiction; eauto 10.
Qed.

Section Observers.
Context (F : features) (T : flag_table) (HT : In T flag_tables).
Let G := tables_good F T HT.
Lemma obtainable_bits v : obtainable F T v ->
  length v = ft_size T /\ bytes v /\ only_defined (ft_defined T F) (array_bit v).
Proof. exact (obtainable_value F T v G). Qed.
Lemma obtainable_subset v all : obtainable F T v ->
  @ba_all Empty_set F (ft_size T) (ft_decl T) = Ok all -> ba_contains all v = true.
Proof. intros H. exact (subset_of_all F T v all G (obtainable_value F T v G H)). Qed.
Lemma obtainable_is_set v x : obtainable F T v -> In x (constants F T) ->
  @ba_is_set Empty_set v x = Ok (array_bit v (flag_bit x)).
Proof. intros H. exact (is_set_spec F T v x G (obtainable_value F T v G H)). Qed.
Lemma obtainable_contains a b : obtainable F T a -> obtainable F T b ->
  ba_contains a b = true <-> forall i, array_bit b i = true -> array_bit a i = true.
Proof. intros H K. exact (contains_spec F T a b (obtainable_value F T a G H) (obtainable_value F T b G K)). Qed.
Lemma obtainable_is_empty a : obtainable F T a ->
  ba_is_empty a = true <-> forall i, array_bit a i = false.
Proof. intros H. exact (is_empty_spec F T a (obtainable_value F T a G H)). Qed.
Lemma obtainable_eq a b : obtainable F T a -> obtainable F T b ->
  (ba_eq a b = true <-> forall i, array_bit a i = array_bit b i) /\ (ba_eq a b = true <-> a = b).
Proof.
  intros H K. split;
    [exact (eq_spec F T a b (obtainable_value F T a G H) (obtainable_value F T b G K))
    |exact (eq_same F T a b (obtainable_value F T a G H) (obtainable_value F T b G K))].
Qed.
Lemma obtainable_eq_flag v x : obtainable F T v -> In x (constants F T) ->
  exists r, @ba_eq_flag Empty_set (ft_size T) v x = Ok r
  /\ (r = true <-> forall i, array_bit v i = (i =? flag_bit x)).
Proof. intros H. exact (eq_flag_spec F T v x G (obtainable_value F T v G H)). Qed.
Lemma obtainable_from_bits v : obtainable F T v ->
  @ba_from_bits Empty_set F (ft_size T) (ft_decl T) (ba_bits v) = Ok (Some v).
Proof. intros H. exact (from_bits_bits F T v G (obtainable_value F T v G H)). Qed.
Lemma constants_bits :
  NoDup (map flag_bit (constants F T))
  /\ forall i, ft_defined T F i = true <-> In i (map flag_bit (constants F T)).
Proof. split; [exact (gt_distinct _ _ G)|exact (gt_defined _ _ G)]. Qed.
End Observers.

(** [from_bits] on slices of another length panics. *)
Lemma from_bits_panics F T bs : In T flag_tables -> bytes bs ->
  @ba_from_bits Empty_set F (ft_size T) (ft_decl T) bs = Panic <-> length bs <> ft_size T.
Proof.
  intros HT Hb. unfold ba_from_bits. destruct (Nat.eqb_spec (length bs) (ft_size T)) as [E|E].
  - split; [|contradiction]. intros H. exfalso.
    destruct (make_spec F T (MBits bs) (tables_good F T HT) (conj Hb E)) as [(_ & v & K & _)|[_ K]];
      cbn [make] in K; unfold ba_from_bits in K; rewrite (proj2 (Nat.eqb_eq _ _) E) in K;
      rewrite H in K; discriminate.
  - split; [auto|reflexivity].
Qed.
