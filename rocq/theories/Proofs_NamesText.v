(** * Numbers, times and words in log texts. *)
From Verif Require Import Base Model_Types Model_Bitflags Model_FlagNames Model_Intervals Model_EventBase
  Model_Command Model_Event Model_Host Model_Debug Model_Log Spec_Wire Spec_Numerals Spec_FlagNames Spec_Names
  Proofs_Base Proofs_Bits Proofs_Debug Proofs_Numerals.
From Coq Require Import String Ascii DecimalString DecimalN DecimalFacts.
Open Scope list_scope.
Open Scope N_scope.
Open Scope string_scope.

(** ** Numbers *)
Lemma uint_digits d : every (is_digit 10) (NilEmpty.string_of_uint d) = true.
Proof. induction d; cbn [NilEmpty.string_of_uint every]; try rewrite IHd; reflexivity. Qed.
Lemma numbers_after_end base t : digit_value base "," = None -> forall started,
  numbers_after base started (t ++ ",") = numbers_after base started t.
Proof.
  intros Hc. induction t as [|c t IH]; intros started; cbn [append numbers_after].
  - rewrite Hc. now rewrite List.app_nil_r.
  - destruct (digit_value base c); [apply IH|now rewrite IH].
Qed.
Lemma spells_numbers base t n : digit_value base "," = None -> spells base t n -> numbers base t = [n].
Proof.
  intros Hc H. unfold numbers. rewrite <- (numbers_after_end base t Hc).
  rewrite H by exact Hc. cbn [numbers_after]. now rewrite Hc.
Qed.
Lemma uint_no_zeros n r : debug_uint n = String "0" r -> r = "".
Proof.
  unfold debug_uint. intros H. assert (K : N.to_uint n = Decimal.unorm (N.to_uint n)).
  { rewrite <- (DecimalN.Unsigned.to_of (N.to_uint n)). now rewrite DecimalN.Unsigned.of_to. }
  destruct (N.to_uint n) as [|d|d|d|d|d|d|d|d|d|d]; cbn in H; try discriminate H.
  unfold Decimal.unorm in K. cbn [Decimal.nzhead] in K.
  destruct (Decimal.nzhead d) as [|e|e|e|e|e|e|e|e|e|e] eqn:E; try discriminate K.
  - injection K as ->. cbn in H. now injection H as <-.
  - exfalso. revert E. clear. induction d; cbn; try discriminate. exact IHd.
Qed.
Lemma uint_numeral n : in_digits 10 n (debug_uint n).
Proof.
  split; [apply uint_digits|]. split; [apply spells_numbers; [reflexivity|apply uint_spells]|apply uint_no_zeros].
Qed.
(** Digits of a value are unique. *)
Fixpoint value_of (base : N) (t : string) : N :=
  match t with
  | EmptyString => 0
  | String c r => match digit_value base c with Some d => d | None => 0 end * base ^ N.of_nat (String.length r) + value_of base r
  end.
Lemma digit_injective base c c' d : digit_value base c = Some d -> digit_value base c' = Some d -> c = c'.
Proof.
  unfold digit_value. intros H H'. rewrite <- (ascii_N_embedding c), <- (ascii_N_embedding c'). f_equal.
  set (n := N_of_ascii c) in *. set (n' := N_of_ascii c') in *. clearbody n n'.
  destruct (48 <=? n)%N eqn:A1, (n <=? 57)%N eqn:A2, (65 <=? n)%N eqn:A3, (48 <=? n')%N eqn:B1, (n' <=? 57)%N eqn:B2, (65 <=? n')%N eqn:B3;
    cbn [andb] in *;
    repeat match goal with H : (_ <=? _)%N = true |- _ => apply N.leb_le in H | H : (_ <=? _)%N = false |- _ => apply N.leb_gt in H end;
    repeat match goal with H : (if (?x <? ?y)%N then _ else _) = _ |- _ => destruct (N.ltb_spec x y); [injection H as H|discriminate H] end; lia.
Qed.
Lemma digit_small base c d : digit_value base c = Some d -> (d < base)%N.
Proof. unfold digit_value. intros H. match type of H with (if (?x <? ?y)%N then _ else _) = _ => destruct (N.ltb_spec x y); [|discriminate H] end. now injection H as <-. Qed.
Lemma value_small base t : (0 < base)%N -> (value_of base t < base ^ N.of_nat (String.length t))%N.
Proof.
  intros B. induction t as [|c t IH]; [cbn; lia|]. cbn [value_of String.length]. rewrite Nat2N.inj_succ, N.pow_succ_r'.
  assert (match digit_value base c with Some d => d | None => 0 end < base)%N.
  { destruct (digit_value base c) eqn:E; [exact (digit_small _ _ _ E)|exact B]. }
  nia.
Qed.
Lemma numbers_value base t : every (is_digit base) t = true -> forall a,
  numbers_after base (Some a) t = [a * base ^ N.of_nat (String.length t) + value_of base t].
Proof.
  induction t as [|c t IH]; intros H a; cbn [numbers_after value_of String.length]; [cbn; f_equal; lia|].
  cbn [every] in H. apply andb_prop in H. destruct H as [H1 H2]. unfold is_digit in H1. destruct (digit_value base c) as [d|]; [|discriminate H1].
  rewrite (IH H2). f_equal. rewrite Nat2N.inj_succ, N.pow_succ_r'. lia.
Qed.
Lemma value_injective base t : (0 < base)%N -> forall t', every (is_digit base) t = true -> every (is_digit base) t' = true ->
  String.length t = String.length t' -> value_of base t = value_of base t' -> t = t'.
Proof.
  intros B. induction t as [|c t IH]; intros [|c' t'] H H' L E; cbn in L; try discriminate L; [reflexivity|].
  injection L as L. cbn [every value_of] in *. apply andb_prop in H, H'. destruct H as [H1 H2], H' as [H1' H2'].
  unfold is_digit in H1, H1'. destruct (digit_value base c) as [d|] eqn:D; [|discriminate H1]. destruct (digit_value base c') as [d'|] eqn:D'; [|discriminate H1'].
  rewrite <- L in E. assert (S := value_small base t B). assert (S' := value_small base t' B). rewrite <- L in S'.
  set (P := base ^ N.of_nat (String.length t)) in *. assert (d = d') by nia. subst d'.
  f_equal; [exact (digit_injective _ _ _ _ D D')|]. apply IH; try assumption. lia.
Qed.
Lemma value_large base c t : (1 < base)%N -> every (is_digit base) (String c t) = true -> (forall r, String c t = String "0" r -> r = "") ->
  (base ^ N.of_nat (String.length t) <= value_of base (String c t))%N \/ String c t = "0".
Proof.
  intros B H Z. cbn [every value_of] in *. apply andb_prop in H. destruct H as [H _]. unfold is_digit in H.
  destruct (digit_value base c) as [d|] eqn:D; [|discriminate H].
  assert (Z0 : digit_value base "0" = Some 0). { unfold digit_value. cbn. destruct base as [|[]]; try reflexivity; lia. }
  destruct (N.eq_dec d 0) as [->|].
  - right. assert (c = "0"%char) by exact (digit_injective _ _ _ _ D Z0). subst c. now rewrite (Z t eq_refl).
  - left. nia.
Qed.
Lemma numeral_value base v t : (1 < base)%N -> in_digits base v t ->
  value_of base t = v /\ exists c r, t = String c r /\ ((base ^ N.of_nat (String.length r) <= v)%N \/ t = "0").
Proof.
  intros B (H1 & H2 & H3). destruct t as [|c t]; [discriminate H2|]. assert (E : value_of base (String c t) = v).
  - unfold numbers in H2. cbn [numbers_after] in H2. assert (H1' := H1). cbn [every] in H1'. apply andb_prop in H1'. destruct H1' as [D H1']. unfold is_digit in D.
    cbn [value_of]. destruct (digit_value base c) as [d|]; [|discriminate D]. rewrite (numbers_value _ _ H1') in H2. injection H2 as H2. rewrite <- H2. f_equal. f_equal. lia.
  - split; [exact E|]. exists c, t. split; [reflexivity|]. rewrite <- E. exact (value_large base c t B H1 H3).
Qed.
Lemma numeral_length base v t t' : (1 < base)%N -> in_digits base v t -> in_digits base v t' ->
  (String.length t' <= String.length t)%nat.
Proof.
  intros B H H'. destruct (numeral_value _ _ _ B H) as (E & c & r & -> & _). destruct (numeral_value _ _ _ B H') as (_ & c' & r' & -> & [K| ->]); [|cbn; lia].
  cbn [String.length]. destruct (le_lt_dec (S (String.length r')) (S (String.length r))) as [L|L]; [exact L|exfalso].
  assert (S := value_small base (String c r) ltac:(lia)). rewrite E in S. cbn [String.length] in S.
  assert (P : (base ^ N.of_nat (Datatypes.S (String.length r)) <= base ^ N.of_nat (String.length r'))%N) by (apply N.pow_le_mono_r; lia).
  lia.
Qed.
Lemma numeral_unique base v t t' : (1 < base)%N -> in_digits base v t -> in_digits base v t' -> t = t'.
Proof.
  intros B H H'. apply (value_injective base); [lia|apply H|apply H'| |].
  - apply Nat.le_antisymm; [exact (numeral_length _ _ _ _ B H' H)|exact (numeral_length _ _ _ _ B H H')].
  - now rewrite (proj1 (numeral_value _ _ _ B H)), (proj1 (numeral_value _ _ _ B H')).
Qed.
Definition hex_numeral_at (b : N) : bool :=
  (every (is_digit 16) (debug_hex b)
   && match numbers 16 (debug_hex b) with [v] => N.eqb v b | _ => false end
   && match debug_hex b with String "0" (String _ _) => false | _ => true end)%bool.
Lemma hex_numeral b : byte b -> in_digits 16 b (debug_hex b).
Proof.
  intros Hb. assert (H : hex_numeral_at b = true).
  { assert (A : forallb hex_numeral_at all_bytes = true) by (vm_compute; reflexivity).
    rewrite forallb_forall in A. apply A, in_all_bytes, Hb. }
  unfold hex_numeral_at in H. apply andb_prop in H. destruct H as [H H3]. apply andb_prop in H. destruct H as [H1 H2].
  split; [exact H1|]. split.
  - destruct (numbers 16 (debug_hex b)) as [|v [|]]; try discriminate. apply N.eqb_eq in H2. now subst.
  - intros r E. rewrite E in H3. destruct r; [reflexivity|discriminate].
Qed.
Lemma int_numeral z : signed_numeral z (debug_int z).
Proof.
  unfold signed_numeral, debug_int. destruct (z <? 0)%Z eqn:E.
  - apply Z.ltb_lt in E. eexists. split; [reflexivity|]. rewrite Z.abs_neq by lia. apply uint_numeral.
  - apply Z.ltb_ge in E. rewrite Z.abs_eq by lia. apply uint_numeral.
Qed.

(** ** Times *)
Lemma digit_char d : d < 10 -> digit_value 10 (ascii_of_N (48 + d)) = Some d /\ (ascii_of_N (48 + d) = "0"%char -> d = 0).
Proof.
  intros H. assert (K : In d (map N.of_nat (seq 0 10))).
  { apply in_map_iff. exists (N.to_nat d). split; [lia|]. apply in_seq. lia. }
  cbn in K. repeat (destruct K as [<-|K]; [split; [reflexivity|vm_compute; congruence]|]). contradiction.
Qed.
Lemma decimals_value k : forall fr, fr < 10 ^ N.of_nat k ->
  let s := debug_decimals k fr in
  exists v, every (is_digit 10) s = true
    /\ (forall a, numbers_after 10 (Some a) s = [a * 10 ^ N.of_nat (String.length s) + v])
    /\ v * 10 ^ N.of_nat (k - String.length s) = fr /\ (String.length s <= k)%nat
    /\ (s = "" -> fr = 0) /\ (forall s', s <> s' ++ "0").
Proof.
  induction k as [|k IH]; intros fr H; cbn zeta.
  - exists 0. cbn in *. assert (fr = 0) by lia. subst. split; [reflexivity|]. split; [intros a; f_equal; lia|].
    split; [reflexivity|]. split; [lia|]. split; [reflexivity|]. intros [|? ?]; discriminate.
  - cbn [debug_decimals]. destruct (N.eqb_spec fr 0) as [->|Hf].
    + exists 0. cbn [String.length]. split; [reflexivity|]. split; [intros a; cbn; f_equal; lia|].
      split; [lia|]. split; [lia|]. split; [reflexivity|]. intros [|? ?]; discriminate.
    + assert (P : 10 ^ N.of_nat k <> 0) by (apply N.pow_nonzero; discriminate).
      assert (E10 : 10 ^ N.of_nat (S k) = 10 * 10 ^ N.of_nat k) by (rewrite Nat2N.inj_succ; apply N.pow_succ_r').
      set (d := fr / 10 ^ N.of_nat k). set (m := fr mod 10 ^ N.of_nat k).
      assert (Hd : d < 10) by (apply N.div_lt_upper_bound; [exact P|]; lia).
      assert (Hm : m < 10 ^ N.of_nat k) by now apply N.mod_lt.
      assert (Hdm : fr = 10 ^ N.of_nat k * d + m) by now apply N.div_mod.
      destruct (IH m Hm) as (v & V1 & V2 & V3 & V4 & V5 & V6). destruct (digit_char d Hd) as [C1 C2].
      set (rest := debug_decimals k m) in *. clearbody rest d m. clear IH.
      exists (d * 10 ^ N.of_nat (String.length rest) + v). cbn [every String.length numbers_after Nat.sub].
      split; [unfold is_digit at 1; rewrite C1; exact V1|].
      split.
      { intros a. rewrite C1, V2. f_equal. rewrite Nat2N.inj_succ, N.pow_succ_r'. lia. }
      split.
      { rewrite N.mul_add_distr_r, V3, <- N.mul_assoc, <- N.pow_add_r.
        replace (N.of_nat (String.length rest) + N.of_nat (k - String.length rest)) with (N.of_nat k) by lia. lia. }
      split; [lia|]. split; [discriminate|].
      intros [|c s'] E; cbn in E.
      * injection E as E1 E2. specialize (V5 E2). specialize (C2 E1). subst. lia.
      * injection E as E1 E2. now apply (V6 s').
Qed.
Lemma sapp_nil_r t : t ++ "" = t.
Proof. induction t; cbn; congruence. Qed.
Lemma decimal_time name k w fr : In (name, 10 ^ N.of_nat k) time_units -> fr < 10 ^ N.of_nat k ->
  0 < w \/ (w * 10 ^ N.of_nat k + fr = 0 /\ k = O) -> w < 1000 \/ name = "s" ->
  time_text (w * 10 ^ N.of_nat k + fr) (debug_decimal w k fr ++ name).
Proof.
  intros U Hf Hw Hs. destruct (decimals_value k fr Hf) as (v & V1 & V2 & V3 & V4 & V5 & V6).
  unfold debug_decimal. destruct (debug_decimals k fr) as [|c r] eqn:E.
  - specialize (V5 eq_refl). subst fr. exists (debug_uint w), w, "", 0, name, (10 ^ N.of_nat k).
    split; [now rewrite sapp_nil_r|]. split; [exact U|]. split; [apply uint_numeral|]. split; [now left|].
    split; [destruct Hw as [Hw|[Hw ->]]; [now left|right; split; [exact Hw|reflexivity]]|]. split; [exact Hs|].
    cbn [String.length Nat.sub]. cbn. lia.
  - exists (debug_uint w), w, ("." ++ String c r), v, name, (10 ^ N.of_nat k).
    split; [now rewrite sapp_assoc|]. split; [exact U|]. split; [apply uint_numeral|]. split.
    { right. exists (String c r). split; [reflexivity|]. split; [exact V1|]. split; [|exact V6].
      specialize (V2 0). unfold numbers. cbn [numbers_after] in *. cbn [every] in V1. apply andb_prop in V1.
      unfold is_digit in V1. destruct (digit_value 10 c); [|destruct V1; discriminate]. rewrite V2. f_equal. }
    split; [destruct Hw as [Hw|[Hw ->]]; [now left|right; split; [exact Hw|reflexivity]]|]. split; [exact Hs|].
    change (String.length ("." ++ String c r) - 1)%nat with (String.length (String c r)).
    set (n := String.length (String c r)) in *. rewrite !N.mul_add_distr_r, <- V3.
    replace (v * 10 ^ N.of_nat (k - n) * 10 ^ N.of_nat n) with (v * 10 ^ N.of_nat k); [lia|].
    rewrite <- N.mul_assoc, <- N.pow_add_r. do 2 f_equal. lia.
Qed.
Lemma duration_time d : time_text d (debug_duration d).
Proof.
  unfold debug_duration, as_secs. change nanos_per_sec with 1000000000. set (secs := d / 1000000000). set (nanos := d mod 1000000000).
  assert (E : d = secs * 10 ^ N.of_nat 9 + nanos) by (change (10 ^ N.of_nat 9) with 1000000000; subst secs nanos; lia).
  assert (Hn : nanos < 1000000000) by (subst nanos; lia). clearbody secs nanos.
  destruct (N.ltb_spec 0 secs) as [H|H].
  - rewrite E. apply decimal_time; [now left|exact Hn|now left|now right].
  - assert (secs = 0) by lia. subst secs. replace d with nanos by lia. clear d E H.
    destruct (N.leb_spec 1000000 nanos) as [H|H].
    { replace nanos with (nanos / 1000000 * 10 ^ N.of_nat 6 + nanos mod 1000000) at 1 by (change (10 ^ N.of_nat 6) with 1000000; lia).
      apply decimal_time; [right; now left|change (10 ^ N.of_nat 6) with 1000000; lia|left; lia|left; lia]. }
    destruct (N.leb_spec 1000 nanos) as [K|K].
    { replace nanos with (nanos / 1000 * 10 ^ N.of_nat 3 + nanos mod 1000) at 1 by (change (10 ^ N.of_nat 3) with 1000; lia).
      apply decimal_time; [do 2 right; now left|change (10 ^ N.of_nat 3) with 1000; lia|left; lia|left; lia]. }
    replace nanos with (nanos * 10 ^ N.of_nat 0 + 0) at 1 by (change (10 ^ N.of_nat 0) with 1; lia).
    apply decimal_time; [do 3 right; now left|reflexivity|cbn; lia|left; lia].
Qed.

(** ** Words *)
Lemma concat_joined between l : concat between l = joined between l.
Proof. induction l as [|t l IH]; [reflexivity|]. cbn. destruct l; [reflexivity|]. now rewrite IH. Qed.
Lemma called_variant name (args : list (string -> Prop)) ts : Forall2 (fun says t => says t) args ts ->
  called name args (debug_variant (name, ts)).
Proof.
  intros H. exists ts. split; [exact H|]. unfold debug_variant, debug_tuple. cbn [fst snd].
  destruct ts; [now rewrite sapp_nil_r|]. now rewrite concat_joined.
Qed.
Lemma called_one name (p : string -> Prop) t : p t -> called name [p] (debug_variant (name, [t])).
Proof. intros H. apply called_variant. now repeat constructor. Qed.
Lemma called_tuple name (p : string -> Prop) t : p t -> called name [p] (debug_tuple name [t]).
Proof. exact (called_one name p t). Qed.
Definition field_says (f : string * (string -> Prop)) (g : string * string) : Prop := fst f = fst g /\ snd f (snd g).
Lemma written_struct name fields gs : Forall2 field_says fields gs -> written name fields (debug_struct name gs).
Proof.
  intros H. exists (map debug_field gs). split; [|unfold debug_struct; now rewrite concat_joined].
  induction H as [|f g fs gs [H1 H2] _ IH]; cbn [map]; constructor; [|exact IH].
  exists (snd g). split; [exact H2|]. unfold debug_field. now rewrite H1.
Qed.
Lemma listed_list base show l : Forall (fun b => in_digits base b (show b)) l -> listed base l (debug_list show l).
Proof.
  intros H. exists (map show l). split; [|unfold debug_list; now rewrite concat_joined].
  induction H; cbn [map]; now constructor.
Qed.
Lemma listed_decimal l : listed 10 l (debug_list debug_uint l).
Proof. apply listed_list. induction l; constructor; [apply uint_numeral|exact IHl]. Qed.
Lemma listed_hex l : bytes l -> listed 16 l (debug_list debug_hex l).
Proof. intros H. apply listed_list. apply (Forall_impl _ hex_numeral H). Qed.
Lemma address_called a : address_text a (debug_bd_addr a).
Proof. exact (called_tuple "BdAddr" _ _ (listed_decimal a)). Qed.

(** ** Flags *)
Fixpoint named (F : features) (names : list string) (decl : flag_decl) : list (N * string) :=
  match names, decl with
  | n :: names, (bit, c) :: decl => if cfg_on F c then (bit, n) :: named F names decl else named F names decl
  | _, _ => []
  end.
Lemma bf_names_named F names : forall decl v,
  bf_names F names decl v = map snd (filter (fun p => N.testbit v (fst p)) (named F names decl)).
Proof.
  induction names as [|n names IH]; intros [|[bit c] decl] v; try reflexivity. cbn [bf_names named].
  destruct (cfg_on F c); cbn [andb]; [|apply IH]. cbn [filter fst].
  assert (E : bf_contains v (N.shiftl 1 bit) = N.testbit v bit).
  { unfold bf_contains. rewrite N.shiftl_1_l. apply eq_iff_eq_true. rewrite N.eqb_eq. split; intros H.
    - rewrite <- H at 2 || idtac. assert (K : N.testbit (N.land v (2 ^ bit)) bit = true) by (rewrite H; apply N.pow2_bits_true).
      rewrite N.land_spec in K. now apply andb_prop in K.
    - apply N.bits_inj. intros i. rewrite N.land_spec. destruct (N.eq_dec i bit) as [->|Hi].
      + now rewrite H, N.pow2_bits_true.
      + rewrite N.pow2_bits_false by congruence. apply andb_false_r. }
  rewrite E. destruct (N.testbit v bit); cbn [map]; rewrite IH; reflexivity.
Qed.
Lemma flags_named F names decl (l : list (N * string)) v w : named F names decl = l ->
  Forall (fun p => N.testbit v (fst p) = N.testbit w (fst p)) l -> flags_text l w (debug_bitflags F names decl v).
Proof.
  intros E H. unfold flags_text, debug_bitflags. rewrite bf_names_named, E.
  assert (K : filter (fun p => N.testbit v (fst p)) l = filter (fun p => N.testbit w (fst p)) l).
  { clear E. induction H as [|p l Hp _ IH]; [reflexivity|]. cbn [filter]. now rewrite Hp, IH. }
  rewrite K. clear K. destruct (filter (fun p => N.testbit w (fst p)) l) as [|p r]; [reflexivity|]. cbn [map].
  exact (concat_joined " | " (snd p :: map snd r)).
Qed.
Lemma remote_names F : named F LinkLayerFeature_names LinkLayerFeature = remote_feature_names F.
Proof. destruct F as [[] []]; vm_compute; reflexivity. Qed.
Lemma local_names F : named F LeFeatures_names LeFeatures = local_feature_names F.
Proof. destruct F as [[] []]; vm_compute; reflexivity. Qed.
Lemma lmp_names F : named F LmpFeatures_names LmpFeatures = lmp_feature_names.
Proof. destruct F as [[] []]; vm_compute; reflexivity. Qed.
Lemma le_state_names F : named F LeStates_names LeStates = state_names.
Proof. destruct F as [[] []]; vm_compute; reflexivity. Qed.
Lemma channel_names F : named F ["CH_37"; "CH_38"; "CH_39"] Channels = advertising_channel_names.
Proof. destruct F as [[] []]; vm_compute; reflexivity. Qed.
