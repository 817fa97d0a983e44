(** * Derived [Debug] texts can be read back: the parts. *)
From Verif Require Import Base Model_Types Model_Bitflags Model_FlagNames Model_Intervals Model_EventBase
  Model_Command Model_Event Model_Host Model_Debug Model_Log Spec_Wire Spec_Flags Spec_Debug Spec_Log
  Proofs_Base Proofs_Bits Proofs_Debug.
From Coq Require Import String Ascii DecimalString DecimalN.
Open Scope list_scope.
Open Scope N_scope.
Open Scope string_scope.

(** ** Words *)
Definition word_char (c : ascii) : bool :=
  negb (existsb (Ascii.eqb c) [" "; ","; "("; ")"; "["; "]"; "{"; "}"; ":"; "|"]%char).
Fixpoint wordy (s : string) : bool :=
  match s with EmptyString => true | String c s => (word_char c && wordy s)%bool end.
Definition stops (r : string) : Prop :=
  match r with EmptyString => True | String c _ => word_char c = false end.

Lemma closes_stops r : closes r -> stops r.
Proof.
  intros [->|[(c & t & -> & H)|(t & ->)]]; [exact I| |reflexivity].
  cbn [In] in H. destruct H as [<-|[<-|[<-|[]]]]; reflexivity.
Qed.
Lemma closes_comma t : closes (", " ++ t).
Proof. right. left. exists ","%char, (" " ++ t). split; [reflexivity|cbn; auto]. Qed.
Lemma closes_paren t : closes (")" ++ t).
Proof. right. left. exists ")"%char, t. split; [reflexivity|cbn; auto]. Qed.
Lemma closes_bracket t : closes ("]" ++ t).
Proof. right. left. exists "]"%char, t. split; [reflexivity|cbn; auto]. Qed.
Lemma closes_struct t : closes (" }" ++ t).
Proof. right. right. eauto. Qed.
Global Hint Resolve closes_comma closes_paren closes_bracket closes_struct : closing.

Lemma wordy_app a b : wordy (a ++ b) = (wordy a && wordy b)%bool.
Proof. induction a as [|c a IH]; [reflexivity|]. cbn. rewrite IH. apply andb_assoc. Qed.

Lemma word_split n : forall n' t t', wordy n = true -> wordy n' = true -> stops t -> stops t' ->
  n ++ t = n' ++ t' -> n = n' /\ t = t'.
Proof.
  induction n as [|c n IH]; intros [|d n'] t t' Hn Hn' Ht Ht' H; cbn in *.
  - auto.
  - subst t. cbn in Ht. rewrite Ht in Hn'. discriminate.
  - subst t'. cbn in Ht'. rewrite Ht' in Hn. discriminate.
  - apply andb_prop in Hn, Hn'. destruct Hn as [_ Hn], Hn' as [_ Hn'].
    assert (c = d /\ n ++ t = n' ++ t') as [-> E] by (split; congruence).
    destruct (IH n' t t' Hn Hn' Ht Ht' E) as [-> ->]. auto.
Qed.

Lemma words_legible {A} (P : A -> Prop) (show : A -> string) :
  (forall x, P x -> wordy (show x) = true) -> (forall x y, P x -> P y -> show x = show y -> x = y) ->
  legible P show.
Proof.
  intros Hw Hi x y r r' Hx Hy C C' H.
  apply word_split in H; [|now apply Hw|now apply Hw|now apply closes_stops|now apply closes_stops].
  destruct H as [H ->]. auto.
Qed.
Lemma unambiguous_legible {A} (P : A -> Prop) (show : A -> string) : unambiguous P show -> legible P show.
Proof. intros U x y r r' Hx Hy _ _. now apply U. Qed.

(** ** Numbers *)
Lemma number_word s : number_text s = true -> wordy s = true.
Proof.
  induction s as [|c s IH]; [reflexivity|]. cbn [number_text wordy]. intros H.
  apply andb_prop in H. destruct H as [H K]. rewrite (IH K), andb_true_r. clear - H.
  destruct c as [b0 b1 b2 b3 b4 b5 b6 b7].
  destruct b0, b1, b2, b3, b4, b5, b6, b7; try reflexivity; discriminate H.
Qed.
Lemma uint_legible : legible any debug_uint.
Proof.
  destruct debug_uint_numeral as [Ht _ Hi]. apply words_legible.
  - intros x Hx. apply number_word, Ht, I.
  - intros x y _ _. apply Hi; exact I.
Qed.
Lemma uint_word n : wordy (debug_uint n) = true.
Proof. apply number_word. now apply (numeral_text _ _ debug_uint_numeral). Qed.
Lemma uint_digit n : exists c t, debug_uint n = String c t
  /\ (48 <=? N_of_ascii c)%N = true /\ (N_of_ascii c <=? 57)%N = true.
Proof.
  assert (H := numeral_nonempty _ _ debug_uint_numeral n I). revert H. unfold debug_uint.
  destruct (N.to_uint n); cbn; intros H; [now elim H|..]; eexists _, _; repeat split.
Qed.
Lemma int_legible : legible any debug_int.
Proof.
  apply words_legible.
  - intros z _. unfold debug_int. rewrite wordy_app, uint_word. now destruct (z <? 0)%Z.
  - intros x y _ _. unfold debug_int.
    assert (Hi := numeral_inj _ _ debug_uint_numeral). 
    destruct (uint_digit (Z.to_N (Z.abs x))) as (c & t & Ex & A & B).
    destruct (uint_digit (Z.to_N (Z.abs y))) as (d & u & Ey & A' & B').
    destruct (Z.ltb_spec x 0), (Z.ltb_spec y 0); intros E.
    + apply sapp_inv in E. apply Hi in E; try exact I. lia.
    + rewrite Ey in E. cbn in E. injection E as <- _. discriminate A'.
    + rewrite Ex in E. cbn in E. injection E as -> _. discriminate A.
    + cbn in E. apply Hi in E; try exact I. lia.
Qed.
Lemma nat_legible : legible any (fun n => debug_uint (N.of_nat n)).
Proof.
  intros x y r r' _ _ C C' H. apply uint_legible in H; try exact I; try assumption.
  destruct H as [H ->]. split; [lia|reflexivity].
Qed.
Lemma bool_legible : legible any debug_bool.
Proof. apply words_legible; intros []; try reflexivity. now intros []. intros []; [discriminate|reflexivity]. Qed.

(** ** Durations *)
Lemma decimal_digit n : n < 10 -> N_of_ascii (ascii_of_N (48 + n)) = 48 + n.
Proof. intros H. apply N_ascii_embedding. lia. Qed.
Lemma decimals_digits k : forall f, f < 10 ^ N.of_nat k -> wordy (debug_decimals k f) = true
  /\ forall c t, debug_decimals k f = String c t -> N_of_ascii c <= 57 /\ 48 <= N_of_ascii c.
Proof.
  induction k as [|k IH]; intros f Hf; cbn [debug_decimals]; [split; [reflexivity|discriminate]|].
  destruct (N.eqb_spec f 0); [split; [reflexivity|discriminate]|].
  rewrite Nat2N.inj_succ, N.pow_succ_r in Hf by lia.
  assert (Hp : 10 ^ N.of_nat k <> 0) by (apply N.pow_nonzero; discriminate).
  assert (Hd : f / 10 ^ N.of_nat k < 10) by (apply N.div_lt_upper_bound; lia).
  assert (Hm : f mod 10 ^ N.of_nat k < 10 ^ N.of_nat k) by now apply N.mod_lt.
  split.
  - cbn [wordy]. rewrite (proj1 (IH _ Hm)), andb_true_r. revert Hd. generalize (f / 10 ^ N.of_nat k).
    intros d Hd. assert (K : In d [0; 1; 2; 3; 4; 5; 6; 7; 8; 9]) by (clear - Hd; cbn; lia).
    cbn in K. repeat (destruct K as [<-|K]; [reflexivity|]). destruct K.
  - intros c t H. injection H as <- _. rewrite decimal_digit by exact Hd.
    clear - Hd. revert Hd. generalize (f / 10 ^ N.of_nat k). intros d Hd. lia.
Qed.
Lemma decimals_inj k : forall f g, f < 10 ^ N.of_nat k -> g < 10 ^ N.of_nat k ->
  debug_decimals k f = debug_decimals k g -> f = g.
Proof.
  induction k as [|k IH]; intros f g Hf Hg; [cbn in Hf, Hg; lia|]. cbn [debug_decimals].
  rewrite Nat2N.inj_succ, N.pow_succ_r in Hf, Hg by lia.
  assert (Hp : 10 ^ N.of_nat k <> 0) by (apply N.pow_nonzero; discriminate).
  destruct (N.eqb_spec f 0), (N.eqb_spec g 0); intros H; try discriminate; [lia|].
  assert (Hd : f / 10 ^ N.of_nat k < 10) by (apply N.div_lt_upper_bound; lia).
  assert (Hd' : g / 10 ^ N.of_nat k < 10) by (apply N.div_lt_upper_bound; lia).
  assert (E := f_equal (fun s => match s with String c _ => N_of_ascii c | _ => 0 end) H). cbn beta iota in E.
  rewrite !decimal_digit in E by assumption.
  assert (T := f_equal (fun s => match s with String _ t => t | _ => "" end) H). cbn beta iota in T.
  apply IH in T; try now apply N.mod_lt.
  rewrite (N.div_mod f (10 ^ N.of_nat k)), (N.div_mod g (10 ^ N.of_nat k)), T by exact Hp. f_equal. f_equal.
  clear - E. revert E. generalize (f / 10 ^ N.of_nat k), (g / 10 ^ N.of_nat k). intros a b E. lia.
Qed.

(** Digits end where something else begins. *)
Definition digit (c : ascii) : bool := ((48 <=? N_of_ascii c) && (N_of_ascii c <=? 57))%N%bool.
Fixpoint digits (s : string) : bool :=
  match s with EmptyString => true | String c s => (digit c && digits s)%bool end.
Lemma uint_digits n : digits (debug_uint n) = true.
Proof. unfold debug_uint. induction (N.to_uint n); cbn; auto. Qed.
Lemma decimals_all k : forall f, f < 10 ^ N.of_nat k -> digits (debug_decimals k f) = true.
Proof.
  induction k as [|k IH]; intros f Hf; cbn [debug_decimals]; [reflexivity|].
  destruct (N.eqb_spec f 0); [reflexivity|].
  rewrite Nat2N.inj_succ, N.pow_succ_r in Hf by lia.
  assert (Hp : 10 ^ N.of_nat k <> 0) by (apply N.pow_nonzero; discriminate).
  assert (Hd : f / 10 ^ N.of_nat k < 10) by (apply N.div_lt_upper_bound; lia).
  cbn [digits]. rewrite IH by now apply N.mod_lt. unfold digit. rewrite decimal_digit by exact Hd.
  rewrite andb_true_r. apply andb_true_intro. revert Hd.
  clear. generalize (f / 10 ^ N.of_nat k). intros d Hd. split; apply N.leb_le; lia.
Qed.
Lemma digits_split s : forall s' c c' t t', digits s = true -> digits s' = true ->
  digit c = false -> digit c' = false -> s ++ String c t = s' ++ String c' t' -> s = s' /\ c = c' /\ t = t'.
Proof.
  induction s as [|x s IH]; intros [|y s'] c c' t t' Hs Hs' Hc Hc' H; cbn in *.
  - repeat split; congruence.
  - injection H as -> _. now rewrite Hc in Hs'.
  - injection H as <- _. now rewrite Hc' in Hs.
  - apply andb_prop in Hs, Hs'. destruct Hs as [_ Hs], Hs' as [_ Hs'].
    assert (x = y /\ s ++ String c t = s' ++ String c' t') as [-> E] by (split; congruence).
    destruct (IH s' c c' t t' Hs Hs' Hc Hc' E) as (-> & -> & ->). auto.
Qed.
Lemma decimal_split i k f i' k' f' c c' t t' : f < 10 ^ N.of_nat k -> f' < 10 ^ N.of_nat k' ->
  digit c = false -> digit c' = false -> c <> "."%char -> c' <> "."%char ->
  debug_decimal i k f ++ String c t = debug_decimal i' k' f' ++ String c' t' ->
  i = i' /\ debug_decimals k f = debug_decimals k' f' /\ c = c' /\ t = t'.
Proof.
  intros Hf Hf' Hc Hc' Nc Nc'. unfold debug_decimal. rewrite !sapp_assoc.
  assert (Hi := numeral_inj _ _ debug_uint_numeral).
  assert (D := decimals_all k f Hf). assert (D' := decimals_all k' f' Hf').
  destruct (debug_decimals k f) as [|a l] eqn:E, (debug_decimals k' f') as [|a' l'] eqn:E'; cbn [append]; intros H;
    apply digits_split in H; try apply uint_digits; try assumption; try reflexivity;
    destruct H as (H & K & L); apply Hi in H; try exact I; subst.
  - auto.
  - now elim Nc.
  - now elim Nc'.
  - change (String a (l ++ String c t)) with (String a l ++ String c t) in L.
    change (String a' (l' ++ String c' t')) with (String a' l' ++ String c' t') in L.
    apply digits_split in L; try assumption. tauto.
Qed.
Lemma decimal_word i k f : f < 10 ^ N.of_nat k -> wordy (debug_decimal i k f) = true.
Proof.
  intros H. unfold debug_decimal. rewrite wordy_app, uint_word.
  destruct (decimals_digits k f H) as [W _]. destruct (debug_decimals k f); [reflexivity|exact W].
Qed.
Lemma duration_legible : legible any debug_duration.
Proof.
  assert (R : forall d, d mod 1000000000 < 10 ^ N.of_nat 9) by (intros d; change (10 ^ N.of_nat 9) with 1000000000; lia).
  assert (R6 : forall d, d mod 1000000 < 10 ^ N.of_nat 6) by (intros d; change (10 ^ N.of_nat 6) with 1000000; lia).
  assert (R3 : forall d, d mod 1000 < 10 ^ N.of_nat 3) by (intros d; change (10 ^ N.of_nat 3) with 1000; lia).
  apply words_legible.
  - intros d _. unfold debug_duration. 
    destruct (0 <? as_secs d)%N; [|destruct (1000000 <=? d mod 1000000000)%N; [|destruct (1000 <=? d mod 1000000000)%N]];
      rewrite wordy_app, decimal_word; try reflexivity; try apply R; try apply R6; try apply R3.
  - intros x y _ _. unfold debug_duration, as_secs, nanos_per_sec.
    destruct (N.ltb_spec 0 (x / 1000000000)), (N.ltb_spec 0 (y / 1000000000));
    try destruct (N.leb_spec 1000000 (x mod 1000000000)); try destruct (N.leb_spec 1000000 (y mod 1000000000));
    try destruct (N.leb_spec 1000 (x mod 1000000000)); try destruct (N.leb_spec 1000 (y mod 1000000000));
    intros E; apply decimal_split in E; try reflexivity; try discriminate;
      try apply R; try apply R6; try apply R3; destruct E as (Ei & Ef & Ec & Et); try discriminate Ec; try discriminate Et;
      try (apply decimals_inj in Ef; try apply R; try apply R6; try apply R3); lia.
Qed.
