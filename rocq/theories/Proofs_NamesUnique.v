(** * The bytes of a packet leave no choice for its log text. *)
From Verif Require Import Base Model_Types Model_Intervals Model_EventBase Model_Command Model_Event Model_Host Model_Log
  Spec_Wire Spec_Numerals Spec_FlagNames Spec_Debug Spec_Names Spec_Log Proofs_Base Proofs_NamesText Proofs_Log Proofs_Names.
From Coq Require Import String Ascii.
Open Scope list_scope.
Open Scope N_scope.
Open Scope string_scope.

Definition determined (P : string -> Prop) : Prop := forall t t', P t -> P t' -> t = t'.

(** ** Numbers and times *)
Lemma decimal_unique v : determined (in_digits 10 v).
Proof. intros t t'. apply numeral_unique. reflexivity. Qed.
Lemma signed_unique z : determined (signed_numeral z).
Proof.
  intros t t'. unfold signed_numeral. destruct (z <? 0)%Z; [|apply decimal_unique].
  intros (r & -> & H) (r' & -> & H'). f_equal. exact (decimal_unique _ _ _ H H').
Qed.
Lemma value_app base s c : value_of base (s ++ String c "")
  = (value_of base s * base + match digit_value base c with Some d => d | None => 0 end)%N.
Proof.
  assert (L : forall s, String.length (s ++ String c "") = S (String.length s)) by (intros u; induction u; cbn; congruence).
  induction s as [|x s IH]; [cbn; lia|]. cbn [append value_of]. rewrite IH, L, Nat2N.inj_succ, N.pow_succ_r'. lia.
Qed.
Lemma last_char r : r <> "" -> exists s c, r = s ++ String c "".
Proof.
  induction r as [|x r IH]; [contradiction|]. intros _. destruct r as [|y r].
  - now exists "", x.
  - destruct (IH ltac:(discriminate)) as (s & c & E). exists (String x s), c. cbn. now rewrite E.
Qed.
Lemma every_app P s t : every P (s ++ t) = (every P s && every P t)%bool.
Proof. induction s; cbn; [reflexivity|]. now rewrite IHs, andb_assoc. Qed.
(** The digits behind the point, without zeros at the end. *)
Definition decimal_digits (r : string) : Prop := every (is_digit 10) r = true /\ forall s, r <> s ++ "0".
Lemma decimals_longer r r' k : decimal_digits r' -> String.length r' = (String.length r + k)%nat ->
  (value_of 10 r' = value_of 10 r * 10 ^ N.of_nat k)%N -> k = O.
Proof.
  intros [E Z] L H. destruct k as [|k]; [reflexivity|exfalso].
  destruct (last_char r') as (s & c & ->); [intros ->; cbn in L; lia|].
  rewrite value_app, Nat2N.inj_succ, N.pow_succ_r' in H. rewrite every_app in E. apply andb_prop in E. destruct E as [_ E]. cbn in E.
  rewrite andb_true_r in E. unfold is_digit in E. destruct (digit_value 10 c) as [d|] eqn:D; [|discriminate E].
  assert (d < 10)%N by exact (digit_small _ _ _ D). assert (d = 0)%N by lia. subst d.
  assert (c = "0"%char) by exact (digit_injective 10 c "0"%char 0 D eq_refl). subst c. exact (Z s eq_refl).
Qed.
Lemma decimals_unique r r' : decimal_digits r -> decimal_digits r' ->
  (value_of 10 r * 10 ^ N.of_nat (String.length r') = value_of 10 r' * 10 ^ N.of_nat (String.length r))%N -> r = r'.
Proof.
  assert (W : forall r r', decimal_digits r -> decimal_digits r' -> (String.length r <= String.length r')%nat ->
    (value_of 10 r * 10 ^ N.of_nat (String.length r') = value_of 10 r' * 10 ^ N.of_nat (String.length r))%N -> r = r').
  { intros a b A B L H. set (k := (String.length b - String.length a)%nat). assert (E : String.length b = (String.length a + k)%nat) by lia.
    rewrite E, Nat2N.inj_add, N.pow_add_r in H.
    assert (P : (10 ^ N.of_nat (String.length a) <> 0)%N) by (apply N.pow_nonzero; lia).
    assert (V : (value_of 10 b = value_of 10 a * 10 ^ N.of_nat k)%N) by nia.
    assert (K := decimals_longer a b k B E V). clearbody k. subst k. apply (value_injective 10); [lia|apply A|apply B|lia|]. cbn in V. lia. }
  intros A B H. destruct (le_lt_dec (String.length r) (String.length r')); [now apply W|]. symmetry. apply W; auto; lia.
Qed.
Lemma time_cases n t : time_text n t -> exists whole w r name unit,
  t = whole ++ (match r with EmptyString => "" | _ => String "." r end) ++ name /\ In (name, unit) time_units
  /\ in_digits 10 w whole /\ decimal_digits r /\ (0 < w \/ n = 0 /\ unit = 1)%N /\ (w < 1000 \/ name = "s")%N
  /\ (n * 10 ^ N.of_nat (String.length r) = (w * 10 ^ N.of_nat (String.length r) + value_of 10 r) * unit)%N.
Proof.
  intros (whole & w & dec & d & name & unit & E & U & W & D & H1 & H2 & H3).
  destruct D as [[-> ->]|(r & -> & Er & Nr & Zr)].
  - exists whole, w, "", name, unit. repeat (split; [assumption|]). split; [split; [reflexivity|intros [] K; discriminate K]|].
    repeat (split; [assumption|]). exact H3.
  - exists whole, w, r, name, unit. assert (R : r <> "") by (intros ->; discriminate Nr).
    split; [destruct r; [contradiction|exact E]|]. repeat (split; [assumption|]). split; [split; assumption|]. repeat (split; [assumption|]).
    assert (d = value_of 10 r).
    { destruct r as [|c r]; [contradiction|]. unfold numbers in Nr. cbn [numbers_after] in Nr. cbn [every] in Er. apply andb_prop in Er. destruct Er as [D Er].
      unfold is_digit in D. cbn [value_of]. destruct (digit_value 10 c) as [x|]; [|discriminate D]. rewrite (numbers_value 10 r Er) in Nr. injection Nr as Nr. rewrite <- Nr. lia. }
    subst d. replace (String.length (String "." r) - 1)%nat with (String.length r) in H3 by (cbn; lia). exact H3.
Qed.
Lemma time_unique n : determined (time_text n).
Proof.
  intros t t' H H'.
  destruct (time_cases n t H) as (whole & w & r & name & unit & -> & U & W & D & A & B & E).
  destruct (time_cases n t' H') as (whole' & w' & r' & name' & unit' & -> & U' & W' & D' & A' & B' & E').
  set (P := (10 ^ N.of_nat (String.length r))%N) in *. set (P' := (10 ^ N.of_nat (String.length r'))%N) in *.
  assert (S : (value_of 10 r < P)%N) by (apply value_small; lia). assert (S' : (value_of 10 r' < P')%N) by (apply value_small; lia).
  assert (I : (w * unit <= n /\ n < (w + 1) * unit)%N).
  { assert (0 < unit)%N by (cbn in U; repeat (destruct U as [U|U]; [injection U as <- <-; lia|]); contradiction). split; nia. }
  assert (I' : (w' * unit' <= n /\ n < (w' + 1) * unit')%N).
  { assert (0 < unit')%N by (cbn in U'; repeat (destruct U' as [U'|U']; [injection U' as <- <-; lia|]); contradiction). split; nia. }
  assert (UU : unit = unit' /\ name = name').
  { clear E E' S S' H H' D D' W W'. cbn in U, U'.
    repeat (destruct U as [U|U]; [injection U as <- <-|]); try contradiction;
    repeat (destruct U' as [U'|U']; [injection U' as <- <-|]); try contradiction; try (split; reflexivity); exfalso;
    destruct B as [B|B], B' as [B'|B']; try discriminate B; try discriminate B'; lia. }
  destruct UU as [<- <-].
  assert (w = w') by nia. subst w'.
  assert (whole = whole') by exact (decimal_unique _ _ _ W W'). subst whole'.
  assert (r = r'); [|now subst r'].
  apply decimals_unique; try assumption. fold P P'.
  assert (Hu : (0 < unit)%N) by nia. clear - E E' Hu. nia.
Qed.

(** ** Words *)
Lemma called_unique name args : Forall determined args -> determined (called name args).
Proof.
  intros H t t' (ts & A & ->) (ts' & A' & ->). replace ts' with ts; [reflexivity|].
  revert ts ts' A A'. induction H as [|p args Hp _ IH]; intros ts ts' A A'; inversion A; subst; inversion A'; subst; [reflexivity|].
  f_equal; [now apply Hp|now apply IH].
Qed.
Lemma written_unique name fields : Forall (fun f => determined (snd f)) fields -> determined (written name fields).
Proof.
  intros H t t' (ts & A & ->) (ts' & A' & ->). replace ts' with ts; [reflexivity|].
  revert ts ts' A A'. induction H as [|p args Hp _ IH]; intros ts ts' A A'; inversion A; subst; inversion A'; subst; [reflexivity|].
  destruct H1 as (v & H1 & ->), H2 as (v' & H2 & ->). f_equal; [now rewrite (Hp _ _ H1 H2)|now apply IH].
Qed.
Lemma listed_unique base l : (1 < base)%N -> determined (listed base l).
Proof.
  intros B t t' (ts & A & ->) (ts' & A' & ->). replace ts' with ts; [reflexivity|].
  revert ts ts' A A'. induction l as [|b l IH]; intros ts ts' A A'; inversion A; subst; inversion A'; subst; [reflexivity|].
  f_equal; [|now apply IH]. now apply (numeral_unique base b).
Qed.
Lemma the_unique w : determined (the w).
Proof. unfold the. congruence. Qed.
Lemma address_unique a : determined (address_text a).
Proof. apply called_unique. constructor; [now apply listed_unique|constructor]. Qed.

Section Vendor.
Context (F : features) {V : vendor} (D : vendor_debug V).

(** ** Fields *)
Lemma status_unique code : determined (status_text F D code).
Proof.
  intros t t'. unfold status_text. destruct (nth_error _ _); [congruence|]. intros (v & E & H) (v' & E' & H').
  assert (v = v') by congruence. subst v'. refine (called_unique _ _ _ _ _ H H'). constructor; [apply the_unique|constructor].
Qed.
Lemma number_unique n b says : (forall v, determined (says v)) -> determined (number_of n b says).
Proof.
  intros H t t' (v & L & E & A) (v' & L' & E' & A'). assert (v = v') by (apply (le_inj n); congruence). subst v'. exact (H v _ _ A A').
Qed.
Lemma one_unique name p : determined p -> determined (called name [p]).
Proof. intros H. apply called_unique. now repeat constructor. Qed.
Lemma interval_unique i l s : determined (interval_text i l s).
Proof. apply written_unique. repeat constructor; cbn [snd]; try apply time_unique; apply decimal_unique. Qed.
Fixpoint distinct (l : list N) : bool :=
  match l with [] => true | x :: l => (negb (existsb (N.eqb x) l) && distinct l)%bool end.
Lemma distinct_in {A} (l : list (N * A)) c a b : distinct (map fst l) = true -> In (c, a) l -> In (c, b) l -> a = b.
Proof.
  induction l as [|[x y] l IH]; cbn [map fst distinct]; [contradiction|]. intros H. apply andb_prop in H. destruct H as [H1 H2].
  apply negb_true_iff in H1. assert (K : forall z, ~ In (x, z) l).
  { intros z Hz. assert (T : existsb (N.eqb x) (map fst l) = true); [|congruence].
    apply existsb_exists. exists x. split; [exact (in_map fst _ _ Hz)|apply N.eqb_refl]. }
  intros [A1|A1] [B1|B1]; try congruence.
  - injection A1 as -> ->. destruct (K _ B1).
  - injection B1 as -> ->. destruct (K _ A1).
  - now apply IH.
Qed.
Definition plain (c : content) : bool := match c with IsOneOf words => distinct (map fst words) | _ => true end.
Lemma signed_same z z' : is_i8 z -> is_i8 z' -> signed z = signed z' -> z = z'.
Proof. intros H H' E. destruct (byte_of_signed z H) as [A _], (byte_of_signed z' H') as [A' _]. congruence. Qed.
Lemma says_unique c b : plain c = true -> determined (says F D c b).
Proof.
  intros P t t' [_ H] [_ H']. destruct c; cbn [plain] in P.
  - destruct H as (code & -> & H), H' as (code' & E & H'). injection E as <-. exact (status_unique _ _ _ H H').
  - revert H H'. apply number_unique. intros v. apply decimal_unique.
  - destruct H as (z & I & -> & H), H' as (z' & I' & E & H'). injection E as E. rewrite (signed_same z z' I I' E) in H. exact (signed_unique _ _ _ H H').
  - destruct H as [[-> ->]|(z & I & N & -> & H)], H' as [[E ->]|(z' & I' & N' & E & H')]; try reflexivity.
    + exfalso. injection E as E. apply N'. apply (signed_same z' 127); [exact I'|unfold is_i8; lia|now rewrite <- E].
    + exfalso. injection E as E. apply N. apply (signed_same z 127); [exact I|unfold is_i8; lia|now rewrite E].
    + injection E as E. rewrite (signed_same z z' I I' E) in H. revert H H'. apply one_unique, signed_unique.
  - revert H H'. apply number_unique. intros v. apply one_unique, decimal_unique.
  - revert H H'. apply number_unique. intros v. apply one_unique, decimal_unique.
  - exact (address_unique _ _ _ H H').
  - destruct H as (a & [[-> H]|[-> H]]), H' as (a' & [[E H']|[E H']]); try discriminate E; injection E as <-; revert H H'; apply one_unique, address_unique.
  - destruct H as (i & l & s & A1 & A2 & A3 & -> & H), H' as (i' & l' & s' & B1 & B2 & B3 & E & H').
    assert (K : forall x y, (x < 65536 -> y < 65536 -> le 2 x = le 2 y -> x = y)%N) by (intros x y X Y; apply (le_inj 2); assumption).
    assert (E1 : le 2 i = le 2 i') by (apply (f_equal (firstn 2)) in E; exact E).
    assert (E2 : le 2 l = le 2 l') by (apply (f_equal (fun b => firstn 2 (skipn 2 b))) in E; exact E).
    assert (E3 : le 2 s = le 2 s') by (apply (f_equal (fun b => firstn 2 (skipn 4 b))) in E; exact E).
    apply K in E1, E2, E3; try assumption. subst i' l' s'. exact (interval_unique _ _ _ _ _ H H').
  - destruct H as (code & -> & H), H' as (code' & E & H'). injection E as <-. exact (distinct_in _ _ _ _ P H H').
  - revert H H'. apply number_unique. intros v x y. unfold flags_text. congruence.
  - revert H H'. apply one_unique. now apply listed_unique.
  - destruct H as (x & y & z & H1 & H2 & H3 & ->), H' as (x' & y' & z' & H1' & H2' & H3' & ->).
    now rewrite (listed_unique 10 _ eq_refl _ _ H1 H1'), (listed_unique 10 _ eq_refl _ _ H2 H2'), (listed_unique 10 _ eq_refl _ _ H3 H3').
  - destruct H as (x & H1 & ->), H' as (x' & H1' & ->). now rewrite (listed_unique 16 _ eq_refl _ _ H1 H1').
  - exact (listed_unique 10 _ eq_refl _ _ H H').
Qed.

Lemma Forall2_head {A B} (R : A -> B -> Prop) a l b m : Forall2 R (a :: l) (b :: m) -> R a b /\ Forall2 R l m.
Proof. intros H. now inversion H. Qed.

(** ** Packets *)
Lemma fields_unique name (l : fields) p : forallb (fun f => plain (snd f)) l = true -> determined (fields_of F D name l p).
Proof.
  intros H. apply written_unique. rewrite forallb_forall in H. apply Forall_map, Forall_forall. intros f Hf. cbn [snd]. apply says_unique. now apply H.
Qed.
Definition plain_row (e : N * (string * string * fields)) : bool := forallb (fun f => plain (snd f)) (snd (snd e)).
Lemma row_unique (T : list (N * (string * string * fields))) code p : distinct (map fst T) = true -> forallb plain_row T = true ->
  determined (fun t => exists name struct l, In (code, (name, struct, l)) T /\ called name [fields_of F D struct l p] t).
Proof.
  intros HT HP t t' (n & s & l & I & H) (n' & s' & l' & I' & H'). assert (E := distinct_in _ _ _ _ HT I I'). injection E as <- <- <-.
  rewrite forallb_forall in HP. apply HP in I. revert H H'. apply one_unique. apply fields_unique. exact I.
Qed.
Definition plain_return (e : N * (string * returned)) : bool :=
  match snd (snd e) with Values l => forallb (fun f => plain (snd f)) l | Fields _ l => forallb (fun f => plain (snd f)) l end.
Lemma return_unique op ret : determined (return_text F D op ret).
Proof.
  intros t t' (n & r & I & H) (n' & r' & I' & H').
  assert (HT : distinct (map fst (return_fields F)) = true) by reflexivity.
  assert (HP : forallb plain_return (return_fields F) = true) by reflexivity.
  assert (E := distinct_in _ _ _ _ HT I I'). injection E as <- <-. rewrite forallb_forall in HP. apply HP in I. unfold plain_return in I. cbn [snd] in I.
  destruct r as [l|s l].
  - revert H H'. apply called_unique. rewrite forallb_forall in I. apply Forall_map, Forall_forall. intros f Hf. apply says_unique. now apply I.
  - revert H H'. apply one_unique. now apply fields_unique.
Qed.
Lemma entries_unique (entry : list N -> string -> Prop) l : (forall e, determined (entry e)) -> determined (entries entry l).
Proof.
  intros H t t' (ts & A & ->) (ts' & A' & ->). replace ts' with ts; [reflexivity|].
  revert ts ts' A A'. induction l as [|b l IH]; intros ts ts' A A'; inversion A; subst; inversion A'; subst; [reflexivity|].
  f_equal; [now apply (H b)|now apply IH].
Qed.
(** Entries that know their own length. *)
Lemma pieces_unique (size : list N -> nat) l : forall l',
  (forall e e' r r', List.length e = size e -> List.length e' = size e' -> (e ++ r = e' ++ r')%list -> size e = size e') ->
  (forall e, List.length e = size e -> e <> []) ->
  Forall (fun e => List.length e = size e) l -> Forall (fun e => List.length e = size e) l' -> List.concat l = List.concat l' -> l = l'.
Proof.
  intros l' HS HN. revert l'. induction l as [|e l IH]; intros [|e' l'] A A' E; cbn [List.concat] in E.
  - reflexivity.
  - exfalso. inversion A'; subst. apply (HN e'); [assumption|]. destruct e'; [reflexivity|discriminate E].
  - exfalso. inversion A; subst. apply (HN e); [assumption|]. destruct e; [reflexivity|discriminate E].
  - inversion A; subst. inversion A'; subst. assert (L : size e = size e') by (eapply HS; eassumption).
    assert (K : e = e' /\ List.concat l = List.concat l').
    { assert (LL : List.length e = List.length e') by congruence. clear - E LL. revert e' E LL.
      induction e as [|x e IH]; intros [|y e'] E LL; try discriminate LL; [now split|]. cbn in E. injection E as -> E. destruct (IH e' E ltac:(cbn in LL; congruence)) as [-> H]. now split. }
    destruct K as [-> K]. f_equal. now apply IH.
Qed.
Lemma log_line_unique pkt : determined (log_line F D pkt).
Proof.
  intros t t' H H'.
  assert (HE : distinct (map fst event_fields) = true) by reflexivity. assert (PE : forallb plain_row event_fields = true) by reflexivity.
  assert (HL : distinct (map fst (le_event_fields F)) = true) by reflexivity. assert (PL : forallb plain_row (le_event_fields F) = true) by reflexivity.
  assert (NE : forall c x, In (c, x) event_fields -> In c [0x03; 0x05; 0x08; 0x0C; 0x0F; 0x10; 0x1A; 0x30]%N) by (intros c x I; exact (in_map fst _ _ I)).
  assert (NL : forall c x, In (c, x) (le_event_fields F) -> In c [0x01; 0x03; 0x04; 0x05; 0x07; 0x0C]%N) by (intros c x I; exact (in_map fst _ _ I)).
  assert (NR : forall op ret t, (op / 1024 = 0x3F)%N -> ~ return_text F D op ret t).
  { intros op ret x Hop (n & r & I & _). apply (in_map fst) in I. cbn [fst] in I. revert I. 
    assert (K : Forall (fun c => (c / 1024 <> 0x3F)%N) (map fst (return_fields F))) by (repeat constructor; discriminate).
    rewrite Forall_forall in K. intros I. exact (K op I Hop). }
  assert (OP : forall o o', (o < 65536)%N -> (o' < 65536)%N ->
    ((o' / 256 ^ N.of_nat 0) mod 256 = (o / 256 ^ N.of_nat 0) mod 256)%N -> ((o' / 256 ^ N.of_nat 1) mod 256 = (o / 256 ^ N.of_nat 1) mod 256)%N -> o' = o).
  { intros o o' A B E1 E2. apply (le_inj 2); try assumption. unfold le. cbn [map seq]. now rewrite E1, E2. }
  assert (RT : forall n (P : string -> Prop) x, called "CommandComplete" [written "CommandComplete"
     [("num_hci_command_packets", in_digits 10 n); ("return_params", P)]] x -> exists y, P y).
  { intros n P x (ts & A & _). destruct ts as [|w ts]; [inversion A|]. apply Forall2_head in A. destruct A as [(us & B & _) _].
    destruct us as [|u us]; [inversion B|]. apply Forall2_head in B. destruct B as [_ B].
    destruct us as [|u' us]; [inversion B|]. apply Forall2_head in B. destruct B as [(y & C & _) _]. now exists y. }
  assert (CU : forall n P, determined P -> determined (called "CommandComplete" [written "CommandComplete"
     [("num_hci_command_packets", in_digits 10 n); ("return_params", P)]])).
  { intros n P HP. apply one_unique, written_unique. constructor; [apply decimal_unique|]. constructor; [exact HP|constructor]. }
  inversion H; subst; inversion H'; subst;
    try (match goal with I : In (_, _) event_fields |- _ => apply NE in I; cbn in I; exfalso; lia end);
    try (match goal with I : In (_, _) (le_event_fields F) |- _ => apply NL in I; cbn in I; exfalso; lia end).
  - match goal with A : called ?n [fields_of F D ?s ?l ?p] t, I : In (?c, (?n, ?s, ?l)) _, B : called ?n' [fields_of F D ?s' ?l' ?p] t', I' : In (?c, (?n', ?s', ?l')) _ |- _ =>
      exact (row_unique event_fields c p HE PE t t' (ex_intro _ n (ex_intro _ s (ex_intro _ l (conj I A)))) (ex_intro _ n' (ex_intro _ s' (ex_intro _ l' (conj I' B))))) end.
  - match goal with A : called ?n [fields_of F D ?s ?l ?p] t, I : In (?c, (?n, ?s, ?l)) _, B : called ?n' [fields_of F D ?s' ?l' ?p] t', I' : In (?c, (?n', ?s', ?l')) _ |- _ =>
      exact (row_unique (le_event_fields F) c p HL PL t t' (ex_intro _ n (ex_intro _ s (ex_intro _ l (conj I A)))) (ex_intro _ n' (ex_intro _ s' (ex_intro _ l' (conj I' B))))) end.
  - assert (l = l0). { apply (pieces_unique (fun _ => 4%nat)); try assumption; [intros; reflexivity|intros [] K; [discriminate K|discriminate]|..]; congruence. } subst l0.
    match goal with A : called _ _ t, B : called _ _ t' |- _ => revert A B end. apply one_unique, entries_unique. intros e. apply fields_unique. reflexivity.
  - assert (l = l0).
    { eapply (pieces_unique (fun e => 10 + N.to_nat (nth 8 e 0%N))%nat); try eassumption.
      - intros e e' r r' A B E. apply (f_equal (fun b => nth 8 b 0%N)) in E. rewrite !app_nth1 in E by lia. now rewrite E.
      - intros [] K; [discriminate K|discriminate].
      - now symmetry. }
    subst l0. match goal with A : called _ _ t, B : called _ _ t' |- _ => revert A B end. apply one_unique, entries_unique. intros e. apply fields_unique. reflexivity.
  - assert (opcode0 = opcode) by (apply OP; assumption). subst opcode0.
    match goal with A : called _ _ t, B : called _ _ t' |- _ => revert A B end. apply CU, return_unique.
  - assert (opcode0 = opcode) by (apply OP; assumption). subst opcode0. exfalso.
    match goal with A : called _ _ t, B : (opcode / 1024 = _)%N |- _ => destruct (RT _ _ _ A) as [y Y]; exact (NR _ _ _ B Y) end.
  - assert (opcode0 = opcode) by (apply OP; assumption). subst opcode0. exfalso.
    match goal with A : called _ _ t', B : (opcode / 1024 = _)%N |- _ => destruct (RT _ _ _ A) as [y Y]; exact (NR _ _ _ B Y) end.
  - assert (opcode0 = opcode) by (apply OP; assumption). subst opcode0. assert (v = v0) by congruence. subst v0.
    match goal with A : called _ _ t, B : called _ _ t' |- _ => revert A B end. apply CU, one_unique, the_unique.
  - assert (v = v0) by congruence. subst v0.
    match goal with A : called _ _ t, B : called _ _ t' |- _ => revert A B end. apply one_unique, the_unique.
Qed.
Lemma log_line_only pkt e t : bytes pkt -> event_new F V pkt = Ok e ->
  (prints (fun fuel => @debug_event F V D Empty_set fuel e) t <-> log_line F D pkt t).
Proof.
  intros B H. split; [exact (event_line F D pkt e t B H)|]. intros L.
  destruct (accepted_text F D pkt e B H) as [t' P]. replace t with t'; [exact P|].
  exact (log_line_unique pkt t' t (event_line F D pkt e t' B H P) L).
Qed.
Lemma packet_line pkt e t : bytes pkt -> event_new F V pkt = Ok e ->
  (prints (fun fuel => @debug_uart_packet F V D Empty_set fuel (PEvent e)) t <-> called "Event" [log_line F D pkt] t).
Proof.
  intros B H.
  assert (K : forall x, debug_variant ("Event", [x]) = "Event" ++ "(" ++ joined ", " [x] ++ ")") by reflexivity.
  split.
  - intros [n P]. destruct (accepted_text F D pkt e B H) as [t' [n' P']].
    pose proof (P (n + n')%nat ltac:(lia)) as Q. cbn [debug_uart_packet] in Q. rewrite P' in Q by lia. injection Q as <-.
    exists [t']. split; [|exact (K t')]. constructor; [|constructor]. apply (log_line_only pkt e t' B H). now exists n'.
  - intros (ts & L & ->). inversion L as [|? t' ? ? L1 L2]; subst. inversion L2; subst.
    apply (log_line_only pkt e t' B H) in L1. destruct L1 as [n P]. exists n. intros fuel Hf. cbn [debug_uart_packet]. rewrite P by exact Hf.
    now rewrite K.
Qed.
End Vendor.
