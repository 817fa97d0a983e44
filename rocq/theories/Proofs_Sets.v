(** * Expressions for sets of flags (proofs). *)
From Coq Require Import String.
From Verif Require Import Base Model_Types Model_Bitflags Model_FlagNames Model_SetOps Model_EventBase Model_Event
  Model_Host Spec_Wire Spec_Host Spec_FlagNames Spec_Sets Proofs_Base Proofs_FlagNames.
Open Scope list_scope.
Open Scope N_scope.

(** ** Names and bits are different *)
Fixpoint distinct {A} (eqb : A -> A -> bool) (l : list A) : bool :=
  match l with [] => true | x :: l => negb (existsb (eqb x) l) && distinct eqb l end.
Lemma distinct_nodup {A} (eqb : A -> A -> bool) l : (forall x, eqb x x = true) -> distinct eqb l = true -> NoDup l.
Proof.
  intros R. induction l as [|x l IH]; intros H; [constructor|]. cbn in H. apply andb_true_iff in H.
  destruct H as [H K]. constructor; [|now apply IH]. intros I. apply negb_true_iff in H.
  assert (existsb (eqb x) l = true) by (apply existsb_exists; exists x; auto). congruence.
Qed.
Definition well_declared (names : list string) (d : flag_decl) : Prop :=
  NoDup names /\ NoDup (map fst d) /\ List.length names = List.length d /\ Forall (fun x => fst x < 64) d.
Lemma types_declared names d : In (names, d) flag_types -> well_declared names d.
Proof.
  intros H.
  assert (K : forallb (fun x => distinct String.eqb (fst x) && distinct N.eqb (map fst (snd x))
                && Nat.eqb (List.length (fst x)) (List.length (snd x))
                && forallb (fun y => fst y <? 64) (snd x)) flag_types = true) by (vm_compute; reflexivity).
  rewrite forallb_forall in K. specialize (K _ H). cbn [fst snd] in K. rewrite !andb_true_iff in K.
  destruct K as [[[K1 K2] K3] K4]. split; [|split; [|split]].
  - apply (distinct_nodup String.eqb); [apply String.eqb_refl|exact K1].
  - apply (distinct_nodup N.eqb); [apply N.eqb_refl|exact K2].
  - now apply Nat.eqb_eq.
  - apply Forall_forall. rewrite forallb_forall in K4. intros x Hx. apply N.ltb_lt. now apply K4.
Qed.

Lemma some_inj {A} (a b : A) : Some a = Some b -> a = b.
Proof. congruence. Qed.

Section Type_.
Context (F : features) (names : list string) (d : flag_decl).
Hypothesis W : well_declared names d.

Lemma declared_in l (l' : flag_decl) name b : declared F l l' name = Some b -> In b (map fst l').
Proof.
  revert l'. induction l as [|n l IH]; intros [|[v c] l']; cbn [declared]; try discriminate.
  destruct (String.eqb n name).
  - destruct (cfg_on F c); [|discriminate]. intros K; injection K as ->. now left.
  - intros K. right. now apply (IH l').
Qed.
Lemma declared_name l (l' : flag_decl) name b : declared F l l' name = Some b -> In name l.
Proof.
  revert l'. induction l as [|n l IH]; intros [|[v c] l']; cbn [declared]; try discriminate.
  destruct (String.eqb_spec n name) as [->|]; [now left|]. intros K. right. now apply (IH l').
Qed.
Lemma declared_one l (l' : flag_decl) n n' b : NoDup (map fst l') -> declared F l l' n = Some b ->
  declared F l l' n' = Some b -> n = n'.
Proof.
  revert l'. induction l as [|m l IH]; intros [|[v c] l'] N0; cbn [declared]; try discriminate.
  inversion N0 as [|? ? Nv Nl]; subst.
  destruct (String.eqb_spec m n) as [->|E1], (String.eqb_spec n n') as [E2|E2]; auto.
  - destruct (cfg_on F c); [|discriminate]. intros K; injection K as ->.
    destruct (String.eqb_spec n n'); [congruence|]. intros K. apply declared_in in K. cbn in Nv. contradiction.
  - destruct (String.eqb_spec m n') as [->|E3]; [|apply IH; auto].
    intros K. destruct (cfg_on F c); [|discriminate]. intros K'; injection K' as ->.
    apply declared_in in K. cbn in Nv. contradiction.
Qed.
Lemma all_bit l (l' : flag_decl) b : NoDup l -> List.length l = List.length l' ->
  N.testbit (bf_all F l') b = true <-> exists name, declared F l l' name = Some b.
Proof.
  revert l'. induction l as [|n l IH]; intros [|[v c] l'] N0 L; try discriminate L.
  - cbn [bf_all fold_right declared]. split; [rewrite N.bits_0; discriminate|intros [name K]; discriminate].
  - inversion N0 as [|? ? Nn Nl]; subst. injection L as L. specialize (IH l' Nl L).
    change (bf_all F ((v, c) :: l')) with (if cfg_on F c then N.lor (N.shiftl 1 v) (bf_all F l') else bf_all F l').
    cbn [declared]. destruct (cfg_on F c).
    + rewrite N.lor_spec, orb_true_iff, IH, N.shiftl_1_l. split.
      * intros [K|[name K]].
        -- exists n. rewrite String.eqb_refl. rewrite N.pow2_bits_eqb in K. apply N.eqb_eq in K. now subst.
        -- exists name. destruct (String.eqb_spec n name) as [->|]; [|exact K].
           exfalso. apply Nn. now apply declared_name in K.
      * intros [name K]. destruct (String.eqb n name).
        -- injection K as ->. left. now rewrite N.pow2_bits_true.
        -- right. now exists name.
    + rewrite IH. split; intros [name K]; exists name; destruct (String.eqb_spec n name) as [->|]; auto; try discriminate.
      exfalso. apply Nn. now apply declared_name in K.
Qed.

Lemma value_bit e name b v : exists_as F names d name b -> value F names d e = Some v ->
  N.testbit v b = member e name b.
Proof.
  intros X. destruct W as (W1 & W2 & W3 & _).
  revert v. induction e as [n| | |x IHx y IHy|x IHx y IHy|x IHx y IHy|x IHx y IHy|x IHx|x IHx y IHy on|bits];
    intros v; cbn [value member].
  - unfold bf_constant. destruct (declared F names d n) as [b'|] eqn:E; [|discriminate].
    intros K; apply some_inj in K; subst v. rewrite N.shiftl_1_l, N.pow2_bits_eqb.
    destruct (String.eqb_spec n name) as [->|E']; [unfold exists_as in X; apply N.eqb_eq; congruence|].
    apply N.eqb_neq. intros ->. apply E'. now apply (declared_one names d n name b).
  - intros K; injection K as <-. apply (all_bit names d b W1 W3). now exists name.
  - intros K; injection K as <-. apply N.bits_0.
  - destruct (value F names d x) as [vx|], (value F names d y) as [vy|]; try discriminate.
    intros K; injection K as <-. unfold bf_union. rewrite N.lor_spec, (IHx vx), (IHy vy); reflexivity.
  - destruct (value F names d x) as [vx|], (value F names d y) as [vy|]; try discriminate.
    intros K; injection K as <-. unfold bf_difference. rewrite N.ldiff_spec, (IHx vx), (IHy vy); reflexivity.
  - destruct (value F names d x) as [vx|], (value F names d y) as [vy|]; try discriminate.
    intros K; injection K as <-. unfold bf_intersection. rewrite N.land_spec, (IHx vx), (IHy vy); reflexivity.
  - destruct (value F names d x) as [vx|], (value F names d y) as [vy|]; try discriminate.
    intros K; injection K as <-. unfold bf_symmetric_difference. rewrite N.lxor_spec, (IHx vx), (IHy vy); reflexivity.
  - destruct (value F names d x) as [vx|]; [|discriminate].
    intros K; injection K as <-. unfold bf_complement. rewrite N.ldiff_spec, (IHx vx) by reflexivity.
    replace (N.testbit (bf_all F d) b) with true; [reflexivity|].
    symmetry. apply (all_bit names d b W1 W3). now exists name.
  - destruct (value F names d x) as [vx|], (value F names d y) as [vy|]; try discriminate.
    intros K; injection K as <-. unfold bf_set, bf_union, bf_difference. destruct on;
    rewrite ?N.lor_spec, ?N.ldiff_spec, (IHx vx), (IHy vy) by reflexivity;
    destruct (member y name b), (member x name b); reflexivity.
  - intros K; injection K as <-. unfold bf_from_bits_truncate. rewrite N.land_spec.
    replace (N.testbit (bf_all F d) b) with true; [apply andb_true_r|].
    symmetry. apply (all_bit names d b W1 W3). now exists name.
Qed.

(** Only declared bits. *)
Lemma value_within e v i : value F names d e = Some v -> N.testbit v i = true -> N.testbit (bf_all F d) i = true.
Proof.
  destruct W as (W1 & W2 & W3 & _).
  revert v. induction e as [n| | |x IHx y IHy|x IHx y IHy|x IHx y IHy|x IHx y IHy|x IHx|x IHx y IHy on|bits];
    intros v; cbn [value].
  - unfold bf_constant. destruct (declared F names d n) as [b'|] eqn:E; [|discriminate].
    intros K; apply some_inj in K; subst v. rewrite N.shiftl_1_l, N.pow2_bits_eqb. intros K.
    apply N.eqb_eq in K. subst. apply (all_bit names d i W1 W3). now exists n.
  - intros K; injection K as <-. auto.
  - intros K; injection K as <-. unfold bf_empty. rewrite N.bits_0. discriminate.
  - destruct (value F names d x) as [vx|], (value F names d y) as [vy|]; try discriminate.
    intros K; injection K as <-. unfold bf_union. rewrite N.lor_spec, orb_true_iff. intros [K|K]; eauto.
  - destruct (value F names d x) as [vx|], (value F names d y) as [vy|]; try discriminate.
    intros K; injection K as <-. unfold bf_difference. rewrite N.ldiff_spec, andb_true_iff. intros [K _]; eauto.
  - destruct (value F names d x) as [vx|], (value F names d y) as [vy|]; try discriminate.
    intros K; injection K as <-. unfold bf_intersection. rewrite N.land_spec, andb_true_iff. intros [K _]; eauto.
  - destruct (value F names d x) as [vx|], (value F names d y) as [vy|]; try discriminate.
    intros K; injection K as <-. unfold bf_symmetric_difference. rewrite N.lxor_spec.
    destruct (N.testbit vx i) eqn:B1; [eauto|]. destruct (N.testbit vy i) eqn:B2; [eauto|discriminate].
  - destruct (value F names d x) as [vx|]; [|discriminate].
    intros K; injection K as <-. unfold bf_complement. rewrite N.ldiff_spec, andb_true_iff. intros [K _]; exact K.
  - destruct (value F names d x) as [vx|], (value F names d y) as [vy|]; try discriminate.
    intros K; injection K as <-. unfold bf_set, bf_union, bf_difference. destruct on.
    + rewrite N.lor_spec, orb_true_iff. intros [K|K]; eauto.
    + rewrite N.ldiff_spec, andb_true_iff. intros [K _]; eauto.
  - intros K; injection K as <-. unfold bf_from_bits_truncate. rewrite N.land_spec, andb_true_iff. tauto.
Qed.

Lemma contains_named e v name c : value F names d e = Some v -> bf_constant F names d name = Some c ->
  exists b, exists_as F names d name b /\ bf_contains v c = member e name b.
Proof.
  intros E. unfold bf_constant. destruct (declared F names d name) as [b|] eqn:D; [|discriminate].
  intros K; apply some_inj in K; subst c. exists b. split; [exact D|].
  rewrite contains_bit. now apply value_bit.
Qed.

(** Two values, by their members. *)
Lemma values_bits e v : value F names d e = Some v ->
  forall i, (N.testbit v i = true <-> exists name, exists_as F names d name i /\ member e name i = true).
Proof.
  intros E i. destruct W as (W1 & W2 & W3 & _). split.
  - intros T. pose proof (value_within e v i E T) as A. apply (all_bit names d i W1 W3) in A.
    destruct A as [name D]. exists name. split; [exact D|]. rewrite <- (value_bit e name i v D E). exact T.
  - intros (name & D & M). rewrite (value_bit e name i v D E). exact M.
Qed.
Definition subset (e e' : flags) : Prop :=
  forall name b, exists_as F names d name b -> member e name b = true -> member e' name b = true.
Lemma contains_set e v e' v' : value F names d e = Some v -> value F names d e' = Some v' ->
  bf_contains v v' = true <-> subset e' e.
Proof.
  intros E E'. unfold bf_contains. rewrite N.eqb_eq. split.
  - intros K name b D M. rewrite <- (value_bit e name b v D E). rewrite <- (value_bit e' name b v' D E') in M.
    rewrite <- K, N.land_spec in M. apply andb_true_iff in M. apply M.
  - intros S. apply N.bits_inj. intros i. rewrite N.land_spec. destruct (N.testbit v' i) eqn:T; [|apply andb_false_r].
    rewrite andb_true_r. apply (values_bits e' v' E') in T. destruct T as (name & D & M).
    rewrite (value_bit e name i v D E). now apply S.
Qed.
Lemma equal_set e v e' v' : value F names d e = Some v -> value F names d e' = Some v' ->
  bf_eq v v' = true <-> (forall name b, exists_as F names d name b -> member e name b = member e' name b).
Proof.
  intros E E'. unfold bf_eq. rewrite N.eqb_eq. split.
  - intros K name b D. rewrite <- (value_bit e name b v D E), <- (value_bit e' name b v' D E'). now subst.
  - intros S. apply N.bits_inj. intros i. apply eq_true_iff_eq.
    rewrite (values_bits e v E i), (values_bits e' v' E' i).
    split; intros (name & D & M); exists name; (split; [exact D|]); [rewrite <- (S name i D)|rewrite (S name i D)]; exact M.
Qed.
Lemma empty_set e v : value F names d e = Some v ->
  bf_is_empty v = true <-> (forall name b, exists_as F names d name b -> member e name b = false).
Proof. intros E. exact (equal_set e v NoFlags bf_empty E eq_refl). Qed.
Lemma full_set e v : value F names d e = Some v ->
  bf_is_all F d v = true <-> (forall name b, exists_as F names d name b -> member e name b = true).
Proof. intros E. exact (equal_set e v AllFlags (bf_all F d) E eq_refl). Qed.
Lemma common_flag e v e' v' : value F names d e = Some v -> value F names d e' = Some v' ->
  bf_intersects v v' = true
  <-> exists name b, exists_as F names d name b /\ member e name b = true /\ member e' name b = true.
Proof.
  intros E E'.
  assert (EI : value F names d (Intersection e e') = Some (N.land v v')) by (cbn [value]; rewrite E, E'; reflexivity).
  pose proof (empty_set _ _ EI) as X. unfold bf_intersects. rewrite negb_true_iff. split.
  - intros K. destruct (N.eq_dec (N.land v v') 0) as [Z|Z].
    + unfold bf_is_empty, bf_empty in K. rewrite Z in K. discriminate.
    + pose proof (N.bit_log2 _ Z) as T.
      apply (values_bits _ _ EI) in T. destruct T as (name & D & M). cbn [member] in M.
      apply andb_true_iff in M. exists name, (N.log2 (N.land v v')). tauto.
  - intros (name & b & D & M & M'). destruct (bf_is_empty _) eqn:K; [|reflexivity].
    pose proof (proj1 X eq_refl name b D) as K1. cbn [member] in K1. rewrite M, M' in K1. discriminate.
Qed.
Lemma value_legal e v : value F names d e = Some v -> bf_from_bits F d v = Some v /\ u64 v.
Proof.
  intros E. destruct W as (W1 & W2 & W3 & W4). split.
  - unfold bf_from_bits. replace (N.ldiff v (bf_all F d)) with 0; [reflexivity|]. symmetry.
    apply N.bits_inj. intros i. rewrite N.ldiff_spec, N.bits_0.
    destruct (N.testbit v i) eqn:T; [|reflexivity]. now rewrite (value_within e v i E T).
  - unfold u64. destruct (N.eq_dec v 0) as [->|Z]; [reflexivity|].
    apply N.log2_lt_pow2; [lia|]. pose proof (N.bit_log2 v Z) as T.
    pose proof (value_within e v _ E T) as A. apply (all_bit names d _ W1 W3) in A. destruct A as [name D].
    apply declared_in in D. apply in_map_iff in D. destruct D as (x & Hx & I).
    rewrite Forall_forall in W4. specialize (W4 x I). lia.
Qed.
End Type_.

(** ** Event masks *)
Lemma in_types_events : In (EventFlags_names, EventFlags) flag_types.
Proof. cbn. tauto. Qed.
Lemma in_types_le_events : In (LeEventFlags_names, LeEventFlags) flag_types.
Proof. cbn. tauto. Qed.
Lemma events_asked F V pkt ev name e mask : event_new F V pkt = Ok ev -> event_flag ev = Some name ->
  value F EventFlags_names EventFlags e = Some mask ->
  exists b header params, exists_as F EventFlags_names EventFlags name b
    /\ sent F V uart_header (CSetEventMask mask) = [(header, params)]
    /\ event_enabled params pkt = member e name b.
Proof.
  intros H1 H2 E. pose proof (types_declared _ _ in_types_events) as W.
  destruct (event_mask_named F V pkt ev name H1 H2) as (c & Hc & K).
  destruct (contains_named F _ _ W e mask name c E Hc) as (b & D & M).
  destruct (K mask (proj2 (value_legal F _ _ W e mask E))) as (header & params & S & T).
  exists b, header, params. split; [exact D|]. split; [exact S|]. congruence.
Qed.
Lemma le_events_asked F V pkt ev name e mask : event_new F V pkt = Ok ev -> le_event_flag ev = Some name ->
  le_event_known F ev = true -> value F LeEventFlags_names LeEventFlags e = Some mask ->
  exists b header params, exists_as F LeEventFlags_names LeEventFlags name b
    /\ sent F V uart_header (CLeSetEventMask mask) = [(header, params)]
    /\ le_event_enabled params pkt = member e name b.
Proof.
  intros H1 H2 H3 E. pose proof (types_declared _ _ in_types_le_events) as W.
  pose proof (le_event_mask_named F V pkt ev name H1 H2) as X. rewrite H3 in X. destruct X as (c & Hc & K).
  destruct (contains_named F _ _ W e mask name c E Hc) as (b & D & M).
  destruct (K mask (proj2 (value_legal F _ _ W e mask E))) as (header & params & S & T).
  exists b, header, params. split; [exact D|]. split; [exact S|]. congruence.
Qed.
