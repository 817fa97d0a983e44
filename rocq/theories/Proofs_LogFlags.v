(** * Derived [Debug] texts can be read back: flags, variants and structs. *)
From Verif Require Import Base Model_Types Model_Bitflags Model_FlagNames Model_Intervals Model_EventBase
  Model_Command Model_Event Model_Host Model_Debug Model_Log Spec_Wire Spec_Flags Spec_Debug Spec_Log
  Proofs_Base Proofs_Bits Proofs_FlagNames Proofs_Debug Proofs_LogText.
From Coq Require Import String Ascii.
Open Scope list_scope.
Open Scope N_scope.
Open Scope string_scope.

(** ** Flags *)
Section Flags.
Context (F : features).
Definition within (d : flag_decl) (v : N) : Prop :=
  forall i, N.testbit v i = true -> N.testbit (bf_all F d) i = true.

Lemma bf_all_declared d i : N.testbit (bf_all F d) i = true -> exists c, In (i, c) d /\ cfg_on F c = true.
Proof.
  unfold bf_all. induction d as [|[b c] d IH]; cbn [fold_right filter map].
  - rewrite N.bits_0. discriminate.
  - cbn [snd]. destruct (cfg_on F c) eqn:E; cbn [fold_right fst]; intros H.
    + rewrite N.lor_spec, N.shiftl_1_l, N.pow2_bits_eqb in H. apply orb_prop in H. destruct H as [H|H].
      * apply N.eqb_eq in H. subst. exists c. split; [now left|exact E].
      * destruct (IH H) as (c' & K & L). exists c'. split; [now right|exact L].
    + destruct (IH H) as (c' & K & L). exists c'. split; [now right|exact L].
Qed.
Lemma bf_names_subset names : forall d v n, In n (bf_names F names d v) -> In n names.
Proof.
  induction names as [|m names IH]; intros [|[b c] d] v n; cbn [bf_names]; try contradiction.
  destruct (_ && _)%bool; cbn [In]; intros H; [destruct H as [H|H]; [now left|]|]; right; now apply (IH d v).
Qed.
Lemma bf_names_inj names : forall d v w, NoDup names -> (List.length d <= List.length names)%nat ->
  bf_names F names d v = bf_names F names d w ->
  forall i c, In (i, c) d -> cfg_on F c = true -> N.testbit v i = N.testbit w i.
Proof.
  induction names as [|m names IH]; intros [|[b c] d] v w Hn Hl H i c' Hi Hc;
    cbn [bf_names In List.length] in *; try contradiction; try lia.
  apply NoDup_cons_iff in Hn. destruct Hn as [Hm Hn].
  rewrite !contains_bit in H.
  assert (G : forall x y z, bf_names F names d x = m :: y -> bf_names F names d x = z -> False).
  { intros x y z E _. apply Hm. apply (bf_names_subset names d x). rewrite E. now left. }
  destruct Hi as [E|Hi].
  - injection E as -> ->. rewrite Hc in H. cbn [andb] in H.
    destruct (N.testbit v i), (N.testbit w i); try reflexivity; exfalso.
    + now eapply G; [symmetry; exact H|].
    + now eapply G; [exact H|].
  - apply (IH d v w) with (c := c'); try assumption; [lia|].
    destruct (cfg_on F c), (N.testbit v b), (N.testbit w b); cbn [andb] in H; try congruence; exfalso.
    + now eapply G; [symmetry; exact H|].
    + now eapply G; [exact H|].
Qed.

Lemma join_cons a b l : concat " | " (a :: b :: l) = a ++ " | " ++ concat " | " (b :: l).
Proof. reflexivity. Qed.
Lemma bar_not_closes t : ~ closes (" | " ++ t).
Proof.
  intros [H|[(c & u & H & K)|(u & H)]]; [discriminate| |discriminate].
  injection H as <- _. cbn in K. destruct K as [K|[K|[K|[]]]]; discriminate.
Qed.
Lemma join_split l : forall l' r r', l <> [] -> l' <> [] -> Forall (fun s => wordy s = true) l ->
  Forall (fun s => wordy s = true) l' -> closes r -> closes r' ->
  concat " | " l ++ r = concat " | " l' ++ r' -> l = l' /\ r = r'.
Proof.
  assert (B : forall t, stops (" | " ++ t)) by reflexivity.
  induction l as [|a l IH]; intros [|a' l'] r r' N1 N2 W W' C C' H; try congruence.
  apply Forall_inv in W as Wa. apply Forall_inv in W' as Wa'. apply Forall_inv_tail in W, W'.
  destruct l as [|b l], l' as [|b' l']; rewrite ?join_cons, ?sapp_assoc in H.
  - cbn [concat] in H. apply word_split in H; try assumption; try now apply closes_stops.
    destruct H as [-> ->]. auto.
  - cbn [concat] in H. apply word_split in H; try assumption; try now apply closes_stops.
    2: apply B. destruct H as [_ ->]. now elim (bar_not_closes _ C).
  - change (concat " | " [a']) with a' in H. apply word_split in H; try assumption; try now apply closes_stops.
    2: apply B. destruct H as [_ <-]. now elim (bar_not_closes _ C').
  - apply word_split in H; try assumption; try apply B. destruct H as [-> H]. apply sapp_inv in H.
    apply IH in H; try assumption; try discriminate. destruct H as [-> ->]. auto.
Qed.

Lemma empty_not_words l r r' : Forall (fun s => wordy s = true /\ s <> "") l -> l <> [] ->
  "(empty)" ++ r <> concat " | " l ++ r'.
Proof.
  intros H Hn. destruct l as [|a l]; [now elim Hn|]. apply Forall_inv in H. destruct H as [W Ne].
  destruct a as [|c a]; [now elim Ne|].
  assert (K : exists t, concat " | " (String c a :: l) ++ r' = String c t).
  { destruct l; eexists; reflexivity. }
  destruct K as [t ->]. cbn. intros E. injection E as <- _. discriminate W.
Qed.
Definition names_ok (names : list string) (d : flag_decl) : Prop :=
  NoDup names /\ (List.length d <= List.length names)%nat
  /\ Forall (fun s => wordy s = true /\ s <> "") names.
Lemma bitflags_legible names d : names_ok names d -> legible (within d) (debug_bitflags F names d).
Proof.
  intros (Hn & Hl & Hw) v w r r' Hv Hv' C C' H.
  assert (W : forall x, Forall (fun s => wordy s = true /\ s <> "") (bf_names F names d x)).
  { intros x. apply Forall_forall. intros n Hi. apply bf_names_subset in Hi.
    now apply (proj1 (Forall_forall _ _) Hw). }
  assert (W1 : forall x, Forall (fun s => wordy s = true) (bf_names F names d x)).
  { intros x. eapply Forall_impl; [|apply W]. now intros s [K _]. }
  assert (E : bf_names F names d v = bf_names F names d w /\ r = r').
  { unfold debug_bitflags in H. assert (Wv := W v). assert (Ww := W w). assert (Xv := W1 v). assert (Xw := W1 w).
    destruct (bf_names F names d v) as [|a l] eqn:Ev, (bf_names F names d w) as [|b m] eqn:Ew.
    - apply sapp_inv in H. auto.
    - exfalso. revert H. now apply empty_not_words.
    - exfalso. symmetry in H. revert H. now apply empty_not_words.
    - apply join_split in H; try assumption; discriminate. }
  destruct E as [E ->]. split; [|reflexivity]. apply N.bits_inj. intros i.
  assert (K := bf_names_inj names d v w Hn Hl E i).
  destruct (N.testbit v i) eqn:Ei.
  - destruct (bf_all_declared d i (Hv i Ei)) as (c & A & B). now apply (K c).
  - destruct (N.testbit w i) eqn:Ej; [|reflexivity].
    destruct (bf_all_declared d i (Hv' i Ej)) as (c & A & B). now apply (K c).
Qed.
End Flags.
Fixpoint nodupb (l : list string) : bool :=
  match l with [] => true | a :: l => (negb (existsb (String.eqb a) l) && nodupb l)%bool end.
Lemma nodupb_true l : nodupb l = true -> NoDup l.
Proof.
  induction l as [|a l IH]; cbn [nodupb]; intros H; constructor; apply andb_prop in H; destruct H as [H K].
  - intros Hi. rewrite negb_true_iff in H. rewrite <- not_true_iff_false in H. apply H, existsb_exists.
    exists a. split; [exact Hi|apply String.eqb_refl].
  - now apply IH.
Qed.
Lemma names_okb names d :
  (List.length d <=? List.length names)%nat = true ->
  forallb (fun s => (wordy s && negb (String.eqb s ""))%bool) names = true ->
  nodupb names = true -> names_ok names d.
Proof.
  intros H1 H2 H3. split; [|split].
  - now apply nodupb_true.
  - now apply Nat.leb_le.
  - apply Forall_forall. intros s Hs. rewrite forallb_forall in H2. specialize (H2 s Hs).
    apply andb_prop in H2. destruct H2 as [A B]. split; [exact A|]. intros ->. discriminate B.
Qed.
Lemma link_layer_names : names_ok LinkLayerFeature_names LinkLayerFeature.
Proof. apply names_okb; vm_compute; reflexivity. Qed.
Lemma lmp_names : names_ok LmpFeatures_names LmpFeatures.
Proof. apply names_okb; vm_compute; reflexivity. Qed.
Lemma le_names : names_ok LeFeatures_names LeFeatures.
Proof. apply names_okb; vm_compute; reflexivity. Qed.
Lemma states_names : names_ok LeStates_names LeStates.
Proof. apply names_okb; vm_compute; reflexivity. Qed.
Lemma channels_names : names_ok ["CH_37"; "CH_38"; "CH_39"] Channels.
Proof. apply names_okb; vm_compute; reflexivity. Qed.

(** ** Variants and structs *)
Definition args_text (args : list string) : string :=
  match args with [] => "" | _ => "(" ++ concat ", " args ++ ")" end.
Lemma variant_text v : debug_variant v = fst v ++ args_text (snd v).
Proof. destruct v as [n [|a l]]; [|reflexivity]; cbn; induction n as [|c n IH]; [reflexivity|]; cbn; now rewrite <- IH. Qed.
Lemma variant_split v v' r r' : wordy (fst v) = true -> wordy (fst v') = true -> closes r -> closes r' ->
  debug_variant v ++ r = debug_variant v' ++ r' ->
  fst v = fst v' /\ args_text (snd v) ++ r = args_text (snd v') ++ r'.
Proof.
  intros W W' C C' H. rewrite !variant_text, !sapp_assoc in H.
  apply word_split in H; try assumption.
  - destruct (snd v); [now apply closes_stops|reflexivity].
  - destruct (snd v'); [now apply closes_stops|reflexivity].
Qed.
