(** * Comparison with [==] (proofs). *)
From Coq Require Import Lia.
From Verif Require Import Base Model_Types Model_Bitflags Model_Intervals Model_Access Model_EventBase Model_Command Model_Event Model_Host
  Model_Debug Model_Log Model_Equal Spec_Wire Spec_Interval Spec_Host Spec_Common Spec_Made Spec_Log Spec_Equal
  Proofs_Base Proofs_Common Proofs_LogText Proofs_LogTypes Proofs_LogEvent Proofs_Log.
Open Scope list_scope.
Open Scope N_scope.

Lemma bytes_proper : proper bytes_eqb.
Proof.
  intros a. induction a as [|x a IH]; intros [|y b]; cbn; try (split; congruence).
  rewrite andb_true_iff, N.eqb_eq, IH. split; [intros [-> ->]; reflexivity|intros H; now injection H].
Qed.
Lemma pair_proper (x y x' y' : N) : (x =? y) && (x' =? y') = true <-> x = y /\ x' = y'.
Proof. now rewrite andb_true_iff, !N.eqb_eq. Qed.

(** ** Statuses *)
Section Status.
Context {VS : Type} (veq : VS -> VS -> bool).
Lemma variant_same (s s' : status VS) : status_variant s = status_variant s' ->
  s = s' \/ exists v w, s = Vendor v /\ s' = Vendor w.
Proof.
  intros H. destruct s; destruct s'; try discriminate H; try (left; reflexivity). right. eexists _, _. split; reflexivity.
Qed.
Lemma status_equal (s s' : status VS) : status_eqb veq s s' = true ->
  s = s' \/ exists v w, s = Vendor v /\ s' = Vendor w /\ veq v w = true.
Proof.
  unfold status_eqb. intros H. apply andb_prop in H. destruct H as [H1 H2]. apply N.eqb_eq in H1.
  destruct (variant_same s s' H1) as [->|(v & w & -> & ->)]; [now left|right; now exists v, w].
Qed.
Lemma status_reflexive (s : status VS) : (forall v, s <> Vendor v) -> status_eqb veq s s = true.
Proof. intros H. unfold status_eqb. rewrite N.eqb_refl. destruct s; try reflexivity. now elim (H v). Qed.
Lemma status_proper : proper veq -> proper (status_eqb veq).
Proof.
  intros P s s'. split.
  - intros H. destruct (status_equal s s' H) as [->|(v & w & -> & -> & Q)]; [reflexivity|]. apply P in Q. now rewrite Q.
  - intros <-. unfold status_eqb. rewrite N.eqb_refl. destruct s; try reflexivity. now apply P.
Qed.
End Status.
Section Codes.
Context (F : features) (V : vendor) (veq : VStatus V -> VStatus V -> bool).
Lemma assigned_not_vendor b s v : nth_error (assigned_statuses F) b = Some s -> s <> @Vendor (VStatus V) v.
Proof.
  intros H ->. apply nth_error_In in H. unfold assigned_statuses in H. apply in_app_or in H.
  destruct H as [H|H]; [|destruct (version_5_0 F)]; cbn in H; repeat (destruct H as [H|H]; [discriminate H|]); exact H.
Qed.
Lemma assigned_once b b' (s : status (VStatus V)) : nth_error (assigned_statuses F) b = Some s -> nth_error (assigned_statuses F) b' = Some s -> b = b'.
Proof.
  assert (D : NoDup (map status_variant (@assigned_statuses (VStatus V) F))).
  { unfold assigned_statuses. destruct (version_5_0 F); cbn; repeat (constructor; [intros I; cbn in I; repeat (destruct I as [I|I]; [discriminate I|]); exact I|]); constructor. }
  intros H H'. apply (map_nth_error status_variant) in H, H'.
  apply (proj1 (NoDup_nth_error _) D); [|congruence]. apply nth_error_Some. congruence.
Qed.
Lemma assigned_compare b b' s s' : status_byte F V b s -> nth_error (assigned_statuses F) (N.to_nat b') = Some s' ->
  (status_eqb veq s s' = true <-> b = b').
Proof.
  unfold status_byte. intros H H'. split.
  - intros Q. destruct (status_equal veq s s' Q) as [->|(v & w & -> & -> & _)]; [|now elim (assigned_not_vendor _ _ w H')].
    destruct (nth_error (assigned_statuses F) (N.to_nat b)) as [t|] eqn:B.
    + subst t. apply N2Nat.inj. exact (assigned_once _ _ _ B H').
    + destruct H as (v & _ & ->). now elim (assigned_not_vendor _ _ v H').
  - intros <-. rewrite H' in H. subst s. apply status_reflexive. intros v. exact (assigned_not_vendor _ _ v H').
Qed.
Lemma statuses_compare b b' s s' : proper veq ->
  (forall c c' v, vstatus_try_from V c = Ok v -> vstatus_try_from V c' = Ok v -> c = c') ->
  status_byte F V b s -> status_byte F V b' s' -> (status_eqb veq s s' = true <-> b = b').
Proof.
  intros P I H H'. rewrite (status_proper veq P s s'). split.
  - intros <-. unfold status_byte in H, H'.
    destruct (nth_error (assigned_statuses F) (N.to_nat b)) as [t|] eqn:B; destruct (nth_error (assigned_statuses F) (N.to_nat b')) as [t'|] eqn:B'.
    + subst t t'. apply N2Nat.inj. exact (assigned_once _ _ _ B B').
    + subst t. destruct H' as (v & _ & ->). now elim (assigned_not_vendor _ _ v B).
    + subst t'. destruct H as (v & _ & ->). now elim (assigned_not_vendor _ _ v B').
    + destruct H as (v & Hv & ->). destruct H' as (w & Hw & E). injection E as <-. exact (I _ _ _ Hv Hw).
  - intros <-. unfold status_byte in H, H'. destruct (nth_error (assigned_statuses F) (N.to_nat b)); [congruence|].
    destruct H as (v & Hv & ->), H' as (w & Hw & ->). congruence.
Qed.
End Codes.

(** ** Codes *)
Ltac small := intros a b; destruct a, b; vm_compute; split; congruence.
Lemma link_type_compares : compares_by link_type_eqb link_type_code. Proof. small. Qed.
Lemma encryption_compares : compares_by encryption_eqb encryption_code. Proof. small. Qed.
Lemma role_compares : compares_by connection_role_eqb role_code. Proof. small. Qed.
Lemma clock_compares : compares_by clock_accuracy_eqb clock_accuracy_code. Proof. small. Qed.
Lemma advertisement_compares : compares_by advertisement_event_eqb advertisement_event_code. Proof. small. Qed.
Lemma tx_power_compares : compares_by tx_power_level_type_eqb tx_power_level_code. Proof. small. Qed.
Lemma own_address_compares : compares_by own_address_type_eqb own_address_code. Proof. small. Qed.
Lemma advertising_filter_compares : compares_by advertising_filter_policy_eqb advertising_filter_code. Proof. small. Qed.
Lemma scan_type_compares : compares_by scan_type_eqb scan_type_code. Proof. small. Qed.
Lemma scan_filter_compares : compares_by scan_filter_policy_eqb scan_filter_code. Proof. small. Qed.
Lemma advertising_type_compares : compares_by advertising_type_eqb advertising_type_code. Proof. small. Qed.
Lemma data_type_compares : compares_by common_data_type_eqb type_name.
Proof.
  intros a b. unfold common_data_type_eqb. rewrite N.eqb_eq. split; [intros H; now rewrite (codes_distinct a b H)|].
  intros H. destruct a, b; try reflexivity; discriminate H.
Qed.
Lemma address_compares : compares_by bd_addr_type_eqb address_bytes.
Proof.
  intros a b. destruct a as [a|a], b as [b|b]; cbn; unfold bd_addr_eqb; rewrite ?(bytes_proper a b); split; congruence.
Qed.
Lemma scan_window_proper a b : sw_eqb a b = true <-> sw_interval a = sw_interval b /\ sw_window a = sw_window b.
Proof. apply pair_proper. Qed.
Lemma scan_parameters_compares : compares_by scan_parameters_eqb scan_parameters_say.
Proof.
  intros a b. unfold scan_parameters_eqb. rewrite !andb_true_iff, (scan_type_compares _ _), scan_window_proper, (own_address_compares _ _), (scan_filter_compares _ _).
  unfold scan_parameters_say. split; [intros [[[-> [-> ->]] ->] ->]; reflexivity|]. intros H. injection H as H1 H2 H3 H4 H5. auto.
Qed.
Lemma scan_parameters_proper : proper scan_parameters_eqb.
Proof.
  intros a b. rewrite (scan_parameters_compares a b). split; [|now intros <-].
  destruct a as [t [i w] o f], b as [t' [i' w'] o' f']. unfold scan_parameters_say. cbn. intros H. injection H as H1 -> -> H4 H5.
  apply scan_type_compares in H1. apply own_address_compares in H4. apply scan_filter_compares in H5.
  assert (t = t') as -> by (destruct t, t'; congruence || discriminate). 
  assert (o = o') as -> by (destruct o, o'; congruence || discriminate).
  assert (f = f') as -> by (destruct f, f'; congruence || discriminate). reflexivity.
Qed.

(** ** Errors *)
Ltac errors := intros a b; destruct a, b; cbn; rewrite ?pair_proper, ?N.eqb_eq; split; intros H; try discriminate H;
  try reflexivity; try (injection H as H; subst; auto); try (injection H as H; subst; auto); try (destruct H; subst; reflexivity).
Lemma conn_interval_error_proper : proper conn_interval_error_eqb.
Proof. errors. Qed.
Lemma expected_length_error_proper : proper expected_conn_length_error_eqb.
Proof. errors. Qed.
Lemma advertising_interval_error_proper : proper advertising_interval_error_eqb.
Proof. errors. Qed.
Lemma scan_window_error_proper : proper scan_window_error_eqb.
Proof. errors. Qed.
Lemma event_error_proper {VE} (veq : VE -> VE -> bool) : proper veq -> proper (event_error_eqb veq).
Proof.
  intros P a b. destruct a, b; try (cbn; split; discriminate); cbn; unfold opcode_eqb;
    rewrite ?andb_true_iff, ?Nat.eqb_eq, ?N.eqb_eq; try (split; intros H; [now subst|now injection H]); try (split; reflexivity).
  - split; [intros [-> ->]; reflexivity|intros H; now injection H].
  - rewrite (bytes_proper _ _). split; intros H; [now subst|now injection H].
  - rewrite (conn_interval_error_proper _ _). split; intros H; [now subst|now injection H].
  - rewrite (P _ _). split; intros H; [now subst|now injection H].
Qed.
Lemma uart_error_proper {E VE} (eeq : E -> E -> bool) (veq : VE -> VE -> bool) : proper eeq -> proper veq -> proper (uart_error_eqb eeq veq).
Proof.
  intros Q P a b. destruct a, b; try (cbn; split; discriminate); cbn.
  - rewrite N.eqb_eq. split; intros H; [now subst|now injection H].
  - rewrite (event_error_proper veq P _ _). split; intros H; [now subst|now injection H].
  - rewrite (Q _ _). split; intros H; [now subst|now injection H].
Qed.
Lemma host_error_proper {E VS} (eeq : E -> E -> bool) (veq : VS -> VS -> bool) : proper eeq -> proper veq -> proper (host_error_eqb eeq veq).
Proof.
  intros Q P a b. destruct a, b; try (cbn; split; discriminate); cbn [host_error_eqb]; unfold bd_addr_eqb;
    rewrite ?(status_proper veq P _ _), ?(bytes_proper _ _), ?(Q _ _), ?pair_proper, ?Nat.eqb_eq, ?N.eqb_eq;
    try (split; intros H; [now subst|now injection H]); try (split; reflexivity).
  split; [intros [-> ->]; reflexivity|intros H; now injection H].
Qed.

(** ** Equal exactly if printed alike *)
Lemma printed_alike {A} (equal : A -> A -> bool) (text : A -> String.string) : proper equal -> (forall a b, text a = text b <-> a = b) -> compares_by equal text.
Proof. intros P T a b. now rewrite (P a b), T. Qed.
Lemma opcode_compares : compares_by opcode_eqb (fun o => (o / 1024, o mod 1024)).
Proof. intros a b. unfold opcode_eqb. rewrite N.eqb_eq. split; [now intros <-|]. intros H. injection H as H1 H2. rewrite (N.div_mod a 1024), (N.div_mod b 1024) by discriminate. now rewrite H1, H2. Qed.
Lemma scan_parameters_same V p q : scan_parameters_eqb p q = true ->
  @command_params V (CLeSetScanParameters p) = @command_params V (CLeSetScanParameters q).
Proof. intros H. apply scan_parameters_proper in H. now rewrite H. Qed.
