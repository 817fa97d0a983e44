(** * Which error is reported; absence of panics in fixed-size decoders. *)
From Verif Require Import Base Model_Types Model_Bitflags Model_Intervals
  Model_EventBase Model_Command Model_Event Spec_Wire Spec_Interval Spec_Errors
  Proofs_Base Proofs_Bits Proofs_Interval Proofs_Event.

(** The computation fails with exactly the error of the check, if any. *)
Definition agrees {E A} (m : outcome E A) (c : option E) : Prop :=
  match c with
  | Some e => m = Err e
  | None => exists a, m = Ok a
  end.

Lemma agrees_ok {E A} (a : A) : agrees (@Ok E A a) (first_error []).
Proof. cbn. eauto. Qed.

Lemma agrees_bind {E A B} (m : outcome E A) (k : A -> outcome E B) c cs :
  agrees m c -> (forall a, m = Ok a -> agrees (k a) (first_error cs)) ->
  agrees (bind m k) (first_error (c :: cs)).
Proof.
  destruct c as [e|]; cbn [first_error agrees].
  - intros -> _. reflexivity.
  - intros [a ->] H. cbn [bind]. apply H. reflexivity.
Qed.

Lemma agrees_one {E A} (m : outcome E A) c : agrees m c -> agrees m (first_error [c]).
Proof. destruct c; cbn; auto. Qed.

Lemma agrees_err {E A} (m : outcome E A) c : agrees m c ->
  (forall e, m = Err e <-> c = Some e) /\ ((exists a, m = Ok a) <-> c = None) /\ m <> Panic.
Proof.
  destruct c as [e'|]; cbn.
  - intros ->. split; [|split].
    + intros e. split; intros H; injection H as ->; reflexivity.
    + split; [intros [a H]; discriminate|discriminate].
    + discriminate.
  - intros [a ->]. split; [|split].
    + intros e. split; discriminate.
    + split; eauto.
    + discriminate.
Qed.

Lemma agrees_wrap {A} V (m : outcome (event_error (VError V)) A) (mk : A -> event V) c :
  agrees m c -> agrees (wrap V m mk) c.
Proof.
  unfold wrap. destruct c; cbn.
  - now intros ->.
  - intros [a ->]. cbn. eauto.
Qed.

Section Errors.
Context (F : features) (V : vendor) (HV : vendor_total V).
Local Notation VE := (VError V).

Lemma require_len_agrees p n : agrees (@require_len VE p n) (length_is V p n).
Proof.
  unfold require_len, length_is. destruct (Nat.eqb (length p) n); cbn; eauto.
Qed.
Lemma require_len_ok p n a : @require_len VE p n = Ok a -> length p = n.
Proof.
  unfold require_len. destruct (Nat.eqb_spec (length p) n); [auto|discriminate].
Qed.

Lemma status_agrees mk b :
  agrees (map_err mk (status_try_from F (vstatus_try_from V) b)) (status_is F V mk b).
Proof.
  rewrite status_try_from_spec. unfold status_is.
  destruct (nth_error _ _); [cbn; eauto|].
  destruct HV as (H & _). specialize (H b).
  destruct (vstatus_try_from V b); cbn; [eauto|reflexivity|contradiction].
Qed.
Lemma status_of_agrees b : agrees (status_of F V b) (status_is F V EBadStatus b).
Proof. apply status_agrees. Qed.
Lemma reason_of_agrees b : agrees (reason_of F V b) (status_is F V EBadReason b).
Proof. apply status_agrees. Qed.

Ltac code_agrees :=
  unfold agrees, code_is;
  repeat match goal with |- context [?b =? ?c] => destruct (N.eqb_spec b c) as [->|] end; cbn;
  try (eexists; reflexivity);
  match goal with |- context [?b <=? ?m] => destruct (N.leb_spec b m); [exfalso; lia|reflexivity] end.

Lemma link_type_agrees b : agrees (link_type_try_from b) (code_is V 1 EBadLinkType b).
Proof. unfold link_type_try_from. code_agrees. Qed.
Lemma encryption_enabled_agrees b :
  agrees (try_into_encryption_enabled b) (code_is V 1 EBadEncryptionEnabledValue b).
Proof. unfold try_into_encryption_enabled. code_agrees. Qed.
Lemma encryption_agrees b : agrees (encryption_try_from b) (code_is V 2 EBadEncryptionType b).
Proof. unfold encryption_try_from. code_agrees. Qed.
Lemma role_agrees b : agrees (connection_role_try_from b) (code_is V 1 EBadLeConnectionRole b).
Proof. unfold connection_role_try_from. code_agrees. Qed.
Lemma clock_accuracy_agrees b :
  agrees (clock_accuracy_try_from b) (code_is V 7 EBadLeCentralClockAccuracy b).
Proof. unfold clock_accuracy_try_from. code_agrees. Qed.
Lemma phy_agrees b : agrees (phy_try_from b) (code_is V 2 EBadPhy b).
Proof. unfold phy_try_from. code_agrees. Qed.
Lemma address_type_agrees b a : agrees (bd_addr_type_of b a) (code_is V 1 EBadLeAddressType b).
Proof. unfold bd_addr_type_of, to_bd_addr_type. code_agrees. Qed.

Lemma interval_agrees a0 a1 l0 l1 t0 t1 p i :
  byte a0 -> byte a1 -> byte t0 -> byte t1 ->
  u16_le p i = a0 + 256 * a1 -> u16_le p (i + 2) = l0 + 256 * l1 -> u16_le p (i + 4) = t0 + 256 * t1 ->
  agrees (map_err EBadConnectionInterval (fci_from_bytes [a0; a1; l0; l1; t0; t1]))
         (interval_is V p i).
Proof.
  intros H0 H1 H2 H3 E1 E2 E3. unfold interval_is. rewrite E1, E2, E3.
  rewrite fci_from_bytes_eq by assumption. cbv zeta.
  destruct (first_failure _); cbn; eauto.
Qed.

(** The boolean form of [only_defined]. *)
Lemma bits_are_spec n defined bit e :
  (forall i, N.of_nat n <= i -> bit i = false) ->
  (only_defined defined bit -> bits_are V n defined bit e = None)
  /\ (~ only_defined defined bit -> bits_are V n defined bit e = Some e).
Proof.
  intros Hb. unfold bits_are.
  destruct (forallb _ _) eqn:E.
  - split; [reflexivity|]. intros H. exfalso. apply H. intros i Hi.
    rewrite forallb_forall in E.
    destruct (N.ltb_spec i (N.of_nat n)) as [Hlt|Hge].
    + apply below_cases in Hlt. specialize (E _ Hlt). rewrite Hi in E. exact E.
    + rewrite Hb in Hi by assumption. discriminate.
  - split; [|reflexivity]. intros H. exfalso.
    assert (K : forallb (fun i => implb (bit i) (defined i)) (map N.of_nat (seq 0 n)) = true).
    { apply forallb_forall. intros i _. destruct (bit i) eqn:Ei; [|reflexivity]. cbn. auto. }
    congruence.
Qed.

Lemma u64_bits v i : u64 v -> 64 <= i -> N.testbit v i = false.
Proof.
  intros Hv Hi. destruct (N.eq_dec v 0) as [->|Hn]; [apply N.bits_0|].
  apply N.bits_above_log2. unfold u64 in Hv. apply N.log2_lt_pow2 in Hv; lia.
Qed.

Lemma array_bits l i : N.of_nat (8 * length l) <= i -> array_bit l i = false.
Proof.
  intros H. unfold array_bit. rewrite (proj2 (nth_error_None l _)); [reflexivity|lia].
Qed.

Lemma number_le_8 b0 b1 b2 b3 b4 b5 b6 b7 :
  number_le [b0; b1; b2; b3; b4; b5; b6; b7]
  = b0 + 2 ^ 8 * b1 + 2 ^ 16 * b2 + 2 ^ 24 * b3
    + 2 ^ 32 * b4 + 2 ^ 40 * b5 + 2 ^ 48 * b6 + 2 ^ 56 * b7.
Proof. rewrite u64_horner. unfold number_le. cbn [fold_right]. lia. Qed.

Ltac reads :=
  cbn -[status_of reason_of link_type_try_from try_into_encryption_enabled encryption_try_from
        connection_role_try_from clock_accuracy_try_from phy_try_from bd_addr_type_of
        fci_from_bytes bf_from_bits bf_from_bits_truncate u8_as_i8 first_error agrees
        status_is code_is interval_is bits_are number_le ba_from_bits command_flags_try_from array_bit].

Ltac start n :=
  apply agrees_bind; [apply require_len_agrees|];
  let a := fresh in let H := fresh "Hlen" in
  intros a H; apply require_len_ok in H; clear a;
  try (cbn [length] in H; injection H as H);
  destruct_len H; bytes_inv; reads.

Ltac step L := apply agrees_bind; [apply L|intros ? _; reads].
Ltac done := apply agrees_ok.

Lemma connection_complete_agrees p : bytes p ->
  forall cs, event_checks F V 0x03 p = Some cs ->
  agrees (to_connection_complete F V p) (first_error cs).
Proof.
  intros Hb cs H. injection H as <-. unfold to_connection_complete. start 11%nat.
  step status_of_agrees. step link_type_agrees. step encryption_enabled_agrees. done.
Qed.
Lemma disconnection_complete_agrees p : bytes p ->
  forall cs, event_checks F V 0x05 p = Some cs ->
  agrees (to_disconnection_complete F V p) (first_error cs).
Proof.
  intros Hb cs H. injection H as <-. unfold to_disconnection_complete. start 4%nat.
  step status_of_agrees. step reason_of_agrees. done.
Qed.
Lemma encryption_change_agrees p : bytes p ->
  forall cs, event_checks F V 0x08 p = Some cs ->
  agrees (to_encryption_change F V p) (first_error cs).
Proof.
  intros Hb cs H. injection H as <-. unfold to_encryption_change. start 4%nat.
  step status_of_agrees. step encryption_agrees. done.
Qed.
Lemma remote_version_agrees p : bytes p ->
  forall cs, event_checks F V 0x0C p = Some cs ->
  agrees (to_remote_version_info F V p) (first_error cs).
Proof.
  intros Hb cs H. injection H as <-. unfold to_remote_version_info. start 8%nat.
  step status_of_agrees. done.
Qed.
Lemma command_status_agrees p : bytes p ->
  forall cs, event_checks F V 0x0F p = Some cs ->
  agrees (to_command_status F V p) (first_error cs).
Proof.
  intros Hb cs H. injection H as <-. unfold to_command_status. start 4%nat.
  step status_of_agrees. done.
Qed.
Lemma hardware_error_agrees p : bytes p ->
  forall cs, event_checks F V 0x10 p = Some cs ->
  agrees (to_hardware_error V p) (first_error cs).
Proof.
  intros Hb cs H. injection H as <-. unfold to_hardware_error. start 1%nat. done.
Qed.
Lemma data_buffer_overflow_agrees p : bytes p ->
  forall cs, event_checks F V 0x1A p = Some cs ->
  agrees (to_data_buffer_overflow V p) (first_error cs).
Proof.
  intros Hb cs H. injection H as <-. unfold to_data_buffer_overflow. start 1%nat.
  step link_type_agrees. done.
Qed.
Lemma encryption_key_refresh_agrees p : bytes p ->
  forall cs, event_checks F V 0x30 p = Some cs ->
  agrees (to_encryption_key_refresh_complete F V p) (first_error cs).
Proof.
  intros Hb cs H. injection H as <-. unfold to_encryption_key_refresh_complete. start 3%nat.
  step status_of_agrees. done.
Qed.

Lemma le_connection_complete_agrees rest : bytes rest ->
  forall cs, event_checks F V 0x3E (0x01 :: rest) = Some cs ->
  agrees (to_le_connection_complete F V (0x01 :: rest)) (first_error cs).
Proof.
  intros Hb cs H. injection H as <-. unfold to_le_connection_complete. start 19%nat.
  step status_of_agrees. step role_agrees. step address_type_agrees.
  apply agrees_bind; [apply interval_agrees; try assumption; reflexivity|intros ? _; reads].
  step clock_accuracy_agrees. done.
Qed.
Lemma le_connection_update_agrees rest : bytes rest ->
  forall cs, event_checks F V 0x3E (0x03 :: rest) = Some cs ->
  agrees (to_le_connection_update_complete F V (0x03 :: rest)) (first_error cs).
Proof.
  intros Hb cs H. injection H as <-. unfold to_le_connection_update_complete. start 10%nat.
  step status_of_agrees.
  apply agrees_bind; [apply interval_agrees; try assumption; reflexivity|intros ? _; reads].
  done.
Qed.
Lemma le_used_features_agrees rest : bytes rest ->
  forall cs, event_checks F V 0x3E (0x04 :: rest) = Some cs ->
  agrees (to_le_read_remote_used_features_complete F V (0x04 :: rest)) (first_error cs).
Proof.
  intros Hb cs H. injection H as <-. unfold to_le_read_remote_used_features_complete. start 12%nat.
  step status_of_agrees. apply agrees_one. rewrite number_le_8.
  match goal with |- context [bf_from_bits F LinkLayerFeature ?v] =>
    assert (Hv : u64 v) by (now apply u64_of_bytes);
    destruct (bits_are_spec 64 (le_feature_defined F) (N.testbit v)
                (EBadRemoteUsedFeatureFlag v) (fun i => u64_bits v i Hv)) as [D1 D2];
    destruct (bf_from_bits_spec F LinkLayerFeature (le_feature_defined F) v (le_feature_bits F))
      as [[-> D]|[-> D]] end.
  - rewrite D1 by exact D. cbn. eauto.
  - rewrite D2 by exact D. reflexivity.
Qed.
Lemma le_ltk_request_agrees rest : bytes rest ->
  forall cs, event_checks F V 0x3E (0x05 :: rest) = Some cs ->
  agrees (to_le_ltk_request V (0x05 :: rest)) (first_error cs).
Proof.
  intros Hb cs H. injection H as <-. unfold to_le_ltk_request. start 13%nat. done.
Qed.
Lemma le_data_length_change_agrees rest : bytes rest ->
  forall cs, event_checks F V 0x3E (0x07 :: rest) = Some cs ->
  agrees (to_le_data_length_change_event V (0x07 :: rest)) (first_error cs).
Proof.
  intros Hb cs H. injection H as <-. unfold to_le_data_length_change_event. start 11%nat. done.
Qed.
Lemma le_phy_update_agrees rest : bytes rest ->
  forall cs, event_checks F V 0x3E (0x0C :: rest) = Some cs ->
  agrees (to_le_phy_update_complete F V (0x0C :: rest)) (first_error cs).
Proof.
  intros Hb cs H. injection H as <-. unfold to_le_phy_update_complete. start 6%nat.
  step status_of_agrees. step phy_agrees. step phy_agrees. done.
Qed.

(** All fixed-size events at once. *)
Lemma event_agrees code p cs : bytes p -> event_checks F V code p = Some cs ->
  agrees (event_new F V (framed code p)) (first_error cs).
Proof.
  intros Hb H. rewrite event_new_framed.
  assert (Hc : In code [0x03; 0x05; 0x08; 0x0C; 0x0F; 0x10; 0x1A; 0x30; 0x3E]).
  { unfold event_checks in H.
    repeat (match type of H with (match ?x with _ => _ end) = _ =>
              destruct x; try discriminate H end; try (cbn; tauto)). }
  repeat (destruct Hc as [<-|Hc];
    [try (apply agrees_wrap;
          first [ now apply connection_complete_agrees | now apply disconnection_complete_agrees
                | now apply encryption_change_agrees | now apply remote_version_agrees
                | now apply command_status_agrees | now apply hardware_error_agrees
                | now apply data_buffer_overflow_agrees | now apply encryption_key_refresh_agrees ])
    |]); [|destruct Hc].
  destruct p as [|sub rest]; [discriminate|]. apply bytes_cons in Hb. destruct Hb as [_ Hb].
  change (event_dispatch F V 0x3E (sub :: rest)) with (to_le_meta_event F V (sub :: rest)).
  assert (Hc : In sub [0x01; 0x03; 0x04; 0x05; 0x07; 0x0C]).
  { cbn -[length_is status_is code_is interval_is bits_are at_ number_le] in H.
    repeat (match type of H with (match ?x with _ => _ end) = _ =>
              destruct x; try discriminate H end; try (cbn; tauto)). }
  rewrite meta_cons.
  repeat (destruct Hc as [<-|Hc];
    [apply agrees_wrap;
          first [ now apply le_connection_complete_agrees | now apply le_connection_update_agrees
                | now apply le_used_features_agrees | now apply le_ltk_request_agrees
                | now apply le_data_length_change_agrees | now apply le_phy_update_agrees ]
    |]); destruct Hc.
Qed.

(** *** Return parameters *)
Local Notation res := (outcome (event_error VE)).

End Errors.
