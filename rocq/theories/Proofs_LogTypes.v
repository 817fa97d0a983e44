(** * Derived [Debug] texts can be read back: the types. *)
From Verif Require Import Base Model_Types Model_Bitflags Model_FlagNames Model_Intervals Model_EventBase
  Model_Command Model_Event Model_Host Model_Debug Model_Log Spec_Wire Spec_Flags Spec_Debug Spec_Log
  Proofs_Base Proofs_Bits Proofs_FlagNames Proofs_Debug Proofs_LogText Proofs_LogFlags.
From Coq Require Import String Ascii.
Open Scope list_scope.
Open Scope N_scope.
Open Scope string_scope.

Lemma use_legible {A} (P : A -> Prop) (show : A -> string) x y r r' : legible P show ->
  P x -> P y -> closes r -> closes r' -> show x ++ r = show y ++ r' -> x = y /\ r = r'.
Proof. intros L. apply L. Qed.

Create HintDb legible.
Global Hint Resolve uint_legible int_legible bool_legible duration_legible : legible.
Global Hint Resolve link_layer_names lmp_names le_names states_names channels_names : legible.
Global Hint Resolve bitflags_legible : legible.
(** One field, argument or fixed text. *)
Ltac peel H :=
  first [ apply sapp_inv in H
        | eapply use_legible in H;
          [ let S := fresh "Same" in destruct H as [S H]; cbn in S
          | solve [eauto 3 with legible]
          | first [exact I | assumption] | first [exact I | assumption]
          | solve [auto with closing] | solve [auto with closing] ] ].
Ltac peel_struct :=
  let H := fresh "H" in
  intros H; cbn [map concat] in H; unfold debug_field in H; cbn [fst snd] in H; rewrite ?sapp_assoc in H;
  repeat peel H; try subst; try (split; congruence).
Ltac struct_legible :=
  let r := fresh "r" in let r' := fresh "r'" in
  intros [] [] r r' ? ? C C'; cbv zeta; unfold debug_struct; peel_struct.
Ltac words_by := apply words_legible; [intros []; reflexivity|intros [] []; try reflexivity; discriminate].
(** Variants: the names decide which, the rest is the arguments. *)
Ltac variant_legible :=
  let x := fresh "x" in let y := fresh "y" in let r := fresh "r" in let r' := fresh "r'" in
  let H := fresh "H" in let K := fresh "K" in
  intros x y r r' ? ? C C' H; apply variant_split in H;
  [ destruct H as [K H]; destruct x, y; cbn [fst] in K; try discriminate K; clear K;
    cbn [snd args_text concat] in H; rewrite ?sapp_assoc in H; repeat peel H; try subst; try (split; congruence)
  | destruct x; reflexivity | destruct y; reflexivity | exact C | exact C' ].

Lemma list_legible : legible any (debug_list debug_uint).
Proof. intros x y r r' _ _ _ _. apply list_unambiguous. Qed.
Global Hint Resolve list_legible : legible.
Lemma opcode_legible : legible any debug_opcode.
Proof. intros x y r r' _ _ C C'. unfold debug_opcode, debug_tuple. peel_struct. Qed.
Lemma handle_legible : legible any debug_conn_handle.
Proof. intros x y r r' _ _ C C'. unfold debug_conn_handle, debug_tuple. peel_struct. Qed.
Lemma addr_legible : legible any debug_bd_addr.
Proof. intros x y r r' _ _ C C'. unfold debug_bd_addr. peel_struct. Qed.
Lemma addr_type_legible : legible any debug_bd_addr_type.
Proof. intros x y r r' _ _ _ _. apply address_unambiguous. Qed.
Lemma durations_legible : legible any debug_durations.
Proof. intros [a b] [c d] r r' _ _ C C'. unfold debug_durations, debug_tuple. peel_struct. Qed.
Global Hint Resolve opcode_legible handle_legible addr_legible addr_type_legible durations_legible : legible.

Lemma conn_interval_legible : legible any debug_conn_interval.
Proof. unfold debug_conn_interval. struct_legible. Qed.
Lemma fixed_interval_legible : legible any debug_fixed_conn_interval.
Proof. unfold debug_fixed_conn_interval. struct_legible. Qed.
Lemma ecl_legible : legible any debug_expected_conn_length.
Proof. unfold debug_expected_conn_length. struct_legible. Qed.
Lemma advertising_type_legible : legible any debug_advertising_type.
Proof. words_by. Qed.
Global Hint Resolve conn_interval_legible fixed_interval_legible ecl_legible advertising_type_legible : legible.
Lemma advertising_interval_legible : legible any debug_advertising_interval.
Proof. unfold debug_advertising_interval. struct_legible. Qed.
Lemma scan_window_legible : legible any debug_scan_window.
Proof. unfold debug_scan_window. struct_legible. Qed.
Global Hint Resolve advertising_interval_legible scan_window_legible : legible.

Lemma conn_interval_error_legible : legible any debug_conn_interval_error.
Proof. unfold debug_conn_interval_error. variant_legible. Qed.
Lemma ecl_error_legible : legible any debug_expected_conn_length_error.
Proof. unfold debug_expected_conn_length_error. variant_legible. Qed.
Lemma advertising_interval_error_legible : legible any debug_advertising_interval_error.
Proof. unfold debug_advertising_interval_error. variant_legible. Qed.
Global Hint Resolve conn_interval_error_legible ecl_error_legible advertising_interval_error_legible : legible.
Lemma scan_window_error_legible : legible any debug_scan_window_error.
Proof.
  intros [] [] r r' _ _ C C'; unfold debug_scan_window_error, debug_variant, debug_tuple, debug_struct;
    try discriminate; cbn [snd fst]; peel_struct.
Qed.
Lemma own_address_type_legible : legible any debug_own_address_type.
Proof. words_by. Qed.
Lemma filter_policy_legible : legible any debug_advertising_filter_policy.
Proof. words_by. Qed.
Lemma scan_type_legible : legible any debug_scan_type.
Proof. words_by. Qed.
Lemma scan_policy_legible : legible any debug_scan_filter_policy.
Proof. words_by. Qed.
Lemma connection_policy_legible : legible any debug_connection_filter_policy.
Proof. words_by. Qed.
Lemma peer_addr_type_legible : legible any debug_peer_addr_type.
Proof. unfold debug_peer_addr_type. variant_legible. Qed.
Lemma channels_legible F : legible (within F Channels) (debug_channels F).
Proof. apply bitflags_legible, channels_names. Qed.
Global Hint Resolve scan_window_error_legible own_address_type_legible filter_policy_legible scan_type_legible
  scan_policy_legible connection_policy_legible peer_addr_type_legible channels_legible : legible.
Lemma advertising_parameters_legible F :
  legible (fun p => within F Channels (ap_channel_map p)) (debug_advertising_parameters F).
Proof. unfold debug_advertising_parameters. struct_legible. Qed.
Lemma scan_parameters_legible : legible any debug_scan_parameters.
Proof. unfold debug_scan_parameters. struct_legible. Qed.
Lemma connection_parameters_legible : legible any debug_connection_parameters.
Proof. unfold debug_connection_parameters. struct_legible. Qed.

Lemma link_type_legible : legible any debug_link_type.
Proof. words_by. Qed.
Lemma encryption_legible : legible any debug_encryption.
Proof. words_by. Qed.
Lemma role_legible : legible any debug_connection_role.
Proof. words_by. Qed.
Lemma clock_legible : legible any debug_clock_accuracy.
Proof. words_by. Qed.
Lemma phy_legible : legible any debug_phy.
Proof. words_by. Qed.
Global Hint Resolve link_type_legible encryption_legible role_legible clock_legible phy_legible : legible.
