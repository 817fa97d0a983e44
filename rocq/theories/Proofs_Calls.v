(** * Consequences for callers: bytes sent, streams, answers. *)
From Verif Require Import Base Model_Types Model_Bitflags Model_Intervals Model_EventBase
  Model_Command Model_Event Model_Host Spec_Wire Spec_Interval Spec_Flags Spec_Errors Spec_Host
  Proofs_Base Proofs_Bits Proofs_Interval Proofs_Serialize Proofs_Flags Proofs_Host
  Proofs_Event Proofs_Command Proofs_Complete.

Lemma command_opcode_u16 {V} (c : command V) : u16 (command_opcode c).
Proof. destruct c; vm_compute; reflexivity. Qed.

Lemma opcode_section {V} (c c' : command V) :
  command_opcode c = command_opcode c' <-> command_section c = command_section c'.
Proof.
  destruct c, c'; split; intros H; try reflexivity;
    (vm_compute in H; discriminate H).
Qed.

(** ** Parameters are bytes *)
Lemma bytes_le n v : bytes (le n v).
Proof. apply le_is_bytes. Qed.
Lemma bytes_repeat n : bytes (repeat 0 n).
Proof. unfold bytes. apply Forall_forall. intros x ->%repeat_spec. reflexivity. Qed.

Ltac solve_bytes :=
  repeat match goal with
  | |- bytes (_ ++ _) => apply bytes_app; split
  | |- bytes (le _ _) => apply bytes_le
  | |- bytes (repeat 0 _) => apply bytes_repeat
  | |- bytes [] => constructor
  | |- bytes (_ :: _) => apply bytes_cons; split
  | |- byte (match ?x with _ => _ end) => destruct x
  | |- byte _ => first [assumption | reflexivity]
  end; try assumption.

Ltac split_bytes := repeat lazymatch goal with |- bytes (_ ++ _) => apply bytes_app; split end.

Lemma interval_bytes_ok ci : bytes (conn_interval_bytes ci).
Proof. unfold conn_interval_bytes. solve_bytes. Qed.
Lemma expected_bytes_ok e : bytes (expected_length_bytes e).
Proof. unfold expected_length_bytes. solve_bytes. Qed.
Lemma window_bytes_ok s : bytes (scan_window_bytes s).
Proof. unfold scan_window_bytes. solve_bytes. Qed.
Lemma advertising_bytes_ok a : bytes (advertising_interval_bytes a).
Proof. unfold advertising_interval_bytes. destruct (ai_type a); solve_bytes. Qed.
Lemma address_bytes_ok a : address_typed a -> bytes (address_bytes a).
Proof. destruct a; intros [_ H]; cbn [address_bytes]; solve_bytes. Qed.
Lemma peer_bytes_ok a : peer_typed a -> bytes (peer_address_bytes a).
Proof. destruct a; intros [_ H]; cbn [peer_address_bytes]; solve_bytes. Qed.

Lemma Some_inj {A} (a b : A) : Some a = Some b -> a = b.
Proof. congruence. Qed.

Section Calls.
Context (F : features) (V : vendor).

Lemma params_ok {E} (c : command V) : arguments_typed F c -> @rejection V E c = None ->
  (length (command_params c) <= 32)%nat /\ bytes (command_params c).
Proof.
  destruct c; cbn [arguments_typed rejection command_params]; intros HA HR;
    try (split; [cbn; rewrite ?app_length, ?le_length; cbn; lia|solve_bytes]; fail).
  - split; [cbn; destruct (disconnect_reason _); cbn; lia|].
    apply bytes_app. split; [apply bytes_le|].
    destruct reason; cbn [disconnect_reason]; repeat constructor.
  - split; [rewrite app_length, le_length; cbn; lia|]. destruct t; solve_bytes.
  - destruct HA as [HL HB]. split; [lia|exact HB].
  - destruct HA as (Hi & _ & Ha & Hm). split.
    + rewrite !app_length, advertising_interval_bytes_length, address_bytes_length by exact Ha.
      cbn. lia.
    + pose proof (advertising_bytes_ok (ap_interval p)). pose proof (address_bytes_ok _ Ha).
      split_bytes; try assumption; (apply Forall_cons; [|constructor]).
      * destruct (ap_own_address_type p); reflexivity.
      * unfold byte. lia.
      * destruct (ap_filter_policy p); reflexivity.
  - destruct (Nat.leb_spec (length data) 31); [|discriminate]. unfold outbound_data.
    split; [rewrite !app_length, repeat_length; cbn [length]; lia|]. solve_bytes. unfold byte. lia.
  - destruct (Nat.leb_spec (length data) 31); [|discriminate]. unfold outbound_data.
    split; [rewrite !app_length, repeat_length; cbn [length]; lia|]. solve_bytes. unfold byte. lia.
  - split; [cbn; lia|]. destruct enable; solve_bytes.
  - split; [cbn; lia|]. destruct enable; solve_bytes.
  - split.
    + rewrite !app_length, scan_window_bytes_length. cbn. lia.
    + pose proof (window_bytes_ok (sp_scan_window p)).
      split_bytes; try assumption; (apply Forall_cons; [|constructor]).
      * destruct (sp_scan_type p); reflexivity.
      * destruct (sp_own_address_type p); reflexivity.
      * destruct (sp_filter_policy p); reflexivity.
  - split; [cbn; lia|]. destruct enable, filter_duplicates; solve_bytes.
  - destruct HA as (H1 & H2 & _ & _ & H3 & H4). split.
    + rewrite !app_length, scan_window_bytes_length, conn_interval_bytes_length,
        expected_length_bytes_length.
      destruct (cp_initiator_filter_policy p); [rewrite peer_address_bytes_length by exact H2|];
        cbn; lia.
    + split_bytes;
        auto using window_bytes_ok, interval_bytes_ok, expected_bytes_ok.
      * apply Forall_cons; [|constructor]. destruct (cp_initiator_filter_policy p); reflexivity.
      * destruct (cp_initiator_filter_policy p); [now apply peer_bytes_ok|apply bytes_repeat].
      * apply Forall_cons; [|constructor]. destruct (cp_own_address_type p); reflexivity.
  - split; [rewrite address_bytes_length by exact HA; lia|now apply address_bytes_ok].
  - split; [rewrite address_bytes_length by exact HA; lia|now apply address_bytes_ok].
  - split.
    + rewrite !app_length, le_length, conn_interval_bytes_length, expected_length_bytes_length. lia.
    + split_bytes; auto using bytes_le, interval_bytes_ok, expected_bytes_ok.
  - destruct (channels_spec F channels HA) as (-> & HB & _). split; [lia|exact HB].
  - destruct HA as [[H1 H1'] [H2 H2']]. split; [rewrite app_length, H1, H2; lia|solve_bytes].
  - destruct HA as (_ & _ & _ & H1 & H1'). split;
      [rewrite !app_length, !le_length, H1; lia|solve_bytes].
  - destruct HA as (_ & H1 & H1'). split; [rewrite !app_length, !le_length, H1; lia|solve_bytes].
  - destruct HA as [HA _]. destruct (N.leb_spec channel 0x27); [|discriminate].
    destruct (N.leb_spec payload_length 0x25); [|discriminate].
    split; [cbn; lia|]. repeat (apply Forall_cons); [exact HA|unfold byte; lia|destruct payload; reflexivity|constructor].
Qed.

(** ** Rejection, write, report *)
Section One.
Context {St E : Type} (H : hci_header) (enc : N -> nat -> list N) (C : controller St E)
  (HH : In (H, enc) header_formats).

Lemma call_rejected c s e : arguments_typed F c -> @rejection V E c = Some e ->
  run_command F V H C c s = (s, Checked (Err (Other e))).
Proof. intros HA HR. rewrite (command_shape F V H enc) by assumption. unfold expected_call. now rewrite HR. Qed.

Lemma call_written c s : arguments_typed F c -> @rejection V E c = None ->
  run_command F V H C c s =
  let (s', r) := ctl_write C s (enc (command_opcode c) (length (command_params c)))
                           (command_params c) in (s', reported c r).
Proof. intros HA HR. rewrite (command_shape F V H enc) by assumption. unfold expected_call. now rewrite HR. Qed.

Lemma rejection_not_comm c e : @rejection V E c <> Some (HComm e).
Proof.
  destruct c; cbn [rejection]; try discriminate;
    repeat match goal with |- context [match ?x with _ => _ end] => destruct x end; discriminate.
Qed.

Lemma rejection_checked c e : @rejection V E c = Some e -> has_own_errors c = true.
Proof. destruct c; cbn [rejection has_own_errors]; (reflexivity || discriminate). Qed.

Lemma reported_comm c r e : reported c r = Checked (Err (Other e)) -> exists e' : E, e = @HComm E (VStatus V) e'.
Proof.
  unfold reported. destruct (has_own_errors c); [|discriminate].
  destruct r as [[]|[e'|]|]; try discriminate. intros X. injection X as <-. eauto.
Qed.

Lemma rejected_iff c s e : arguments_typed F c -> (forall e', e <> HComm e') ->
  (snd (run_command F V H C c s) = Checked (Err (Other e)) <-> @rejection V E c = Some e).
Proof.
  intros HA He. split.
  - intros HX. destruct (@rejection V E c) as [e0|] eqn:HR.
    + rewrite (call_rejected c s e0) in HX by assumption. cbn [snd] in HX. now injection HX as ->.
    + rewrite call_written in HX by assumption. destruct (ctl_write _ _ _ _) as [s' r].
      cbn [snd] in HX. apply reported_comm in HX. destruct HX as [e' ->]. now destruct (He e').
  - intros HR. now rewrite (call_rejected c s e).
Qed.

Lemma call_no_panic c s : arguments_typed F c ->
  (forall s h p, snd (ctl_write C s h p) <> Panic) ->
  snd (run_command F V H C c s) <> Plain Panic /\ snd (run_command F V H C c s) <> Checked Panic.
Proof.
  intros HA HC. destruct (@rejection V E c) as [e0|] eqn:HR.
  - rewrite (call_rejected c s e0) by assumption. split; discriminate.
  - rewrite call_written by assumption.
    pose proof (HC s (enc (command_opcode c) (length (command_params c))) (command_params c)) as HP.
    destruct (ctl_write _ _ _ _) as [s' r]. cbn [snd] in *. unfold reported.
    destruct (has_own_errors c), r as [[]|[e'|]|]; split; congruence.
Qed.
End One.

Lemma rejection_same {E E'} c : @rejection V E c = None <-> @rejection V E' c = None.
Proof.
  destruct c; cbn [rejection]; try tauto;
    repeat match goal with |- context [match ?x with _ => _ end] => destruct x end;
    split; intros; congruence.
Qed.

Lemma sent_spec H enc c : In (H, enc) header_formats -> arguments_typed F c ->
  sent F V H c =
  match @rejection V unit c with
  | Some _ => []
  | None => [(enc (command_opcode c) (length (command_params c)), command_params c)]
  end.
Proof.
  intros HH HA. unfold sent. destruct (rejection c) eqn:HR.
  - now rewrite (call_rejected H enc recorder HH c [] h).
  - rewrite (call_written H enc recorder HH) by assumption. reflexivity.
Qed.

(** ** Streams *)
Lemma parse_packets_more fuel l : (length l <= fuel)%nat -> parse_packets fuel l = parse_commands l.
Proof.
  unfold parse_commands. generalize (le_n (length l)). generalize (length l) at 2 4 as k.
  intros k Hk Hf. revert fuel l Hf Hk.
  induction k as [|k IH]; intros fuel l Hf Hk.
  - destruct l; [destruct fuel; reflexivity|cbn in Hk; lia].
  - destruct l as [|t [|lo [|hi [|n rest]]]]; destruct fuel as [|fuel]; cbn [length] in *; try lia; try reflexivity.
    cbn [parse_packets]. destruct (_ || _)%bool; [reflexivity|].
    assert (Hs : (length (skipn (N.to_nat n) rest) <= length rest)%nat) by (rewrite skipn_length; lia).
    rewrite (IH fuel) by lia. reflexivity.
Qed.

Lemma parse_commands_cons t lo hi n rest :
  parse_commands (t :: lo :: hi :: n :: rest) =
  if negb (t =? 1) || (N.of_nat (length rest) <? n) then None else
  match parse_commands (skipn (N.to_nat n) rest) with
  | Some more => Some ((lo + 256 * hi, firstn (N.to_nat n) rest) :: more)
  | None => None
  end.
Proof.
  unfold parse_commands at 1.
  assert (Hf : (length rest <= S (S (S (length rest))))%nat) by lia.
  change (length (t :: lo :: hi :: n :: rest)) with (S (S (S (S (length rest))))).
  revert Hf. generalize (S (S (S (length rest)))) as fuel. intros fuel Hf. cbn [parse_packets].
  rewrite parse_packets_more by (rewrite skipn_length; lia). reflexivity.
Qed.

Lemma parse_one op ps rest : u16 op -> (length ps <= 255)%nat ->
  parse_commands (uart_header_bytes op (length ps) ++ ps ++ rest)
  = match parse_commands rest with Some more => Some ((op, ps) :: more) | None => None end.
Proof.
  intros Hop Hl. unfold uart_header_bytes. rewrite le_2. cbn [app].
  rewrite parse_commands_cons. change (1 =? 1) with true. cbn [negb orb].
  replace (N.of_nat (length (ps ++ rest)) <? N.of_nat (length ps)) with false
    by (symmetry; apply N.ltb_ge; rewrite app_length; lia).
  rewrite Nat2N.id, skipn_all_app, firstn_all_app by reflexivity.
  rewrite read_le_2 by exact Hop. reflexivity.
Qed.

Lemma parse_snoc l cs op ps : parse_commands l = Some cs -> u16 op -> (length ps <= 255)%nat ->
  parse_commands (l ++ uart_header_bytes op (length ps) ++ ps) = Some (cs ++ [(op, ps)]).
Proof.
  intros Hl Hop Hps. revert l cs Hl.
  assert (G : forall k l cs, (length l <= k)%nat -> parse_commands l = Some cs ->
    parse_commands (l ++ uart_header_bytes op (length ps) ++ ps) = Some (cs ++ [(op, ps)])).
  { induction k as [|k IH]; intros l cs Hk Hl.
    - destruct l; [|cbn in Hk; lia]. injection Hl as <-. cbn [app].
      pose proof (parse_one op ps [] Hop Hps) as P. rewrite app_nil_r in P. rewrite P. reflexivity.
    - destruct l as [|t [|lo [|hi [|n rest]]]]; try discriminate.
      + injection Hl as <-. cbn [app].
        pose proof (parse_one op ps [] Hop Hps) as P. rewrite app_nil_r in P. rewrite P. reflexivity.
      + cbn [app]. rewrite parse_commands_cons in Hl |- *.
        destruct (negb (t =? 1)); [discriminate|]. cbn [orb] in Hl |- *.
        destruct (N.ltb_spec (N.of_nat (length rest)) n) as [|Hn]; [discriminate|].
        replace (N.of_nat (length (rest ++ uart_header_bytes op (length ps) ++ ps)) <? n) with false
          by (symmetry; apply N.ltb_ge; rewrite app_length; lia).
        destruct (parse_commands (skipn (N.to_nat n) rest)) as [more|] eqn:Em; [|discriminate].
        apply Some_inj in Hl. subst cs.
        rewrite skipn_app, firstn_app.
        replace (N.to_nat n - length rest)%nat with 0%nat by lia. cbn [skipn firstn].
        rewrite app_nil_r.
        cbn [length] in Hk. rewrite (IH (skipn (N.to_nat n) rest) more); [reflexivity| |exact Em].
        rewrite skipn_length. lia. }
  intros l cs. apply (G (length l)). lia.
Qed.
End Calls.
