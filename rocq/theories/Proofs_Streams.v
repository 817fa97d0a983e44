(** * Sequences of commands and their answers. *)
From Verif Require Import Base Model_Types Model_Bitflags Model_Intervals Model_EventBase
  Model_Command Model_Event Model_Host Spec_Wire Spec_Interval Spec_Flags Spec_Errors Spec_Host
  Proofs_Base Proofs_Bits Proofs_Interval Proofs_Serialize Proofs_Flags Proofs_Host
  Proofs_Event Proofs_Command Proofs_Complete Proofs_Calls.

Section Streams.
Context (F : features) (V : vendor).

Definition on_wire (c : command V) : N * list N := (command_opcode c, command_params c).

Lemma unreliable_one c taken ready : arguments_typed F c ->
  exists ready',
  (exists r, run_command F V uart_header unreliable c (taken, ready) = ((taken, ready'), r)
             /\ succeeded r = false)
  \/ (exists r, @rejection V N c = None
      /\ run_command F V uart_header unreliable c (taken, ready)
         = ((taken ++ uart_header_bytes (command_opcode c) (length (command_params c))
             ++ command_params c, ready'), r)
      /\ succeeded r = true).
Proof.
  intros HA. assert (HH : In (uart_header, uart_header_bytes) header_formats) by (left; reflexivity).
  destruct (@rejection V N c) as [e|] eqn:HR.
  - exists ready. left. eexists. rewrite (call_rejected F V uart_header uart_header_bytes _ HH c _ e) by assumption.
    split; reflexivity.
  - rewrite (call_written F V uart_header uart_header_bytes _ HH) by assumption.
    unfold reported. destruct ready as [|[| |code] ready]; cbn [ctl_write unreliable].
    + exists []. left. eexists. split; [reflexivity|]. now destruct (has_own_errors c).
    + exists ready. right. eexists. split; [reflexivity|]. split; [reflexivity|].
      now destruct (has_own_errors c).
    + exists ready. left. eexists. split; [reflexivity|]. now destruct (has_own_errors c).
    + exists ready. left. eexists. split; [reflexivity|]. now destruct (has_own_errors c).
Qed.

Lemma stream_from cs : Forall (arguments_typed F) cs -> forall taken ready before,
  parse_commands taken = Some before ->
  let (s, rs) := run_calls F V uart_header unreliable cs (taken, ready) in
  length rs = length cs
  /\ parse_commands (fst s) = Some (before ++ map on_wire (successes cs rs)).
Proof.
  induction 1 as [|c cs HA _ IH]; intros taken ready before Hb.
  - cbn. rewrite app_nil_r. auto.
  - cbn [run_calls]. destruct (unreliable_one c taken ready HA) as [ready' [(r & -> & Hr)|(r & HR & -> & Hr)]].
    + specialize (IH taken ready' before Hb).
      destruct (run_calls _ _ _ _ cs _) as [s rs]. destruct IH as [Hl Hp].
      split; [cbn [length]; now rewrite Hl|]. unfold successes. cbn [combine filter snd].
      rewrite Hr. exact Hp.
    + destruct (params_ok F V c HA HR) as [HL _].
      specialize (IH (taken ++ uart_header_bytes (command_opcode c) (length (command_params c))
             ++ command_params c) ready' (before ++ [on_wire c])).
      rewrite (parse_snoc taken before) in IH
        by (assumption || apply command_opcode_u16 || lia).
      specialize (IH eq_refl).
      destruct (run_calls _ _ _ _ cs _) as [s rs]. destruct IH as [Hl Hp].
      split; [cbn [length]; now rewrite Hl|]. unfold successes. cbn [combine filter snd].
      rewrite Hr. cbn [map fst]. rewrite Hp, <- app_assoc. reflexivity.
Qed.

Lemma stream_parsed cs ready : Forall (arguments_typed F) cs ->
  let (s, rs) := run_calls F V uart_header unreliable cs ([], ready) in
  length rs = length cs
  /\ parse_commands (fst s)
     = Some (map (fun c => (command_opcode c, command_params c)) (successes cs rs)).
Proof. intros H. exact (stream_from cs H [] ready [] eq_refl). Qed.

(** ** Different calls, different bytes *)
Lemma app_inv_len {A} (a b c d : list A) : length a = length c -> a ++ b = c ++ d -> a = c /\ b = d.
Proof.
  revert c. induction a as [|x a IH]; intros [|y c] Hl H; cbn in *; try discriminate; [auto|].
  injection H as -> H. injection Hl as Hl. destruct (IH c Hl H) as [-> ->]. auto.
Qed.
Lemma cons_inv {A} (a b : A) l m : a :: l = b :: m -> a = b /\ l = m.
Proof. intros H. injection H. auto. Qed.

Lemma reason_inj {VS} (s s' : status VS) b :
  disconnect_reason s = Some b -> disconnect_reason s' = Some b -> s = s'.
Proof.
  intros H H'.
  assert (K : forall t : status VS, disconnect_reason t = Some b ->
    t = match b with
        | 0x05 => AuthFailure
        | 0x13 => RemoteTerminationByUser
        | 0x14 => RemoteTerminationLowResources
        | 0x15 => RemoteTerminationPowerOff
        | 0x1A => UnsupportedRemoteFeature
        | 0x29 => PairingWithUnitKeyNotSupported
        | _ => UnacceptableConnectionParameters
        end).
  { intros t Ht. destruct t; cbn [disconnect_reason] in Ht; try discriminate Ht;
      apply Some_inj in Ht; subst b; reflexivity. }
  now rewrite (K s H), (K s' H').
Qed.

Lemma outbound_inj d d' : (length d <= 31)%nat -> (length d' <= 31)%nat ->
  outbound_data d = outbound_data d' -> d = d'.
Proof.
  intros H H' E. unfold outbound_data in E. cbn [app] in E. apply cons_inv in E. destruct E as [El E].
  apply app_inv_len in E; [tauto|lia].
Qed.

Lemma address_inj a b : address_bytes a = address_bytes b -> a = b.
Proof. destruct a, b; cbn [address_bytes]; intros H; apply cons_inv in H; destruct H as [H ->]; (reflexivity || discriminate H). Qed.
Lemma peer_inj a b : peer_address_bytes a = peer_address_bytes b -> a = b.
Proof. destruct a, b; cbn [peer_address_bytes]; intros H; apply cons_inv in H; destruct H as [H ->]; (reflexivity || discriminate H). Qed.
Lemma own_code_inj a b : own_address_code a = own_address_code b -> a = b.
Proof. destruct a, b; intros H; (reflexivity || discriminate H). Qed.
Lemma adv_filter_inj a b : advertising_filter_code a = advertising_filter_code b -> a = b.
Proof. destruct a, b; intros H; (reflexivity || discriminate H). Qed.
Lemma scan_filter_inj a b : scan_filter_code a = scan_filter_code b -> a = b.
Proof. destruct a, b; intros H; (reflexivity || discriminate H). Qed.
Lemma scan_type_inj a b : scan_type_code a = scan_type_code b -> a = b.
Proof. destruct a, b; intros H; (reflexivity || discriminate H). Qed.
Lemma init_filter_inj a b : initiator_filter_code a = initiator_filter_code b -> a = b.
Proof. destruct a, b; intros H; (reflexivity || discriminate H). Qed.
Lemma le2_inj v w : u16 v -> u16 w -> le 2 v = le 2 w -> v = w.
Proof. intros H K. exact (le_inj 2 v w H K). Qed.
Lemma le8_inj v w : u64 v -> u64 w -> le 8 v = le 8 w -> v = w.
Proof. intros H K. exact (le_inj 8 v w H K). Qed.

Ltac cut_app H := apply app_inv_len in H; [|rewrite ?le_length, ?advertising_interval_bytes_length,
     ?scan_window_bytes_length, ?conn_interval_bytes_length, ?expected_length_bytes_length; try reflexivity].

Lemma different_bytes {E} c c' :
  arguments_typed F c -> arguments_typed F c' ->
  command_exists F c = true -> command_exists F c' = true ->
  @rejection V E c = None -> @rejection V E c' = None ->
  command_opcode c = command_opcode c' -> command_params c = command_params c' ->
  same_on_wire c c'.
Proof.
  intros HA HA' HX HX' HR HR' Hop Hp. apply opcode_section in Hop.
  destruct c; destruct c'; cbn [command_section] in Hop; try discriminate Hop; clear Hop;
    cbn [arguments_typed command_exists rejection command_params same_on_wire] in *;
    try reflexivity; try discriminate Hp;
    try (apply le2_inj in Hp; [now subst|assumption|assumption]);
    try (apply le8_inj in Hp; [now subst|assumption|assumption]).
  - (* disconnect *)
    cut_app Hp. destruct Hp as [Hh Hr]. apply le2_inj in Hh; [|assumption|assumption].
    destruct (disconnect_reason reason) as [b|] eqn:Er; [|discriminate HR].
    destruct (disconnect_reason reason0) as [b'|] eqn:Er'; [|discriminate HR'].
    apply cons_inv in Hr. destruct Hr as [-> _]. now rewrite Hh, (reason_inj _ _ _ Er Er').
  - (* read_tx_power_level *)
    cut_app Hp. destruct Hp as [Hh Hr]. apply le2_inj in Hh; [|assumption|assumption]. subst.
    apply cons_inv in Hr. destruct Hr as [Hr _]. destruct t, t0; (reflexivity || discriminate Hr).
  - now subst.
  - (* advertising parameters *)
    destruct HA as (_ & _ & Ha & _). destruct HA' as (_ & _ & Ha' & _).
    cut_app Hp. destruct Hp as [H1 Hp]. cbn [app] in Hp. apply cons_inv in Hp. destruct Hp as [H2 Hp].
    apply app_inv_len in Hp; [|rewrite !address_bytes_length by assumption; reflexivity].
    destruct Hp as [H3 Hp]. apply cons_inv in Hp. destruct Hp as [H4 Hp]. apply cons_inv in Hp.
    destruct Hp as [H5 _].
    repeat split; auto using own_code_inj, address_inj, adv_filter_inj.
  - destruct (Nat.leb_spec (length data) 31); [|discriminate HR].
    destruct (Nat.leb_spec (length data0) 31); [|discriminate HR'].
    now rewrite (outbound_inj data data0).
  - destruct (Nat.leb_spec (length data) 31); [|discriminate HR].
    destruct (Nat.leb_spec (length data0) 31); [|discriminate HR'].
    now rewrite (outbound_inj data data0).
  - destruct enable, enable0; (reflexivity || discriminate Hp).
  - rewrite HX' in HX. discriminate HX.
  - rewrite HX in HX'. discriminate HX'.
  - destruct enable, enable0; (reflexivity || discriminate Hp).
  - (* scan parameters *)
    cbn [app] in Hp. apply cons_inv in Hp. destruct Hp as [H1 Hp]. cut_app Hp. destruct Hp as [H2 Hp].
    apply cons_inv in Hp. destruct Hp as [H3 Hp]. apply cons_inv in Hp. destruct Hp as [H4 _].
    repeat split; auto using own_code_inj, scan_type_inj, scan_filter_inj.
  - destruct enable, enable0, filter_duplicates, filter_duplicates0; (reflexivity || discriminate Hp).
  - (* create connection *)
    destruct HA as (_ & Ha & _). destruct HA' as (_ & Ha' & _).
    cut_app Hp. destruct Hp as [H1 Hp]. cbn [app] in Hp. apply cons_inv in Hp. destruct Hp as [H2 Hp].
    apply init_filter_inj in H2. rewrite H2 in Hp.
    assert (HL : length (match cp_initiator_filter_policy p0 with
                         | UseAddress => peer_address_bytes (cp_peer_address p)
                         | UseWhiteList => repeat 0 7 end)
               = length (match cp_initiator_filter_policy p0 with
                         | UseAddress => peer_address_bytes (cp_peer_address p0)
                         | UseWhiteList => repeat 0 7 end))
      by (destruct (cp_initiator_filter_policy p0); [|reflexivity];
          now rewrite !peer_address_bytes_length).
    apply app_inv_len in Hp; [|exact HL]. destruct Hp as [H3 Hp].
    apply cons_inv in Hp. destruct Hp as [H4 Hp]. cut_app Hp. destruct Hp as [H5 H6].
    split; [exact H1|]. split; [exact H2|]. split.
    + intros HU. rewrite <- H2, HU in H3. now apply peer_inj.
    + repeat split; auto using own_code_inj.
  - now rewrite (address_inj _ _ Hp).
  - destruct a; discriminate Hp.
  - destruct a; discriminate Hp.
  - now rewrite (address_inj _ _ Hp).
  - destruct a; discriminate Hp.
  - destruct a; discriminate Hp.
  - (* connection update *)
    destruct HA as (Hh & _). destruct HA' as (Hh' & _).
    cut_app Hp. destruct Hp as [H1 Hp]. cut_app Hp. destruct Hp as [H2 H3].
    repeat split; auto using le2_inj.
  - now subst.
  - (* encrypt *)
    destruct HA as [[Hk _] [Hd _]]. destruct HA' as [[Hk' _] [Hd' _]].
    apply app_inv_len in Hp; [|now rewrite Hk, Hk'].
    destruct p, p0, Hp. cbn in *. now subst.
  - (* start encryption *)
    destruct HA as (A1 & A2 & A3 & A4 & _). destruct HA' as (B1 & B2 & B3 & B4 & _).
    cut_app Hp. destruct Hp as [H1 Hp]. cut_app Hp. destruct Hp as [H2 Hp]. cut_app Hp. destruct Hp as [H3 H4].
    apply le2_inj in H1, H3; try assumption. apply le8_inj in H2; try assumption.
    destruct p as [a b d e], p0 as [a' b' d' e'].
    change (a = a') in H1. change (b = b') in H2. change (d = d') in H3. change (e = e') in H4. now subst.
  - destruct HA as (A1 & A2 & _). destruct HA' as (B1 & B2 & _).
    cut_app Hp. destruct Hp as [H1 H2]. apply le2_inj in H1; try assumption. now subst.
  - now apply cons_inv in Hp as [-> _].
  - apply cons_inv in Hp as [-> Hp]. apply cons_inv in Hp as [-> Hp]. apply cons_inv in Hp as [Hp _].
    destruct payload, payload0; (reflexivity || discriminate Hp).
Qed.

(** ** Answers *)
Lemma wire_answer c ans r ret : command_exists F c = true -> answers c = Some ans ->
  wire_return F V r (command_opcode c) ret -> ans r.
Proof.
  intros HX Ha H.
  destruct c; cbn [answers] in Ha; try discriminate Ha; injection Ha as <-;
    cbn [command_exists] in HX;
    destruct r; cbn [wire_return] in H; try (eexists; reflexivity); try (eexists; eexists; reflexivity);
    exfalso; lazymatch type of H with
    | False => exact H
    | _ = 0 => vm_compute in H; discriminate H
    | version_5_0 F = _ /\ _ => destruct H as (Hv & H & _);
        first [ vm_compute in H; discriminate H | rewrite Hv in HX; discriminate HX ]
    | _ /\ _ => destruct H as [H _]; vm_compute in H; discriminate H
    end.
Qed.

Lemma opcode_not_vendor (c : command V) : command_opcode c / 1024 <> 0x3F.
Proof. destruct c; vm_compute; discriminate. Qed.

Lemma answer_variant c ans n ret ev : command_exists F c = true -> answers c = Some ans ->
  bytes (framed 0x0E ([n] ++ le 2 (command_opcode c) ++ ret)) ->
  event_new F V (framed 0x0E ([n] ++ le 2 (command_opcode c) ++ ret)) = Ok ev ->
  exists r, ev = EvCommandComplete (Build_command_complete n r) /\ ans r
            /\ wire_return F V r (command_opcode c) ret.
Proof.
  intros HX Ha Hb H.
  assert (K : exists m r, ev = EvCommandComplete (Build_command_complete m r)).
  { pose proof H as H0. apply event_new_ok in H0. destruct H0 as (code & p & Hpkt & H0).
    unfold framed in Hpkt. injection Hpkt as <- _ _. apply dispatch_ok in H0.
    destruct ev; try (exfalso; destruct H0 as [H0 _]; discriminate H0).
    all: try (match goal with cc : command_complete V |- _ => destruct cc as [m r]; now exists m, r end).
    }
  destruct K as (m & r & ->).
  apply command_complete_dispatch_iff in H; [|exact Hb].
  destruct H as (op & ret' & Hop & Hpkt & H). unfold framed in Hpkt. cbn [app] in Hpkt.
  apply cons_inv in Hpkt. destruct Hpkt as [_ Hpkt]. apply cons_inv in Hpkt. destruct Hpkt as [_ Hpkt].
  apply cons_inv in Hpkt. destruct Hpkt as [Hm Hpkt]. subst m.
  apply app_inv_len in Hpkt; [|now rewrite !le_length]. destruct Hpkt as [Hle <-].
  apply le2_inj in Hle; [|apply command_opcode_u16|exact Hop]. subst op.
  destruct H as [H|(v & Hv & _)]; [|now apply opcode_not_vendor in Hv].
  exists r. split; [reflexivity|]. split; [|exact H]. exact (wire_answer c ans r ret HX Ha H).
Qed.

Lemma answer_accepted c ans n ret r : command_exists F c = true -> answers c = Some ans ->
  byte n -> bytes ret -> (3 + length ret < 256)%nat ->
  wire_return F V r (command_opcode c) ret ->
  ans r /\ event_new F V (framed 0x0E ([n] ++ le 2 (command_opcode c) ++ ret))
           = Ok (EvCommandComplete (Build_command_complete n r)).
Proof.
  intros HX Ha Hn Hr Hl H. split; [exact (wire_answer c ans r ret HX Ha H)|].
  apply complete_accepted; try assumption. apply command_opcode_u16.
Qed.

Lemma no_answer (c : command V) n ret : answers c = None ->
  event_new F V (framed 0x0E ([n] ++ le 2 (command_opcode c) ++ ret))
  = Err (EUnknownOpcode (command_opcode c)).
Proof.
  intros Ha. apply complete_unknown; [apply command_opcode_u16| |apply opcode_not_vendor].
  destruct c; cbn [answers] in Ha; try discriminate Ha; vm_compute; intuition discriminate.
Qed.
End Streams.
