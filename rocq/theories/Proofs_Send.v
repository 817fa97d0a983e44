(** * Consequences for callers: serializers, transports, advertising data. *)
From Verif Require Import Base Model_Types Model_Bitflags Model_Intervals Model_EventBase
  Model_Command Model_Event Model_Host Spec_Wire Spec_Interval Spec_Flags Spec_Errors Spec_Report
  Spec_Adv Spec_Host Spec_Link
  Proofs_Base Proofs_Bits Proofs_Interval Proofs_Serialize Proofs_Time Proofs_Flags Proofs_Adv
  Proofs_Host Proofs_Event Proofs_Report Proofs_Calls Proofs_Streams Proofs_Address.

(** ** Serializers *)
Lemma ads_recovered ads k buf n : Forall ad_typed ads -> Forall ad_fits ads ->
  write_ads ads (repeat 0 k) = Ok (buf, n) ->
  exists found, parse_ad buf = Some found /\ map interpret found = map Some ads.
Proof.
  intros Ht Hf H. rewrite write_ads_spec in H by exact Hf. cbv zeta in H.
  destruct (Nat.leb_spec (length (flat_map ad_structure ads)) (length (repeat 0 k))) as [Hl|];
    [|discriminate].
  apply ok_pair in H. subst buf. eexists. rewrite repeat_length in Hl.
  replace (skipn (length (flat_map ad_structure ads)) (repeat 0 k))
    with (repeat 0 (k - length (flat_map ad_structure ads))).
  - rewrite parse_all by exact Hf. split; [reflexivity|]. now apply interpret_all.
  - set (m := length _) in *. replace k with (m + (k - m))%nat at 2 by lia.
    rewrite repeat_app, skipn_app, repeat_length, Nat.sub_diag, skipn_all2 by (rewrite repeat_length; lia).
    reflexivity.
Qed.
Lemma ecl_writes {E} e : ecl_reachable e -> @writes_front E (ecl_copy_into_slice e) (expected_length_bytes e).
Proof. intros H. apply ecl_reachable_range in H. now apply ecl_copy_spec. Qed.
Lemma sw_writes {E} s : sw_reachable s -> @writes_front E (sw_copy_into_slice s) (scan_window_bytes s).
Proof. intros H. apply sw_reachable_range in H. now apply sw_copy_spec. Qed.
Lemma ai_writes {E} F a : ai_reachable F a ->
  @writes_front E (ai_copy_into_slice a) (advertising_interval_bytes a).
Proof. intros H. apply (ai_copy_spec F), ai_reachable_legal, H. Qed.
Lemma address_writes {E} a : address_typed a -> @writes_exactly E (bd_addr_type_copy a) (address_bytes a).
Proof. intros H. apply bd_addr_type_copy_spec. destruct a; exact (proj1 H). Qed.

Section Send.
Context (F : features) (V : vendor).

(** ** Transports *)
Lemma one_write E H enc c : In (H, enc) header_formats -> arguments_typed F c ->
  (exists e, @rejection V E c = Some e
     /\ forall St (C : controller St E) s,
          run_command F V H C c s = (s, Checked (Err (Other e))))
  \/ (@rejection V E c = None
      /\ exists header payload, forall St (C : controller St E) s,
          run_command F V H C c s =
          let (s', r) := ctl_write C s header payload in (s', reported c r)).
Proof.
  intros HH HA. destruct (@rejection V E c) as [e|] eqn:HR.
  - left. exists e. split; [reflexivity|]. intros. now apply (call_rejected F V H enc C HH).
  - right. split; [reflexivity|]. exists (enc (command_opcode c) (length (command_params c))), (command_params c).
    intros. now apply (call_written F V H enc C HH).
Qed.

Lemma outcome_passed E H enc c St (C : controller St E) s :
  In (H, enc) header_formats -> arguments_typed F c -> @rejection V E c = None ->
  exists header payload, run_command F V H C c s =
    let (s', r) := ctl_write C s header payload in
    (s', if has_own_errors c then
           Checked (match r with
                    | Ok tt => Ok tt
                    | Err WouldBlock => Err WouldBlock
                    | Err (Other e) => Err (Other (HComm e))
                    | Panic => Panic
                    end)
         else Plain r).
Proof.
  intros HH HA HR. destruct (one_write E H enc c HH HA) as [(e & X & _)|(_ & hd & p & W)]; [congruence|].
  exists hd, p. exact (W St C s).
Qed.

Lemma header_rewritten H enc H' enc' f St E (C : controller St E) c s :
  In (H, enc) header_formats -> In (H', enc') header_formats ->
  (forall op n, enc op n = f (enc' op n)) -> arguments_typed F c ->
  run_command F V H C c s = run_command F V H' (rewriting f C) c s.
Proof.
  intros HH HH' Hf HA. rewrite (command_shape F V H enc) by assumption.
  rewrite (command_shape F V H' enc') by assumption. unfold expected_call.
  destruct (rejection c); [reflexivity|]. cbn [ctl_write rewriting]. now rewrite Hf.
Qed.
Lemma uart_as_cmd_link St E (C : controller St E) c s : arguments_typed F c ->
  run_command F V uart_header C c s
  = run_command F V cmd_link_header (rewriting (fun h => 0x01 :: h) C) c s.
Proof.
  apply (header_rewritten _ uart_header_bytes _ cmd_link_header_bytes); [now left|right; now left|reflexivity].
Qed.
Lemma no_commands_as_cmd_link St E (C : controller St E) c s : arguments_typed F c ->
  run_command F V no_commands_header C c s
  = run_command F V cmd_link_header (rewriting (fun _ => [0; 0; 0]) C) c s.
Proof.
  apply (header_rewritten _ no_commands_header_bytes _ cmd_link_header_bytes);
    [right; right; now left|right; now left|reflexivity].
Qed.

(** ** Random addresses *)
Lemma random_address_rule St E (C : controller St E) a s : bd_addr_typed a ->
  let v := number a in
  (snd (run_command F V uart_header C (CLeSetRandomAddress a) s)
   <> Checked (Err (Other (HBadRandomAddress a))))
  <-> ((v / 2 ^ 46 = 0 \/ v / 2 ^ 46 = 3) /\ 0 < v mod 2 ^ 46 < 2 ^ 46 - 1)
      \/ (v / 2 ^ 46 = 2 /\ 0 < (v / 2 ^ 24) mod 2 ^ 22 < 2 ^ 22 - 1).
Proof.
  intros Ha. cbv zeta. rewrite <- (valid_number a Ha : _ <-> _ \/ _).
  assert (HH : In (uart_header, uart_header_bytes) header_formats) by now left.
  rewrite (rejected_iff F V uart_header uart_header_bytes C HH (CLeSetRandomAddress a) s
             (HBadRandomAddress a) Ha ltac:(discriminate)).
  cbn [rejection]. destruct (valid_random_address a); split; congruence.
Qed.

(** ** Advertising data over the air *)
Lemma air ads buf n ty addr rssi F' V' :
  Forall ad_typed ads -> Forall ad_fits ads -> write_ads ads (repeat 0 31) = Ok (buf, n) ->
  address_typed addr -> match rssi with Some v => is_i8 v /\ v <> 127%Z | None => True end ->
  exists header len rest,
    sent F V uart_header (CLeSetAdvertisingData (firstn n buf)) = [(header, len :: rest)]
    /\ let adv := Build_le_advertisement ty addr (firstn (N.to_nat len) rest) rssi in
       let report := [0x02; 1] ++ advertisement_bytes adv in
       exists r found,
         event_new F' V' (framed 0x3E report) = Ok (EvLeAdvertisingReport r)
         /\ calls (@lar_next Empty_set r) 2 O = Ok [Some adv; None]
         /\ parse_ad (la_data adv) = Some found /\ map interpret found = map Some ads.
Proof.
  intros Ht Hf H Ha Hr. rewrite write_ads_spec in H by exact Hf. cbv zeta in H.
  set (total := flat_map ad_structure ads) in *. rewrite repeat_length in H.
  destruct (Nat.leb_spec (length total) 31) as [Hl|]; [|discriminate].
  assert (Hn : n = length total) by congruence. apply ok_pair in H. subst buf n.
  rewrite firstn_all_app by reflexivity.
  assert (HB : bytes total).
  { unfold total. clear -Ht Hf. induction Ht as [|a ads Ha _ IH]; [constructor|].
    inversion Hf as [|? ? Ha' Hf']; subst. cbn [flat_map]. apply bytes_app. split; [|now apply IH].
    unfold ad_structure. cbn [app]. unfold ad_fits in Ha'.
    apply bytes_cons. split; [unfold byte; lia|]. apply bytes_cons. split; [destruct a; reflexivity|].
    destruct a; cbn [ad_content ad_typed] in *; try exact Ha; apply bytes_app; (split; [apply bytes_le|apply Ha]). }
  assert (HH : In (uart_header, uart_header_bytes) header_formats) by now left.
  rewrite (sent_spec F V uart_header uart_header_bytes _ HH)
    by exact HB.
  cbn [rejection command_params]. rewrite (proj2 (Nat.leb_le _ _) Hl).
  unfold outbound_data. cbn [app]. eexists. eexists. eexists. split; [reflexivity|]. cbv zeta.
  rewrite Nat2N.id, firstn_all_app by reflexivity.
  set (adv := Build_le_advertisement ty addr total rssi).
  assert (Hok : advertisement_ok adv) by (split; [destruct addr; exact (proj1 Ha)|exact Hr]).
  assert (HL : length (advertisement_bytes adv) = (10 + length total)%nat)
    by exact (advertisement_length adv Hok).
  assert (HP : bytes (framed 0x3E ([0x02; 1] ++ advertisement_bytes adv))).
  { unfold framed. cbn [app]. apply bytes_cons. split; [reflexivity|]. apply bytes_cons.
    split; [cbn [length]; unfold byte; lia|]. apply bytes_cons. split; [reflexivity|].
    apply bytes_cons. split; [reflexivity|]. unfold advertisement_bytes, adv.
    cbn [la_event_type la_address la_data la_rssi app].
    apply bytes_cons. split; [destruct ty; reflexivity|]. apply bytes_app.
    split; [now apply address_bytes_ok|]. apply bytes_cons. split; [unfold byte; lia|].
    apply bytes_app. split; [exact HB|]. apply bytes_cons. split; [|constructor].
    destruct rssi as [z|]; [|reflexivity]. cbn [rssi_byte]. unfold signed, byte, is_i8 in *. lia. }
  destruct (proj2 (advertising_report_packet F' V' _ [adv] HP)) as (r & Hev & Hit).
  { split; [now constructor|]. exists 1. unfold framed. cbn [flat_map app]. now rewrite app_nil_r. }
  exists r, (map (fun a => (ad_code a, ad_content a)) ads).
  split; [exact Hev|]. split; [exact (iterates_calls _ _ _ Hit 2)|]. cbn [la_data adv].
  pose proof (parse_all ads 0 Hf) as Hp. cbn [repeat] in Hp. rewrite app_nil_r in Hp. fold total in Hp.
  split; [exact Hp|]. now apply interpret_all.
Qed.
End Send.

Lemma sent_opcode F V c header payload : arguments_typed F c ->
  In (header, payload) (sent F V uart_header c) ->
  exists more, header
    = 0x01 :: le 2 (fst (command_code c) * 1024 + snd (command_code c)) ++ more.
Proof.
  intros HA. rewrite (sent_spec F V uart_header uart_header_bytes c (or_introl eq_refl) HA).
  destruct (rejection c); [intros []|]. intros [H|[]]. injection H as <- _.
  unfold uart_header_bytes, command_opcode, hci_opcode. cbn [app]. eexists.
  reflexivity.
Qed.

Lemma rejects_nothing V E c : has_own_errors c = false -> @rejection V E c = None.
Proof. destruct c; cbn [has_own_errors rejection]; (reflexivity || discriminate). Qed.
