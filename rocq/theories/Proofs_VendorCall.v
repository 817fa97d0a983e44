(** * Vendor commands among the others (proofs). *)
From Verif Require Import Base Model_Types Model_EventBase Model_Command Model_Event Model_Host Model_VendorCall
  Spec_Wire Spec_Errors Spec_Host Spec_Link Spec_Retry Spec_Dialogue Spec_Split Spec_VendorCall
  Proofs_Base Proofs_Types Proofs_Command Proofs_Vendor Proofs_Calls Proofs_Link Proofs_Split Proofs_Streams Proofs_Device.
Open Scope list_scope.
Open Scope N_scope.

(** ** The stream on a command link *)
Lemma parse_link_enough : forall l fuel, (length l <= fuel)%nat -> parse_link_commands_fuel fuel l = parse_link_commands l.
Proof.
  intros l. unfold parse_link_commands. generalize (le_n (length l)). generalize (length l) at 2 4 as k.
  intros k. revert l. induction k as [|k IH]; intros l Hk fuel Hf.
  - destruct l; [|cbn in Hk; lia]. now destruct fuel.
  - destruct l as [|lo l]; [now destruct fuel|]. destruct fuel as [|fuel]; [cbn in Hf; lia|].
    destruct l as [|hi [|n rest]]; [reflexivity|reflexivity|]. cbn [parse_link_commands_fuel length] in *.
    destruct (Nat.leb _ _); [|reflexivity].
    assert (length (skipn (N.to_nat n) rest) <= length rest)%nat by (rewrite skipn_length; lia).
    rewrite (IH (skipn (N.to_nat n) rest)) by lia. reflexivity.
Qed.

(** ** One vendor command *)
Lemma vendor_uart {St E} (C : controller St E) ocf params s : ocf < 1024 ->
  vendor_write uart_header C ocf params s
  = ctl_write C s ([0x01] ++ le 2 (hci_opcode 0x3F ocf) ++ [N.of_nat (length params) mod 256]) params.
Proof.
  intros H. unfold vendor_write, abind, pure. rewrite opcode_new_hci by (exact H || lia). rewrite le_2.
  cbn [uart_header cmd_link_header hdr_new hdr_copy hdr_length]. unfold header_fields_new.
  change (as_u8 (N.of_nat (length params))) with (N.of_nat (length params) mod 256). reflexivity.
Qed.
Lemma vendor_link {St E} (C : controller St E) ocf params s : ocf < 1024 ->
  vendor_write cmd_link_header C ocf params s
  = ctl_write C s (le 2 (hci_opcode 0x3F ocf) ++ [N.of_nat (length params) mod 256]) params.
Proof.
  intros H. unfold vendor_write, abind, pure. rewrite opcode_new_hci by (exact H || lia). rewrite le_2.
  cbn [uart_header cmd_link_header hdr_new hdr_copy hdr_length]. unfold header_fields_new.
  change (as_u8 (N.of_nat (length params))) with (N.of_nat (length params) mod 256). reflexivity.
Qed.
Lemma vendor_opcode_u16 ocf : ocf < 1024 -> u16 (hci_opcode 0x3F ocf).
Proof. unfold u16, hci_opcode. change (2 ^ 16) with 65536. lia. Qed.

(** ** Sessions over any transport *)
Section Any.
Context {V : vendor} (F : features) {St E R X : Type} (perform : operation V -> St -> St * R) (H : hci_header)
  (C : controller St E) (h : history St) (HC : contract C h)
  (hdr : N -> nat -> list N) (parse : list N -> option (list (N * list N)))
  (frame : list N -> list N) (result : list N -> X) (got : R -> list X) (ok : R -> bool).
Hypothesis parse_nil : parse [] = Some [].
Hypothesis parse_first : forall op ps rest, u16 op -> (length ps <= 255)%nat ->
  parse (hdr op (length ps) ++ ps ++ rest)
  = match parse rest with Some more => Some ((op, ps) :: more) | None => None end.
Hypothesis vendor_step : forall ocf ps s, ocf < 1024 -> (length ps <= 255)%nat ->
  vendor_write H C ocf ps s = ctl_write C s (hdr (hci_opcode 0x3F ocf) (length ps)) ps.
Hypothesis step : forall o s, typed_operation F o -> possible h s ->
  let (s1, r) := perform o s in
  possible h s1 /\ arrives h s s1
  /\ written h s1 = written h s ++ match o with
                                   | Send c => if ok r then hdr (command_opcode c) (length (command_params c))
                                                            ++ command_params c else []
                                   | Receive => []
                                   end
  /\ match o with Send c => ok r = true -> (length (command_params c) <= 255)%nat | Receive => True end
  /\ exists ps, Forall event_packet ps /\ (exists more, pending h s s1 = flat_map frame ps ++ more)
       /\ consumed h s1 = (consumed h s + length (flat_map frame ps))%nat /\ got r = map result ps.

Lemma mixed_any os s : Forall (typed_mixed F) os -> possible h s ->
  let (s', log) := mixed_session perform H C os s in
  possible h s' /\ arrives h s s' /\ map fst log = os
  /\ (exists stream, written h s' = written h s ++ stream /\ parse stream = Some (taken ok log))
  /\ exists ps, Forall event_packet ps /\ (exists more, pending h s s' = flat_map frame ps ++ more)
       /\ consumed h s' = (consumed h s + length (flat_map frame ps))%nat
       /\ flat_map (fun x => got (snd x)) (crate_log log) = map result ps.
Proof.
  intros Ho. revert s. induction Ho as [|o os Ho _ IH]; intros s Hs; cbn [mixed_session].
  - split; [exact Hs|]. split; [apply arrives_refl|]. split; [reflexivity|].
    split; [exists []; split; [now rewrite app_nil_r|exact parse_nil]|].
    exists []. split; [constructor|]. split; [now eexists|]. split; [cbn; lia|reflexivity].
  - destruct o as [o|ocf params]; cbn [mixed_perform].
    + pose proof (step o s Ho Hs) as K. destruct (perform o s) as [s1 r].
      destruct K as (K1 & K2 & K3 & KL & ps0 & K4 & K5 & K6 & K7). specialize (IH s1 K1).
      destruct (mixed_session perform H C os s1) as [s2 log].
      destruct IH as (I1 & I2 & I3 & (w & I4 & I4') & ps & I5 & I6 & I7 & I8).
      split; [exact I1|]. split; [eapply arrives_trans; eassumption|]. split; [cbn; now rewrite I3|]. split.
      * destruct o as [c|]; unfold taken; cbn [flat_map].
        -- destruct (ok r).
           ++ exists ((hdr (command_opcode c) (length (command_params c)) ++ command_params c) ++ w).
              split; [now rewrite I4, K3, <- app_assoc|]. rewrite <- app_assoc.
              rewrite parse_first by (apply command_opcode_u16 || (apply KL; reflexivity)). rewrite I4'. reflexivity.
           ++ exists w. split; [now rewrite I4, K3, app_nil_r|]. rewrite I4'. reflexivity.
        -- exists w. split; [now rewrite I4, K3, app_nil_r|]. rewrite I4'. reflexivity.
      * exists (ps0 ++ ps). split; [now apply Forall_app|].
        destruct K5 as [x X0]. destruct I6 as [y Y].
        destruct (pending_grows h s s1 s2) as [z Z]; [|exact I2|].
        { apply (consumed_received _ _ HC) in K1. lia. }
        assert (W : x ++ z = flat_map frame ps ++ y).
        { unfold pending in Y. rewrite K6, skipn_add in Y. fold (pending h s s2) in Y.
          now rewrite Z, X0, <- app_assoc, skipn_all_app in Y by reflexivity. }
        rewrite flat_map_app. split; [exists y; rewrite Z, X0, <- !app_assoc; f_equal; exact W|].
        split; [rewrite app_length; lia|].
        unfold crate_log. cbn [flat_map app snd]. rewrite map_app, K7. f_equal. exact I8.
    + destruct Ho as (H1 & H2 & H3). rewrite vendor_step by assumption.
      pose proof (write_contract _ _ HC s (hdr (hci_opcode 0x3F ocf) (length params)) params Hs) as W.
      destruct (ctl_write _ _ _ _) as [s1 r]. destruct W as (W1 & W2 & W3 & W4). specialize (IH s1 W1).
      destruct (mixed_session perform H C os s1) as [s2 log].
      destruct IH as (I1 & I2 & I3 & (w & I4 & I4') & ps & I5 & I6 & I7 & I8).
      split; [exact I1|]. split; [eapply arrives_trans; eassumption|]. split; [cbn; now rewrite I3|]. split.
      * unfold taken. cbn [flat_map]. destruct r as [[]|e|]; [| |contradiction].
        -- exists ((hdr (hci_opcode 0x3F ocf) (length params) ++ params) ++ w).
           split; [now rewrite I4, W4, <- !app_assoc|]. rewrite <- app_assoc.
           rewrite parse_first by (assumption || now apply vendor_opcode_u16). rewrite I4'. reflexivity.
        -- exists w. split; [now rewrite I4, W4|]. rewrite I4'. reflexivity.
      * exists ps. split; [exact I5|]. rewrite <- (pending_same h s s1 s2 W3). split; [exact I6|].
        split; [lia|]. exact I8.
Qed.
End Any.

Section Both.
Context (F : features) (V : vendor) {St E : Type} (C : controller St E) (h : history St).
Lemma success_short c s H hdr : In (H, hdr) header_formats -> arguments_typed F c ->
  let (s1, r) := run_command F V H C c s in succeeded r = true -> (length (command_params c) <= 255)%nat.
Proof.
  intros HH HA. pose proof (success_fits F V H hdr C c s HH HA) as K. destruct (run_command F V H C c s) as [s1 r].
  intros Hr. specialize (K Hr). destruct K as [K1 K2]. destruct (params_ok F V c K1 K2) as [Hl _]. lia.
Qed.

Lemma mixed_uart os s : contract C h -> Forall (typed_mixed F) os -> possible h s ->
  let (s', log) := mixed_session (perform F V C) uart_header C os s in
  map fst log = os
  /\ (exists stream, written h s' = written h s ++ stream /\ parse_commands stream = Some (taken sent_ok log))
  /\ exists ps, Forall event_packet ps /\ (exists more, pending h s s' = flat_map uart_frame ps ++ more)
       /\ consumed h s' = (consumed h s + length (flat_map uart_frame ps))%nat
       /\ received_packets (crate_log log) = map (uart_result F V) ps.
Proof.
  intros HC Ho Hs.
  pose proof (mixed_any F (perform F V C) uart_header C h HC uart_header_bytes parse_commands uart_frame (uart_result F V)
    (fun r => match r with Received r => if uart_reports V r then [r] else [] | Sent _ => [] end) sent_ok) as G.
  assert (Q : forall log : list (operation V * report V E), received_packets log
     = flat_map (fun x => match snd x with Received r => if uart_reports V r then [r] else [] | Sent _ => [] end) log).
  { intros log. unfold received_packets. apply flat_map_ext. intros [o [r|r]]; reflexivity. }
  specialize (G eq_refl).
  assert (G1 : forall op ps rest, u16 op -> (length ps <= 255)%nat ->
    parse_commands (uart_header_bytes op (length ps) ++ ps ++ rest)
    = match parse_commands rest with Some more => Some ((op, ps) :: more) | None => None end) by exact parse_one.
  specialize (G G1).
  assert (G2 : forall ocf ps s, ocf < 1024 -> (length ps <= 255)%nat ->
    vendor_write uart_header C ocf ps s = ctl_write C s (uart_header_bytes (hci_opcode 0x3F ocf) (length ps)) ps).
  { intros ocf ps s0 H1 H2. rewrite vendor_uart by exact H1. unfold uart_header_bytes. rewrite N.mod_small by lia. reflexivity. }
  specialize (G G2).
  match type of G with ?A -> _ => assert (G3 : A) end.
  { intros o s0 HO H0. destruct o as [c|]; cbn [perform].
    - pose proof (call_contract F V C h HC c s0 HO H0) as K.
      pose proof (success_short c s0 uart_header uart_header_bytes (or_introl eq_refl) HO) as L.
      destruct (run_command _ _ _ _ _ _) as [s1 r]. destruct K as (K1 & K2 & K3 & K4).
      split; [exact K1|]. split; [exact K2|]. split; [exact K4|]. split; [exact L|].
      exists []. split; [constructor|]. split; [now eexists|]. split; [cbn; lia|reflexivity].
    - destruct (uart_read_cases F V C h HC s0 H0) as (s1 & r & -> & K).
      destruct K as [(Hf & HN & _)|(p & Hp & HT & ->)].
      + destruct HN as (K1 & K2 & K3 & K4). split; [exact K1|]. split; [exact K2|]. rewrite app_nil_r. split; [exact K4|].
        split; [exact I|]. exists []. split; [constructor|]. split; [now eexists|]. split; [cbn; lia|]. now rewrite Hf.
      + destruct HT as (K1 & K2 & [x X] & K3 & K4). split; [exact K1|]. split; [exact K2|]. rewrite app_nil_r. split; [exact K4|].
        split; [exact I|]. exists [p]. split; [now repeat constructor|]. cbn [flat_map]. rewrite app_nil_r.
        split; [now exists x|]. split; [exact K3|]. now rewrite uart_result_reports. }
  specialize (G G3 os s Ho Hs). destruct (mixed_session _ _ _ os s) as [s' log].
  destruct G as (_ & _ & R1 & R2 & R3). rewrite Q. tauto.
Qed.

Lemma mixed_split os s : contract C h -> Forall (typed_mixed F) os -> possible h s ->
  let (s', log) := mixed_session (split_perform F V C) cmd_link_header C os s in
  map fst log = os
  /\ (exists stream, written h s' = written h s ++ stream /\ parse_link_commands stream = Some (taken split_sent_ok log))
  /\ exists ps, Forall event_packet ps /\ (exists more, pending h s s' = concat ps ++ more)
       /\ consumed h s' = (consumed h s + length (concat ps))%nat
       /\ split_received (crate_log log) = map (link_result F V) ps.
Proof.
  intros HC Ho Hs.
  pose proof (mixed_any F (split_perform F V C) cmd_link_header C h HC cmd_link_header_bytes parse_link_commands
    (fun p => p) (link_result F V)
    (fun r => match r with SplitReceived r => if link_reports V r then [r] else [] | SplitSent _ => [] end) split_sent_ok) as G.
  assert (Q : forall log : list (operation V * split_report V E), split_received log
     = flat_map (fun x => match snd x with SplitReceived r => if link_reports V r then [r] else [] | SplitSent _ => [] end) log).
  { intros log. unfold split_received. apply flat_map_ext. intros [o [r|r]]; reflexivity. }
  specialize (G eq_refl).
  assert (G1 : forall op ps rest, u16 op -> (length ps <= 255)%nat ->
    parse_link_commands (cmd_link_header_bytes op (length ps) ++ ps ++ rest)
    = match parse_link_commands rest with Some more => Some ((op, ps) :: more) | None => None end).
  { intros op ps rest H1 H2. unfold cmd_link_header_bytes, parse_link_commands. rewrite <- app_assoc.
    replace (length (le 2 op ++ [N.of_nat (length ps)] ++ ps ++ rest)) with (S (S (S (length ps + length rest))))
      by (rewrite !app_length, le_length; cbn [length]; lia).
    rewrite parse_link_step by assumption. now rewrite parse_link_enough by lia. }
  specialize (G G1).
  assert (G2 : forall ocf ps s, ocf < 1024 -> (length ps <= 255)%nat ->
    vendor_write cmd_link_header C ocf ps s = ctl_write C s (cmd_link_header_bytes (hci_opcode 0x3F ocf) (length ps)) ps).
  { intros ocf ps s0 H1 H2. rewrite vendor_link by exact H1. unfold cmd_link_header_bytes. rewrite N.mod_small by lia. reflexivity. }
  specialize (G G2).
  match type of G with ?A -> _ => assert (G3 : A) end.
  { intros o s0 HO H0. destruct o as [c|]; cbn [split_perform].
    - pose proof (link_call F V C h HC c s0 HO H0) as K.
      pose proof (success_short c s0 _ _ link_header_known HO) as L.
      destruct (run_command _ _ _ _ _ _) as [s1 r]. destruct K as ((K1 & K2 & K3 & K4) & _).
      split; [exact K1|]. split; [exact K2|].
      split; [rewrite K4; cbn [split_sent_ok]; now rewrite link_bytes_header|]. split; [exact L|].
      exists []. split; [constructor|]. split; [now eexists|]. split; [cbn; lia|reflexivity].
    - destruct (link_read_cases F V C h HC s0 H0) as (s1 & r & -> & K).
      destruct K as [(Hf & HN)|(p & Hp & HT & ->)].
      + destruct HN as (K1 & K2 & K3 & K4). split; [exact K1|]. split; [exact K2|]. rewrite app_nil_r. split; [exact K4|].
        split; [exact I|]. exists []. split; [constructor|]. split; [now eexists|]. split; [cbn; lia|]. now rewrite Hf.
      + destruct HT as (K1 & K2 & [x X] & K3 & K4). split; [exact K1|]. split; [exact K2|]. rewrite app_nil_r. split; [exact K4|].
        split; [exact I|]. exists [p]. split; [now repeat constructor|]. cbn [flat_map]. rewrite app_nil_r.
        split; [now exists x|]. split; [exact K3|]. now rewrite link_result_reports. }
  specialize (G G3 os s Ho Hs). destruct (mixed_session _ _ _ os s) as [s' log].
  destruct G as (_ & _ & R1 & R2 & R3). rewrite Q.
  assert (Hc : forall ps : list (list N), flat_map (fun p => p) ps = concat ps)
    by (intros ps; rewrite flat_map_concat_map, map_id; reflexivity).
  split; [exact R1|]. split; [exact R2|]. destruct R3 as (ps & R3). rewrite Hc in R3. now exists ps.
Qed.
End Both.

(** ** The answers *)
Lemma vendor_distinct V (c : command V) ocf : ocf < 1024 -> command_opcode c <> hci_opcode 0x3F ocf.
Proof.
  intros H K. apply (opcode_not_vendor V c). rewrite K. unfold hci_opcode. lia.
Qed.
Lemma vendor_answer F V {E} n ocf ret : ocf < 1024 ->
  let p := [n] ++ le 2 (hci_opcode 0x3F ocf) ++ ret in
  uart_result (E := E) F V (framed 0x0E p)
  = match vreturn_new V p with
    | Ok v => Ok (PEvent (EvCommandComplete (Build_command_complete n (RetVendor v))))
    | Err e => Err (Other (UBLE e))
    | Panic => Panic
    end
  /\ link_result (E := E) F V (framed 0x0E p)
  = match vreturn_new V p with
    | Ok v => Ok (EvCommandComplete (Build_command_complete n (RetVendor v)))
    | Err e => Err (Other (LBLE e))
    | Panic => Panic
    end.
Proof.
  intros H p. unfold uart_result, link_result, p. rewrite vendor_return.
  - destruct (vreturn_new V _); split; reflexivity.
  - now apply vendor_opcode_u16.
  - unfold hci_opcode. lia.
Qed.
