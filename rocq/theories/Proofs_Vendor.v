(** * Vendor extensions. *)
From Verif Require Import Base Model_Types Model_Bitflags Model_Intervals
  Model_EventBase Model_Command Model_Event Spec_Wire Spec_Errors Spec_Report Spec_Vendor
  Proofs_Base Proofs_Event Proofs_Command.

Lemma vendor_event F V p :
  event_new F V (framed 0xFF p) = let! v := vevent_new V p in Ok (EvVendor v).
Proof. rewrite event_new_framed. reflexivity. Qed.

Lemma vendor_return F V n op ret : u16 op -> op / 1024 = 0x3F ->
  event_new F V (framed 0x0E ([n] ++ le 2 op ++ ret))
  = let! v := vreturn_new V ([n] ++ le 2 op ++ ret) in
    Ok (EvCommandComplete (Build_command_complete n (RetVendor v))).
Proof.
  intros Hop H. rewrite event_new_framed.
  change (event_dispatch F V 0x0E ([n] ++ le 2 op ++ ret))
    with (wrap V (command_complete_new F V ([n] ++ le 2 op ++ ret)) EvCommandComplete).
  rewrite le_2. cbn [app]. rewrite command_complete_cons, read_le_2 by exact Hop.
  apply vendor_opcode in H. destruct H as [H1 H2]. rewrite return_unknown by exact H2.
  rewrite H1. cbn [negb N.eqb Pos.eqb]. unfold wrap.
  change (0x3F =? 0x3F) with true. cbn [negb].
  destruct (vreturn_new V _); reflexivity.
Qed.

Section Decoders.
Context (F : features) (V : vendor)
  (fe : list N -> outcome (event_error (VError V)) (VEvent V))
  (fr : list N -> outcome (event_error (VError V)) (VReturn V)).
Local Notation V' := (with_decoders V fe fr).

Lemma arm_same {A} (decode : list N -> outcome (event_error (VError V)) A) mk mk' bs r :
  (forall a, mk' a = same_return V fe fr (mk a)) ->
  arm V decode mk bs = r ->
  arm V' decode mk' bs = match r with
    | Ok x => Ok (same_return V fe fr x) | Err e => Err e | Panic => Panic end.
Proof.
  intros Hm <-. unfold arm. destruct (slice_from bs 3) as [l|e|]; cbn [bind]; [|reflexivity..].
  destruct (decode l); cbn [bind]; [|reflexivity..]. now rewrite Hm.
Qed.

Lemma return_same op bs : opcode_ogf op <> 0x3F ->
  return_params_of F V' op bs = match return_params_of F V op bs with
    | Ok x => Ok (same_return V fe fr x) | Err e => Err e | Panic => Panic end.
Proof.
  intros Hogf. unfold return_params_of.
  repeat match goal with
  | |- (if ?b =? ?c then Ok _ else _) = _ => destruct (b =? c); [reflexivity|]
  | |- (if ?b =? ?c then arm _ _ (to_le_set_advertise_enable _ _) _ else _) = _ =>
      destruct (b =? c);
      [eapply arm_same; [|reflexivity];
       intros a; unfold to_le_set_advertise_enable; destruct (version_5_0 F); reflexivity|]
  | |- (if ?b =? ?c then arm _ _ _ _ else _) = _ =>
      destruct (b =? c); [eapply arm_same; [|reflexivity]; reflexivity|]
  | |- (if ?b =? ?c then bind _ _ else _) = _ =>
      destruct (b =? c);
      [ destruct (slice_from bs 3); cbn [bind]; [|reflexivity..];
        change (to_status F V' a) with (to_status F V a);
        destruct (to_status F V a); cbn [bind]; [|reflexivity..];
        change (VError V') with (VError V);
        destruct (idx bs 4); reflexivity |]
  end.
  destruct (N.eqb_spec (opcode_ogf op) 0x3F); [contradiction|reflexivity].
Qed.

Lemma wrap_same {A} (m : outcome (event_error (VError V)) A) mk mk' :
  (forall a, mk' a = same_event V fe fr (mk a)) ->
  wrap V' m mk' = same_result V fe fr (wrap V m mk).
Proof. intros H. unfold wrap. destruct m; cbn; [now rewrite H|reflexivity..]. Qed.

Lemma decoders_unused pkt : bytes pkt -> ~ vendor_packet pkt ->
  event_new F V' pkt = same_result V fe fr (event_new F V pkt).
Proof.
  intros Hb Hv. destruct (event_new_cases F V pkt) as [[Hl K]|[(c & n & r & -> & Hr & K)|(c & p & -> & K)]].
  - rewrite K, event_new_short by exact Hl. reflexivity.
  - rewrite K, event_new_bad_length by exact Hr. reflexivity.
  - rewrite K, event_new_framed. clear K. apply framed_bytes in Hb as Hp. unfold event_dispatch.
    destruct (N.eqb_spec c 0x03) as [->|_]; [apply wrap_same; reflexivity|].
    destruct (N.eqb_spec c 0x05) as [->|_]; [apply wrap_same; reflexivity|].
    destruct (N.eqb_spec c 0x08) as [->|_]; [apply wrap_same; reflexivity|].
    destruct (N.eqb_spec c 0x0C) as [->|_]; [apply wrap_same; reflexivity|].
    destruct (N.eqb_spec c 0x0E) as [->|_].
    { destruct p as [|n [|o0 [|o1 ret]]];
        try (rewrite !command_complete_short by (cbn; lia); reflexivity).
      bytes_inv. rewrite !command_complete_cons. unfold wrap.
      rewrite return_same.
      2:{ intros E. apply Hv. cbn [framed vendor_packet].
          unfold opcode_ogf in E. rewrite N.shiftr_div_pow2 in E. change (2 ^ 10) with 1024 in E.
          unfold byte in *. lia. }
      destruct (return_params_of F V (o0 + 256 * o1) (n :: o0 :: o1 :: ret)); reflexivity. }
    destruct (N.eqb_spec c 0x0F) as [->|_]; [apply wrap_same; reflexivity|].
    destruct (N.eqb_spec c 0x10) as [->|_]; [apply wrap_same; reflexivity|].
    destruct (N.eqb_spec c 0x13) as [->|_]; [apply wrap_same; reflexivity|].
    destruct (N.eqb_spec c 0x1A) as [->|_]; [apply wrap_same; reflexivity|].
    destruct (N.eqb_spec c 0x30) as [->|_]; [apply wrap_same; reflexivity|].
    destruct (N.eqb_spec c 0x3E) as [->|_].
    { destruct p as [|sub rest]; [reflexivity|]. rewrite !meta_cons.
      repeat match goal with
      | |- (if ?b =? ?x then _ else _) = _ => destruct (b =? x); [apply wrap_same; reflexivity|]
      end. reflexivity. }
    destruct (N.eqb_spec c 0xFF) as [->|_]; [exfalso; apply Hv; exact I|]. reflexivity.
Qed.

End Decoders.
