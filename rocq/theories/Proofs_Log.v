(** * Derived [Debug] texts of accepted packets, and of errors and parameters. *)
From Verif Require Import Base Model_Types Model_Bitflags Model_FlagNames Model_Intervals Model_EventBase
  Model_Command Model_Event Model_Host Model_Debug Model_Log Spec_Wire Spec_Flags Spec_Debug Spec_Log Spec_Example
  Proofs_Base Proofs_Bits Proofs_Event Proofs_Command Proofs_Report Proofs_FlagNames Proofs_Debug
  Proofs_LogText Proofs_LogFlags Proofs_LogTypes Proofs_LogEvent Proofs_LogReturn.
From Coq Require Import String Ascii.
Open Scope list_scope.
Open Scope N_scope.

Section Vendor.
Context (F : features) {V : vendor} (D : vendor_debug V).

Lemma status_then_bytes (s : status (VStatus V)) body ret : status_then F V s body ret -> bytes ret -> bytes body.
Proof.
  intros (sb & _ & ->) Hb. unfold bytes in *. now apply Forall_inv_tail in Hb.
Qed.
Lemma accepted_good pkt e : bytes pkt -> event_new F V pkt = Ok e -> event_good F e.
Proof.
  intros Hb H. destruct e as [| | | |[n r]| | |ev| | | |ev| |[s h fe]| | | |]; cbn [event_good]; try exact I.
  - apply command_complete_dispatch_iff in H; [|exact Hb].
    destruct H as (op & ret & _ & -> & [W|(v & _ & _ & ->)]); [|exact I].
    assert (Br : bytes ret).
    { unfold bytes in Hb |- *. rewrite !Forall_app in Hb. tauto. }
    destruct r; cbn [cc_return_params return_good]; try exact I; cbn [wire_return] in W.
    + destruct W as (_ & L & _ & S). split; [exact L|]. exact (status_then_bytes _ _ _ S Br).
    + destruct W as (_ & v & _ & S & _). intros i Hi. rewrite lmp_feature_bits. rewrite S in Hi.
      apply andb_prop in Hi. tauto.
    + destruct W as (_ & v & _ & S & _). intros i Hi. rewrite le_local_feature_bits. rewrite S in Hi.
      apply andb_prop in Hi. tauto.
    + destruct W as (_ & _ & S). exact (status_then_bytes _ _ _ S Br).
    + destruct W as (_ & _ & S & _). intros i Hi. rewrite le_state_bits. now apply S.
  - destruct (accepted_pairs_iterate F V pkt ev Hb H) as (l & It & _). exists l. exact It.
  - destruct (accepted_report_iterates F V pkt ev Hb H) as (l & It & _). exists l. split; [exact It|].
    now apply (proj1 (advertising_report_packet F V pkt l Hb) (ex_intro _ ev (conj H It))).
  - apply le_used_features_packet in H; [|exact Hb]. destruct H as (sb & _ & _ & _ & S & _).
    intros i Hi. rewrite le_feature_bits. now apply S.
Qed.
Lemma accepted_text pkt e : bytes pkt -> event_new F V pkt = Ok e ->
  exists t, prints (fun fuel => @debug_event F V D Empty_set fuel e) t.
Proof.
  intros Hb H. destruct (event_text F D e (accepted_good _ _ Hb H)) as (t & _ & P). eauto.
Qed.

Lemma same_told (e e' : event V) : Proofs_LogReturn.same_event e e' -> tell_same e e'.
Proof.
  intros [->|[(a & b & l & Ia & Ib & -> & ->)|[(a & b & l & Ia & Ib & -> & ->)|(n & r & r' & S & -> & ->)]]].
  - constructor.
  - now apply (same_pairs _ _ l).
  - now apply (same_advertisements _ _ l).
  - destruct S as [->|(s & f & g & S & Lf & Lg & Bf & Bg & -> & ->)]; [constructor|].
    constructor. apply (first_bits 39); try assumption. lia.
Qed.
(** Texts are the same if what they tell is. *)
Lemma told_same (e e' : event V) t t' : event_good F e -> event_good F e' ->
  prints (fun fuel => @debug_event F V D Empty_set fuel e) t ->
  prints (fun fuel => @debug_event F V D Empty_set fuel e') t' -> tell_same e e' -> t = t'.
Proof.
  intros G G' P P' S. destruct S as [e|a b l Ia Ib|a b l Ia Ib|n s f g Hb].
  - exact (prints_inj _ _ _ P P').
  - refine (prints_inj _ _ _ P _). destruct P' as [m P'].
    destruct (completed_packets_printed _ _ Ia) as [x Pa]. destruct (completed_packets_printed _ _ Ib) as [y Pb].
    exists (m + x + y)%nat. intros fuel Hf. rewrite <- (P' fuel) by lia. cbn [debug_event].
    now rewrite (Pa fuel), (Pb fuel) by lia.
  - refine (prints_inj _ _ _ P _). destruct P' as [m P'].
    destruct (report_printed _ _ Ia) as [x Pa]. destruct (report_printed _ _ Ib) as [y Pb].
    exists (m + x + y)%nat. intros fuel Hf. rewrite <- (P' fuel) by lia. cbn [debug_event].
    now rewrite (Pa fuel), (Pb fuel) by lia.
  - refine (prints_inj _ _ _ P _). destruct P' as [m P']. exists m. intros fuel Hf. rewrite <- (P' fuel Hf).
    cbn in G, G'. destruct G as [Lf Bf], G' as [Lg Bg].
    apply (first_bits 39 f g) in Hb; try assumption; [|lia].
    apply (debug_flags_iff (E := Empty_set)) in Hb; try assumption.
    cbn [debug_event]. unfold debug_command_complete. cbn [cc_return_params return_variant].
    unfold debug_local_supported_commands. cbn [lsc_commands lsc_status]. now rewrite Hb.
Qed.

Context (HD : vendor_legible D).
Lemma text_told (e e' : event V) t : event_good F e -> event_good F e' ->
  prints (fun fuel => @debug_event F V D Empty_set fuel e) t ->
  prints (fun fuel => @debug_event F V D Empty_set fuel e') t -> tell_same e e'.
Proof.
  intros G G' P P'. apply same_told.
  destruct (event_text F D e G) as (b & B & T), (event_text F D e' G') as (b' & B' & T').
  assert (H := prints_inj _ _ _ P T). assert (H' := prints_inj _ _ _ P' T'). rewrite H in H'. clear H.
  apply (event_split F D HD e e' b b' ""%string ""%string G G' B B').
  - now left.
  - now left.
  - now rewrite H'.
Qed.
Lemma accepted_tells pkt pkt' e e' t t' : bytes pkt -> bytes pkt' ->
  event_new F V pkt = Ok e -> event_new F V pkt' = Ok e' ->
  prints (fun fuel => @debug_event F V D Empty_set fuel e) t ->
  prints (fun fuel => @debug_event F V D Empty_set fuel e') t' ->
  (t = t' <-> tell_same e e').
Proof.
  intros Hb Hb' H H' P P'. apply accepted_good in H, H'; try assumption. split.
  - intros <-. now apply (text_told e e' t).
  - now apply told_same.
Qed.
End Vendor.

(** The rest is one line each. *)
Lemma legible_iff {A} (P : A -> Prop) (show : A -> string) x y : legible P show -> P x -> P y ->
  (show x = show y <-> x = y).
Proof.
  intros L Hx Hy. split; [|now intros ->]. intros H.
  apply (L x y ""%string ""%string Hx Hy); [now left|now left|now rewrite H].
Qed.
Lemma channels_within F c : (forall i, N.testbit c i = true -> i < 3) -> within F Channels c.
Proof.
  intros H i Hi. apply H in Hi.
  assert (K : i = 0 \/ i = 1 \/ i = 2) by lia. destruct K as [->|[->| ->]]; destruct F as [[] []]; reflexivity.
Qed.
Lemma host_error_tells F V (D : vendor_debug V) E (show : E -> string) e e' :
  vendor_legible D -> legible any show ->
  (forall c i, e = HBadChannelMap c \/ e' = HBadChannelMap c -> N.testbit c i = true -> i < 3) ->
  (debug_host_error F D show e = debug_host_error F D show e' <-> e = e').
Proof.
  intros HD L H. apply (legible_iff _ _ _ _ (host_error_legible F D HD show L));
    intros c ->; apply channels_within; intros i; apply H; auto.
Qed.
Lemma advertising_parameters_tell F p q :
  (forall i, N.testbit (ap_channel_map p) i = true -> i < 3) ->
  (forall i, N.testbit (ap_channel_map q) i = true -> i < 3) ->
  (debug_advertising_parameters F p = debug_advertising_parameters F q <-> p = q).
Proof.
  intros Hp Hq. apply (legible_iff _ _ _ _ (advertising_parameters_legible F)); now apply channels_within.
Qed.
