(** * Several commands at a time (proofs). *)
From Coq Require Import Lia.
From Verif Require Import Base Model_Types Model_Intervals Model_EventBase Model_Command Model_Event Model_Host
  Spec_Wire Spec_Errors Spec_Report Spec_Host Spec_Link Spec_Split Spec_Conform Spec_Follow Spec_Credit Spec_Facts Spec_Data Spec_Window Spec_Turns
  Spec_Own
  Proofs_Base Proofs_Event Proofs_Report Proofs_Panic Proofs_Complete Proofs_Command Proofs_Link Proofs_Conform Proofs_Follow Proofs_Credit
  Proofs_Facts Proofs_Data Proofs_Window Proofs_Turns.
Open Scope list_scope.
Open Scope N_scope.

Definition reply_of (op : N) (pkt : list N) : bool :=
  ((at_ pkt 0 =? 0x0E) && (u16_le pkt 3 =? op)) || ((at_ pkt 0 =? 0x0F) && (u16_le pkt 4 =? op)).
Lemma own_opcode {V} (c : command V) : command_opcode c <> 0 /\ command_opcode c / 1024 <> 0x3F.
Proof. destruct c; split; vm_compute; discriminate. Qed.

Section Own.
Context (F : features) (V : vendor).
Lemma own_ok op pkt ev : op <> 0 -> op / 1024 <> 0x3F -> bytes pkt -> event_new F V pkt = Ok ev ->
  answer_to op ev = reply_of op pkt.
Proof.
  intros Z NV Hb H. destruct ev;
    try (destruct (event_of_code F V _ _ H) as (p & -> & Hp); cbn [event_code event_subcode] in *; reflexivity).
  - destruct e as [k r]. apply (command_complete_dispatch_iff F V pkt k r Hb) in H.
    destruct H as (o & ret & Hop & -> & D). unfold reply_of, u16_le, at_. rewrite le_2.
    cbn [app nth Nat.add]. rewrite word_back by exact Hop. change (0x0E =? 0x0E) with true. change (0x0E =? 0x0F) with false.
    cbn [andb]. rewrite orb_false_r. cbn [answer_to cc_return_params].
    destruct D as [W|(v & Ho & _ & ->)].
    + destruct r; cbn [wire_return] in W; try contradiction;
        try (match type of W with version_5_0 _ = _ /\ _ => destruct W as [_ W] end);
        try (match type of W with _ /\ _ => destruct W as [W _] end); subst o; cbn [return_opcode]; try reflexivity.
      symmetry. apply N.eqb_neq. congruence.
    + cbn [return_opcode]. symmetry. apply N.eqb_neq. congruence.
  - destruct e as [st k o]. apply (command_status_packet F V pkt st k o Hb) in H.
    destruct H as (sb & _ & Ho & ->). unfold reply_of, u16_le, at_. rewrite le_2.
    cbn [app nth Nat.add]. rewrite word_back by exact Ho. reflexivity.
Qed.
Lemma own_refused op pkt : op <> 0 -> conforming_packet F pkt -> (forall ev, event_new F V pkt <> Ok ev) ->
  reserved_address_commands pkt = false -> reply_of op pkt = false.
Proof.
  intros Z Hp No R. pose proof (reply_refused F V pkt Hp No R) as Q. unfold reply_packet in Q. unfold reply_of.
  apply orb_false_iff in Q. destruct Q as [Q1 Q2].
  destruct (at_ pkt 0 =? 0x0E); cbn [andb] in *.
  - apply negb_false_iff, N.eqb_eq in Q1. rewrite Q1. rewrite (proj2 (N.eqb_neq 0 op)) by congruence. cbn [orb].
    destruct (at_ pkt 0 =? 0x0F); cbn [andb] in *; [|reflexivity].
    apply negb_false_iff, N.eqb_eq in Q2. rewrite Q2. apply N.eqb_neq. congruence.
  - destruct (at_ pkt 0 =? 0x0F); cbn [andb orb] in *; [|reflexivity].
    apply negb_false_iff, N.eqb_eq in Q2. rewrite Q2. apply N.eqb_neq. congruence.
Qed.
(** The answers read to a command are its replies, one by one. *)
Lemma own_answers op ps : op <> 0 -> op / 1024 <> 0x3F -> Forall (conforming_packet F) ps ->
  Forall (fun p => reserved_address_commands p = false) ps ->
  Forall2 (fun p ev => event_new F V p = Ok ev) (filter (reply_of op) ps) (filter (answer_to op) (flat_map (one F V) ps)).
Proof.
  intros Z NV. induction 1 as [|p ps Hp _ IH]; intros R; [constructor|]. inversion R as [|? ? R1 R2]; subst.
  specialize (IH R2). cbn [flat_map filter]. rewrite filter_app. unfold one at 1.
  destruct (event_new F V p) as [ev|e|] eqn:En; cbn [filter app].
  - rewrite (own_ok op p ev Z NV (packet_bytes F p Hp) En). destruct (reply_of op p); [|exact IH].
    cbn [app]. now constructor.
  - rewrite own_refused; [exact IH|exact Z|exact Hp|congruence|exact R1].
  - rewrite own_refused; [exact IH|exact Z|exact Hp|congruence|exact R1].
Qed.
Lemma own_replies op ws :
  filter (reply_with op) ws = map (pair 0x04) (filter (reply_of op) (events_in ws)).
Proof.
  unfold events_in. induction ws as [|[t p] ws IH]; [reflexivity|]. cbn [filter]. unfold reply_with at 1. cbn [fst snd].
  destruct (N.eqb_spec t 0x04) as [->|Ht]; cbn [andb map filter snd]; [|exact IH].
  fold (reply_of op p). destruct (reply_of op p); cbn [map]; now rewrite IH.
Qed.
Lemma orderly_packets d : orderly F d ->
  Forall incoming_packet (sent_by d) /\ Forall (conforming_packet F) (events_in (sent_by d)).
Proof.
  intros [_ H].
  assert (K : forall w, In w (sent_by d) -> incoming_packet w /\ (fst w = 0x04 -> conforming_packet F (snd w))).
  { intros w I. unfold sent_by in I. apply in_flat_map in I. destruct I as (x & Ix & I).
    apply in_split in Ix. destruct Ix as (before & after & ->). destruct x as [v|v]; [contradiction|].
    destruct I as [<-|[]]. destruct (H before v after eq_refl) as (H1 & H2 & _). now split. }
  split; [apply Forall_forall; intros w I; now apply K|].
  apply Forall_forall. intros p I. unfold events_in in I. apply in_map_iff in I. destruct I as (w & <- & I).
  apply filter_In in I. destruct I as [I Ht]. apply N.eqb_eq in Ht. now apply K.
Qed.
Lemma orderly_before d x : orderly F (d ++ [x]) -> orderly F d.
Proof.
  intros [H1 H2]. split.
  - rewrite taken_app in H1. apply Forall_app in H1. apply H1.
  - intros before w after ->. apply (H2 before w (after ++ [x])). now rewrite <- app_assoc.
Qed.
Lemma orderly_bound op d : op <> 0 -> orderly F d ->
  how_many (reply_with op) (sent_by d) <= how_many (command_with op) (taken d).
Proof.
  intros Z. induction d as [|x d IH] using rev_ind; intros H; [reflexivity|].
  specialize (IH (orderly_before _ _ H)). rewrite taken_app, sent_by_app, !how_many_app.
  destruct x as [w|w]; cbn [taken sent_by flat_map app].
  - change (how_many (reply_with op) []) with 0. lia.
  - change (how_many (command_with op) []) with 0. destruct H as [_ H]. destruct (H d w [] eq_refl) as (_ & _ & H').
    unfold how_many at 2. cbn [filter]. destruct (reply_with op w) eqn:Q; [|cbn; lia]. specialize (H' op Z Q). cbn. lia.
Qed.
Lemma nth_both {A B} (P : A -> B -> Prop) l m : Forall2 P l m -> forall k y, nth_error m k = Some y ->
  exists x, nth_error l k = Some x /\ P x y.
Proof.
  induction 1 as [|x y l m H _ IH]; intros [|k] z Hz; try discriminate.
  - injection Hz as <-. now exists x.
  - exact (IH k z Hz).
Qed.
Lemma nth_prefix {A} (l m : list A) k x : nth_error l k = Some x -> nth_error (l ++ m) k = Some x.
Proof. intros H. rewrite nth_error_app1; [exact H|]. apply nth_error_Some. congruence. Qed.

Context {St E : Type} (C : controller St E) (h : history St) (HC : contract C h).
Lemma own_answer os s d (c : command V) : Forall (typed_data_operation F V) os -> possible h s -> orderly F d ->
  Forall (fun w => reserved_address_commands (snd w) = false) (sent_by d) ->
  let (s', log) := data_session F V C os s in
  (exists rest, written h s' = written h s ++ flat_map wire_bytes (taken d) ++ rest) ->
  (exists rest, flat_map wire_bytes (sent_by d) = pending h s s' ++ rest) ->
  (forall k ev, nth_error (filter (answer_to (command_opcode c)) (events_got log)) k = Some ev ->
     exists pkt cmd, nth_error (filter (reply_with (command_opcode c)) (sent_by d)) k = Some (0x04, pkt)
     /\ event_new F V pkt = Ok ev
     /\ nth_error (filter (command_with (command_opcode c)) (put_out V log)) k = Some cmd
     /\ nth_error (filter (command_with (command_opcode c)) (taken d)) k = Some cmd)
  /\ (consumed h s' = (consumed h s + length (flat_map wire_bytes (sent_by d)))%nat ->
      length (filter (answer_to (command_opcode c)) (events_got log))
      = length (filter (reply_with (command_opcode c)) (sent_by d))).
Proof.
  intros Ho Hs Hd Hr. destruct (own_opcode c) as [Z NV]. set (op := command_opcode c) in *. clearbody op.
  destruct (orderly_packets d Hd) as [D1 D2].
  pose proof (both_streams F V C h HC os s d Ho Hs (proj1 Hd) D1) as K. destruct (data_session F V C os s) as [s' log].
  intros W R. destruct (K W R) as (_ & (more & P) & ps & later & Hps & Hev & _ & M). clear K.
  assert (Q : Forall (fun p => reserved_address_commands p = false) ps).
  { apply Forall_forall. intros p I. assert (I' : In p (events_in (sent_by d))) by (rewrite Hps; apply in_or_app; now left).
    unfold events_in in I'. apply in_map_iff in I'. destruct I' as (w & <- & I').
    apply filter_In in I'. exact (proj1 (Forall_forall _ _) Hr w (proj1 I')). }
  rewrite Hps in D2. apply Forall_app in D2. destruct D2 as [D2 _].
  pose proof (own_answers op ps Z NV D2 Q) as A. rewrite Hev.
  assert (L : filter (reply_with op) (sent_by d)
    = map (pair 0x04) (filter (reply_of op) ps) ++ map (pair 0x04) (filter (reply_of op) later)).
  { now rewrite own_replies, Hps, filter_app, map_app. }
  split.
  - intros k ev H. destruct (nth_both _ _ _ A k ev H) as (pkt & H1 & H2).
    assert (H3 : nth_error (filter (reply_with op) (sent_by d)) k = Some (0x04, pkt)).
    { rewrite L. apply nth_prefix. now apply map_nth_error. }
    assert (B : (k < length (filter (command_with op) (taken d)))%nat).
    { pose proof (orderly_bound op d Z Hd) as B. unfold how_many in B.
      assert (k < length (filter (reply_with op) (sent_by d)))%nat by (apply nth_error_Some; congruence). lia. }
    destruct (nth_error (filter (command_with op) (taken d)) k) as [cmd|] eqn:Hc.
    2:{ apply nth_error_None in Hc. lia. }
    exists pkt, cmd. split; [exact H3|]. split; [exact H2|]. split; [|reflexivity].
    rewrite P, filter_app. now apply nth_prefix.
  - intros Hcon. specialize (M Hcon). subst later. rewrite L. cbn [filter map]. rewrite app_nil_r, map_length.
    clear -A. induction A; cbn [length]; congruence.
Qed.
End Own.

(** The variants are those of the documentation. *)
Lemma documented_variant V (c : command V) P r : answers c = Some P -> P r -> return_opcode r = Some (command_opcode c).
Proof.
  destruct c; intros H; try discriminate H; injection H as <-; intros H;
    repeat match type of H with ex _ => destruct H as [? H] end; subst r; reflexivity.
Qed.
