(** * Asking only for events the crate knows (proofs). *)
From Coq Require Import String.
From Verif Require Import Base Model_Types Model_Bitflags Model_FlagNames Model_SetOps Model_Intervals Model_EventBase Model_Command
  Model_Event Model_Host Spec_Wire Spec_Errors Spec_Report Spec_Host Spec_Link Spec_Split Spec_FlagNames Spec_Sets Spec_Device
  Spec_Air Spec_Enabled Spec_Blame Spec_Follow Spec_Known
  Proofs_Base Proofs_Panic Proofs_FlagNames Proofs_Sets Proofs_Streams Proofs_Device Proofs_Air Proofs_Enabled Proofs_Blame Proofs_Link Proofs_Split
  Proofs_Follow.
Open Scope list_scope.
Open Scope N_scope.

(** ** Flags and codes *)
Lemma member x l : existsb (N.eqb x) l = true -> In x l.
Proof. intros H. apply existsb_exists in H. destruct H as (y & H & E). apply N.eqb_eq in E. now subst. Qed.
Lemma has_flag_bit F names d name mask :
  has_flag (bf_constant F names d name) mask = true
  <-> exists b, declared F names d name = Some b /\ N.testbit mask b = true.
Proof.
  unfold bf_constant. destruct (declared F names d name) as [b|]; cbn [option_map has_flag].
  - rewrite contains_bit. split; [intros H; now exists b|intros (b' & K & H); injection K as ->; exact H].
  - split; [discriminate|intros (b & K & _); discriminate].
Qed.
Lemma events_declared : well_declared EventFlags_names EventFlags.
Proof. apply types_declared. vm_compute. auto 20. Qed.
Lemma le_events_declared : well_declared LeEventFlags_names LeEventFlags.
Proof. apply types_declared. vm_compute. auto 20. Qed.

Lemma known_bit F name b : In name known_flags -> declared F EventFlags_names EventFlags name = Some b ->
  In (b + 1) known_events /\ b <> 0.
Proof.
  intros H K. cbn [known_flags In] in H. destruct F as [[] []];
    decompose [or] H; try contradiction; subst name; vm_compute in K; injection K as <-; (split; [apply member; reflexivity|discriminate]).
Qed.
Lemma known_le_bit F name b : In name known_le_flags -> declared F LeEventFlags_names LeEventFlags name = Some b ->
  In (b + 1) known_subevents.
Proof.
  intros H K. cbn [known_le_flags In] in H. destruct F as [[] []];
    decompose [or] H; try contradiction; subst name; vm_compute in K; try discriminate K; injection K as <-; apply member; reflexivity.
Qed.
Definition codes_checked F (names : list string) (d : flag_decl) (known : list string) (codes : list N) : bool :=
  forallb (fun name => match declared F names d name with
                       | Some b => existsb (String.eqb name) known || negb (existsb (N.eqb (b + 1)) codes)
                       | None => true
                       end) names.
Lemma codes_lift F names d known codes name b : codes_checked F names d known codes = true ->
  declared F names d name = Some b -> ~ In name known -> ~ In (b + 1) codes.
Proof.
  intros H K Hn Hc. unfold codes_checked in H. rewrite forallb_forall in H.
  specialize (H name (declared_name F names d name b K)). cbn beta in H. rewrite K in H.
  apply orb_true_iff in H. destruct H as [H|H].
  - apply existsb_exists in H. destruct H as (x & Hx & E). apply String.eqb_eq in E. subst x. contradiction.
  - apply negb_true_iff in H.
    assert (existsb (N.eqb (b + 1)) codes = true) by (apply existsb_exists; exists (b + 1); split; [exact Hc|apply N.eqb_refl]).
    congruence.
Qed.
Lemma unknown_bit F name b : declared F EventFlags_names EventFlags name = Some b -> ~ In name known_flags ->
  ~ In (b + 1) known_events /\ b < 64.
Proof.
  intros K Hn. split.
  - revert K Hn. apply codes_lift. destruct F as [[] []]; vm_compute; reflexivity.
  - destruct events_declared as (_ & _ & _ & H). apply declared_in in K. apply in_map_iff in K.
    destruct K as (x & <- & K). rewrite Forall_forall in H. now apply H.
Qed.
Lemma unknown_le_bit F name b : declared F LeEventFlags_names LeEventFlags name = Some b -> ~ In name known_le_flags ->
  ~ In (b + 1) known_subevents /\ b < 64.
Proof.
  intros K Hn. split.
  - revert K Hn. apply codes_lift. destruct F as [[] []]; vm_compute; reflexivity.
  - destruct le_events_declared as (_ & _ & _ & H). apply declared_in in K. apply in_map_iff in K.
    destruct K as (x & <- & K). rewrite Forall_forall in H. now apply H.
Qed.

(** A bit of a mask made from flags is the bit of a flag. *)
Lemma declared_bit F names d mask b : well_declared names d -> bf_from_bits F d mask = Some mask ->
  N.testbit mask b = true -> exists name, declared F names d name = Some b.
Proof.
  intros (W1 & _ & W3 & _) H K. apply (all_bit F names d b W1 W3).
  unfold bf_from_bits in H. destruct (N.eqb_spec (N.ldiff mask (bf_all F d)) 0) as [e|]; [|discriminate H].
  apply (f_equal (fun x => N.testbit x b)) in e. rewrite N.ldiff_spec, N.bits_0, K in e.
  destruct (N.testbit (bf_all F d) b); [reflexivity|discriminate e].
Qed.

Section Calls.
Context {V : vendor}.
Implicit Type cs : list (command V).
Lemma le_mask_given cs : wanted_le_mask cs = first_bits 5 \/ In (CLeSetEventMask (wanted_le_mask cs)) cs.
Proof.
  unfold wanted_le_mask. induction cs as [|c cs IH] using rev_ind; [left; reflexivity|].
  rewrite latest_snoc. destruct c; try (left; reflexivity);
    try (destruct IH as [IH|IH]; [left; exact IH|right; apply in_or_app; left; exact IH]).
  right. apply in_or_app. right. left. reflexivity.
Qed.

Lemma asked_code F cs x : Forall (from_flags F) cs -> asks_known F cs ->
  N.testbit (wanted_mask cs) (x - 1) = true -> In x known_events.
Proof.
  intros Hf [Ha _] K.
  destruct (mask_given cs) as [E|G].
  - exfalso. specialize (Ha "INQUIRY_COMPLETE"%string). cbn in Ha. rewrite E in Ha.
    assert (X : has_flag (event_constant F "INQUIRY_COMPLETE") (first_bits 45) = true)
      by (destruct F as [[] []]; vm_compute; reflexivity).
    specialize (Ha X). intuition discriminate.
  - rewrite Forall_forall in Hf. specialize (Hf _ G). cbn [from_flags] in Hf.
    destruct (declared_bit F _ _ _ _ events_declared Hf K) as (name & D).
    assert (In name known_flags) as Hn.
    { apply Ha. apply has_flag_bit. now exists (x - 1). }
    destruct (known_bit F name _ Hn D) as [H1 H2]. replace x with (x - 1 + 1) by lia. exact H1.
Qed.
Lemma asked_le_code F cs x : Forall (from_flags F) cs -> asks_known F cs -> 1 <= x ->
  N.testbit (wanted_mask cs) 61 = true -> N.testbit (wanted_le_mask cs) (x - 1) = true -> In x known_subevents.
Proof.
  intros Hf [_ Ha] Hx Km K.
  assert (X : has_flag (event_constant F "LE_META_EVENT") (wanted_mask cs) = true).
  { apply has_flag_bit. exists 61. split; [destruct F as [[] []]; vm_compute; reflexivity|exact Km]. }
  specialize (Ha X).
  destruct (le_mask_given cs) as [E|G].
  - rewrite E in K. unfold first_bits in K. change (2 ^ 5 - 1) with (N.ones 5) in K.
    assert (x - 1 < 5).
    { destruct (N.lt_ge_cases (x - 1) 5) as [L|L]; [exact L|]. rewrite N.ones_spec_high in K by exact L. discriminate K. }
    assert (x = 1 \/ x = 2 \/ x = 3 \/ x = 4 \/ x = 5) as Y by lia.
    destruct Y as [->|[->|[->|[->| ->]]]]; apply member; reflexivity.
  - rewrite Forall_forall in Hf. specialize (Hf _ G). cbn [from_flags] in Hf.
    destruct (declared_bit F _ _ _ _ le_events_declared Hf K) as (name & D).
    assert (In name known_le_flags) as Hn by (apply Ha; apply has_flag_bit; now exists (x - 1)).
    pose proof (known_le_bit F name _ Hn D) as H1. replace x with (x - 1 + 1) by lia. exact H1.
Qed.
Lemma answer_known (c : command V) : answers c <> None -> In (command_opcode c) known_opcodes.
Proof. intros H. destruct c; cbn [answers] in H; try contradiction; apply member; reflexivity. Qed.

(** ** Packets *)
Lemma packet_parts pkt : event_packet pkt -> exists code p, pkt = framed code p /\ bytes pkt.
Proof.
  intros (code & p & -> & H1 & H2 & H3). exists code, p. split; [reflexivity|].
  unfold framed. apply bytes_cons. split; [exact H1|]. apply bytes_cons. split; [|exact H2].
  unfold byte. lia.
Qed.
Lemma not_vendor cs d pkt : may_come d cs pkt -> at_ pkt 0 <> 0xFF -> ~ vendor_packet pkt.
Proof.
  intros (_ & _ & _ & H) Hc [K|(K1 & _ & K2)]; [contradiction|].
  destruct (H K1) as [E|(c & _ & Ha & E)]; rewrite E in K2.
  - discriminate K2.
  - exact (opcode_not_vendor V c K2).
Qed.

Lemma known_come F cs pkt : vendor_total V -> vendor_names_status V -> Forall (from_flags F) cs -> asks_known F cs ->
  may_come (after cs) cs pkt -> at_ pkt 0 <> 0xFF -> ~ unknown (event_new F V pkt).
Proof.
  intros HV HN Hf Ha Hm Hc (x & Hu).
  pose proof (not_vendor _ _ _ Hm Hc) as Hv.
  destruct Hm as (Hp & Hl & Hs & Ho). destruct (packet_parts pkt Hp) as (code & p & -> & HB).
  destruct Hu as [Hu|Hu].
  - destruct (error_blames F V HV HN _ _ HB Hu) as [Hb|[Hb _]]; [|contradiction]. cbn [blames] in Hb.
    unfold lets_through in Hl. rewrite mask_after, le_mask_after in Hl. unfold framed in Hl.
    apply orb_true_iff in Hl. unfold is_event, is_le_event, at_, framed in *. cbn [nth] in *.
    destruct Hb as [[<- Hb]|[[-> Hx] Hb]].
    + destruct Hl as [Hl|Hl].
      * apply Hb. unfold always_sent in Hl. apply existsb_exists in Hl. destruct Hl as (y & Hy & E).
        apply N.eqb_eq in E. subst y. cbn [In] in Hy. decompose [or] Hy; try contradiction; subst code; apply member; reflexivity.
      * apply andb_true_iff in Hl. destruct Hl as [Hl _]. apply Hb. now apply (asked_code F cs).
    + destruct Hl as [Hl|Hl]; [discriminate Hl|]. apply andb_true_iff in Hl. destruct Hl as [Hl1 Hl2].
      rewrite N.eqb_refl in Hl2. destruct p as [|sub rest]; [discriminate Hl2|]. cbn [nth] in *. subst sub.
      apply Hb. apply (asked_le_code F cs); auto.
  - destruct (error_blames F V HV HN _ _ HB Hu) as [Hb|[Hb _]]; [|contradiction]. cbn [blames] in Hb.
    destruct Hb as ([H1 H2] & Hk & _). apply Hk. rewrite <- H2.
    destruct (Ho H1) as [E|(c & _ & Hc' & E)]; rewrite E; [now left|]. now apply answer_known.
Qed.

Lemma code_packet code p : byte code -> bytes p -> (length p <= 255)%nat -> event_packet (framed code p).
Proof. intros H1 H2 H3. now exists code, p. Qed.
Lemma unknown_comes F cs : ~ asks_known F cs ->
  (forall pkt, may_come (after cs) cs pkt -> at_ pkt 0 <> 0xFF -> ~ unknown (event_new F V pkt)) -> False.
Proof.
  intros Hn H. apply Hn. split.
  - intros name Hf. destruct (in_dec String.string_dec name known_flags) as [Hi|Hi]; [exact Hi|exfalso].
    apply has_flag_bit in Hf. destruct Hf as (b & D & Tb).
    destruct (unknown_bit F name b D Hi) as [Hk Hb].
    apply (H (framed (b + 1) [])).
    + split; [apply code_packet; [unfold byte; lia|constructor|cbn; lia]|].
      split; [|split; intros E; unfold at_, framed in E; cbn [nth] in E; exfalso; apply Hk; rewrite E; apply member; reflexivity].
      unfold lets_through, framed. rewrite mask_after. apply orb_true_iff. right.
      rewrite N.add_sub, Tb. destruct (N.eqb_spec (b + 1) 0x3E) as [E|]; [|reflexivity].
      exfalso. apply Hk. rewrite E. apply member; reflexivity.
    + unfold at_, framed. cbn [nth]. lia.
    + exists (b + 1). left. now apply unknown_event.
  - intros Hm name Hf. destruct (in_dec String.string_dec name known_le_flags) as [Hi|Hi]; [exact Hi|exfalso].
    apply has_flag_bit in Hf. destruct Hf as (b & D & Tb).
    destruct (unknown_le_bit F name b D Hi) as [Hk Hb].
    apply has_flag_bit in Hm. destruct Hm as (m & Dm & Tm).
    assert (m = 61) as -> by (destruct F as [[] []]; vm_compute in Dm; injection Dm as <-; reflexivity).
    apply (H (framed 0x3E [b + 1])).
    + split; [apply code_packet; [unfold byte; lia|repeat constructor; unfold byte; lia|cbn; lia]|].
      split; [|split; [intros _; unfold at_, framed; cbn [nth]; lia|intros E; discriminate E]].
      unfold lets_through, framed. rewrite mask_after, le_mask_after. apply orb_true_iff. right.
      change (0x3E - 1) with 61. rewrite Tm, N.eqb_refl, N.add_sub, Tb. reflexivity.
    + discriminate.
    + exists (b + 1). left. now apply unknown_subevent.
Qed.
Lemma asks_known_dec F cs : Forall (from_flags F) cs -> vendor_total V -> vendor_names_status V ->
  (forall pkt, may_come (after cs) cs pkt -> at_ pkt 0 <> 0xFF -> ~ unknown (event_new F V pkt)) -> asks_known F cs.
Proof.
  intros _ _ _ H. split.
  - intros name Hf. destruct (in_dec String.string_dec name known_flags) as [Hi|Hi]; [exact Hi|exfalso].
    apply (unknown_comes F cs); [|exact H]. intros [K _]. now apply Hi, K.
  - intros Hm name Hf. destruct (in_dec String.string_dec name known_le_flags) as [Hi|Hi]; [exact Hi|exfalso].
    apply (unknown_comes F cs); [|exact H]. intros [_ K]. now apply Hi, K.
Qed.
End Calls.

Section Told.
Context (F : features) (V : vendor) {St E : Type} (C : controller St E) (h : history St) (os : list (operation V)) (s : St)
  (d : settings) (cs : list (command V)).
Hypothesis (HV : vendor_total V) (HN : vendor_names_status V).
Hypothesis (HC : contract C h) (Ho : Forall (typed_operation F) os) (Hs : possible h s) (HT : told F V C h os s d cs)
  (Hf : Forall (from_flags F) cs).
Lemma known_told :
  (forall pkt, may_come d cs pkt -> at_ pkt 0 <> 0xFF -> ~ unknown (event_new F V pkt)) <-> asks_known F cs.
Proof.
  destruct (told_after F V C h os s d cs HC Ho Hs HT) as [-> _]. split.
  - now apply asks_known_dec.
  - intros Ha pkt. now apply known_come.
Qed.

(** ** Reads *)
Hypothesis (Ha : asks_known F cs).
Lemma packets_known ps : Forall (fun pkt => may_come d cs pkt /\ at_ pkt 0 <> 0xFF) ps ->
  Forall event_packet ps /\ forall p, In p ps -> ~ unknown (event_new F V p).
Proof.
  intros Hp. split.
  - eapply Forall_impl; [|exact Hp]. intros pkt [(K & _) _]. exact K.
  - intros p Hi. rewrite Forall_forall in Hp. destruct (Hp p Hi) as [K1 K2]. now apply (proj2 known_told Ha).
Qed.
Lemma known_uart_reads os' s0 ps more : Forall (typed_operation F) os' -> possible h s0 ->
  Forall (fun pkt => may_come d cs pkt /\ at_ pkt 0 <> 0xFF) ps ->
  let (s', log) := session F V C os' s0 in
  pending h s0 s' = flat_map uart_frame ps ++ more ->
  consumed h s' = (consumed h s0 + length (flat_map uart_frame ps))%nat ->
  forall o r, In (o, Received r) log -> ~ uart_unknown r.
Proof.
  intros Ho' Hs' Hp. pose proof (session_spec F V C h HC os' s0 Ho' Hs') as S.
  destruct (session F V C os' s0) as [s' log]. intros P N0.
  destruct S as (_ & _ & qs & Hq & (more' & P') & N1 & R).
  destruct (packets_known ps Hp) as [He Hk].
  assert (ps = qs) as <- by (apply (same_uart ps qs more more'); [exact He|exact Hq|congruence|lia]).
  intros o r Hi (e & -> & x & He').
  assert (In (Err (Other (UBLE e))) (received_packets log)) as K.
  { unfold received_packets. apply in_flat_map. exists (o, Received (Err (Other (UBLE e)))). split; [exact Hi|now left]. }
  rewrite R in K. apply in_map_iff in K. destruct K as (p & K1 & K2). apply (Hk p K2). exists x.
  unfold uart_result in K1. destruct (event_new F V p) as [ev|e'|]; try discriminate K1. injection K1 as ->.
  destruct He' as [He'|He']; injection He' as ->; auto.
Qed.
Lemma known_split_reads os' s0 ps more : Forall (typed_operation F) os' -> possible h s0 ->
  Forall (fun pkt => may_come d cs pkt /\ at_ pkt 0 <> 0xFF) ps ->
  let (s', log) := split_session F V C os' s0 in
  pending h s0 s' = concat ps ++ more ->
  consumed h s' = (consumed h s0 + length (concat ps))%nat ->
  forall o r, In (o, SplitReceived r) log -> ~ link_unknown r.
Proof.
  intros Ho' Hs' Hp. pose proof (split_session_spec F V C h HC os' s0 Ho' Hs') as S.
  destruct (split_session F V C os' s0) as [s' log]. intros P N0.
  destruct S as (_ & _ & _ & qs & Hq & (more' & P') & N1 & R).
  destruct (packets_known ps Hp) as [He Hk].
  assert (ps = qs) as <- by (apply (same_link ps qs more more'); [exact He|exact Hq|congruence|lia]).
  intros o r Hi (e & -> & x & He').
  assert (In (Err (Other (LBLE e))) (split_received log)) as K.
  { unfold split_received. apply in_flat_map. exists (o, SplitReceived (Err (Other (LBLE e)))). split; [exact Hi|now left]. }
  rewrite R in K. apply in_map_iff in K. destruct K as (p & K1 & K2). apply (Hk p K2). exists x.
  unfold link_result in K1. destruct (event_new F V p) as [ev|e'|]; try discriminate K1. injection K1 as ->.
  destruct He' as [He'|He']; injection He' as ->; auto.
Qed.
End Told.
