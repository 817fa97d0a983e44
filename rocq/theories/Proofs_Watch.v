(** * The masks needed to follow connections (proofs). *)
From Coq Require Import String.
From Verif Require Import Base Model_Types Model_Bitflags Model_FlagNames Model_Intervals Model_EventBase Model_Command Model_Event
  Model_Host Spec_Wire Spec_Errors Spec_Host Spec_Link Spec_Split Spec_FlagNames Spec_Conform Spec_Device Spec_Air Spec_Enabled
  Spec_Pass Spec_Follow Spec_Watch
  Proofs_Base Proofs_Panic Proofs_FlagNames Proofs_Device Proofs_Air Proofs_Enabled Proofs_Link Proofs_Follow.
Open Scope list_scope.
Open Scope N_scope.

(** ** The bits *)
Definition bits_set (d : settings) : Prop :=
  N.testbit (event_mask d) 2 = true /\ N.testbit (event_mask d) 4 = true /\ N.testbit (event_mask d) 7 = true
  /\ N.testbit (event_mask d) 61 = true /\ N.testbit (le_event_mask d) 0 = true /\ N.testbit (le_event_mask d) 2 = true.
Lemma bits_wanted F {V} (cs : list (command V)) : wants_connections F cs <-> bits_set (after cs).
Proof.
  unfold wants_connections, bits_set, connection_flags, le_connection_flags. rewrite mask_after, le_mask_after.
  rewrite !Forall_cons_iff.
  replace (event_constant F "CONNECTION_COMPLETE") with (Some (N.shiftl 1 2)) by (destruct F as [[] []]; vm_compute; reflexivity).
  replace (event_constant F "DISCONNECTION_COMPLETE") with (Some (N.shiftl 1 4)) by (destruct F as [[] []]; vm_compute; reflexivity).
  replace (event_constant F "ENCRYPTION_CHANGE") with (Some (N.shiftl 1 7)) by (destruct F as [[] []]; vm_compute; reflexivity).
  replace (event_constant F "LE_META_EVENT") with (Some (N.shiftl 1 61)) by (destruct F as [[] []]; vm_compute; reflexivity).
  replace (le_event_constant F "CONNECTION_COMPLETE") with (Some (N.shiftl 1 0)) by (destruct F as [[] []]; vm_compute; reflexivity).
  replace (le_event_constant F "CONNECTION_UPDATE_COMPLETE") with (Some (N.shiftl 1 2)) by (destruct F as [[] []]; vm_compute; reflexivity).
  cbn [has_flag]. rewrite !contains_bit. split.
  - intros ((H1 & H2 & H3 & H4 & _) & H5 & H6 & _). auto 10.
  - intros (H1 & H2 & H3 & H4 & H5 & H6). repeat split; auto.
Qed.

(** ** Enough *)
Lemma told_of d pkt : bits_set d -> about pkt = true -> lets_through d pkt = true.
Proof.
  intros (H1 & H2 & H3 & H4 & H5 & H6) A. unfold about, le_success, at_ in A.
  destruct pkt as [|code rest]; [discriminate A|]. cbn [nth] in A. unfold lets_through.
  apply orb_prop in A. destruct A as [A|A].
  2: { apply andb_prop in A. destruct A as [A _]. apply andb_prop in A. destruct A as [A _].
       apply N.eqb_eq in A. now subst code. }
  assert (K : forall sub, (code =? 0x3E) && (nth 2 (code :: rest) 0 =? sub) && (nth 3 (code :: rest) 0 =? 0) = true ->
              sub <> 0 -> N.testbit (le_event_mask d) (sub - 1) = true ->
              (always_sent code || N.testbit (event_mask d) (code - 1)
               && (if code =? 62 then match rest with _ :: sub :: _ => N.testbit (le_event_mask d) (sub - 1) | _ => false end
                   else true)) = true).
  { intros sub B Hz Hm. apply andb_prop in B. destruct B as [B _]. apply andb_prop in B. destruct B as [B1 B2].
    apply N.eqb_eq in B1, B2. subst code. cbn [nth] in B2.
    destruct rest as [|x [|y rest]]; cbn [nth] in B2; try congruence. subst y.
    change (0x3E - 1) with 61. rewrite H4, Hm. reflexivity. }
  repeat (apply orb_prop in A; destruct A as [A|A]).
  - apply (K 1); [exact A|discriminate|exact H5].
  - apply andb_prop in A. destruct A as [A _]. apply N.eqb_eq in A. subst code. change (3 - 1) with 2. now rewrite H1.
  - apply (K 3); [exact A|discriminate|exact H6].
  - apply andb_prop in A. destruct A as [A _]. apply N.eqb_eq in A. subst code. change (5 - 1) with 4. now rewrite H2.
  - apply andb_prop in A. destruct A as [A _]. apply N.eqb_eq in A. subst code. change (8 - 1) with 7. now rewrite H3.
Qed.
Lemma told_all d : bits_set d -> forall ps cs, fold_left happened (filter (lets_through d) ps) cs = fold_left happened ps cs.
Proof.
  intros H. induction ps as [|p ps IH]; intros cs; [reflexivity|]. cbn [filter fold_left].
  destruct (lets_through d p) eqn:E; [cbn [fold_left]; apply IH|].
  rewrite IH. destruct (about p) eqn:A; [rewrite (told_of d p H A) in E; discriminate E|]. now rewrite not_about.
Qed.

(** ** Needed *)
Lemma status_zero F : field_matches F Status [0].
Proof. exists 0. split; [unfold last_status; destruct (version_5_0 F); lia|reflexivity]. Qed.
Lemma handle_one F : field_matches F Handle [1; 0].
Proof. exists 1. repeat split; lia. Qed.
Ltac next_field b rest := exists b, rest; split; [reflexivity|]; split.
Lemma classic_conforms F : conforming_packet F [0x03; 11; 0; 1; 0; 1; 2; 3; 4; 5; 6; 1; 0].
Proof.
  exists 0x03, [0; 1; 0; 1; 2; 3; 4; 5; 6; 1; 0]. split; [reflexivity|].
  eapply conforming_event; [cbn; left; reflexivity|].
  next_field [0] [1; 0; 1; 2; 3; 4; 5; 6; 1; 0]; [apply status_zero|].
  next_field [1; 0] [1; 2; 3; 4; 5; 6; 1; 0]; [apply handle_one|].
  next_field [1; 2; 3; 4; 5; 6] [1; 0]; [split; [reflexivity|repeat constructor]|].
  next_field [1] [0]; [exists 1; repeat split; lia|].
  next_field [0] (@nil N); [exists 0; repeat split; lia|reflexivity].
Qed.
Lemma disconnection_conforms F : conforming_packet F [0x05; 4; 0; 1; 0; 0].
Proof.
  exists 0x05, [0; 1; 0; 0]. split; [reflexivity|].
  eapply conforming_event; [cbn; right; left; reflexivity|].
  next_field [0] [1; 0; 0]; [apply status_zero|].
  next_field [1; 0] [0]; [apply handle_one|].
  next_field [0] (@nil N); [apply status_zero|reflexivity].
Qed.
Lemma encryption_conforms F : conforming_packet F [0x08; 4; 0; 1; 0; 1].
Proof.
  exists 0x08, [0; 1; 0; 1]. split; [reflexivity|].
  eapply conforming_event; [cbn; right; right; left; reflexivity|].
  next_field [0] [1; 0; 1]; [apply status_zero|].
  next_field [1; 0] [1]; [apply handle_one|].
  next_field [1] (@nil N); [exists 1; repeat split; lia|reflexivity].
Qed.
Lemma connection_conforms F : conforming_packet F [0x3E; 19; 1; 0; 1; 0; 0; 0; 1; 2; 3; 4; 5; 6; 6; 0; 0; 0; 100; 0; 0].
Proof.
  exists 0x3E, ([1; 0] ++ connection_body 1 0 0 6 0 100 0 [1; 2; 3; 4; 5; 6]). split; [reflexivity|].
  apply conforming_connection; try (unfold parameter_ranges, timeout_suffices; lia); [reflexivity|].
  repeat constructor.
Qed.
Lemma update_conforms F : conforming_packet F [0x3E; 10; 3; 0; 1; 0; 6; 0; 0; 0; 100; 0].
Proof.
  exists 0x3E, ([3; 0] ++ update_body 1 6 0 100). split; [reflexivity|].
  apply conforming_update. unfold parameter_ranges, timeout_suffices. lia.
Qed.
Definition some_connection : connection :=
  {| c_handle := 1; c_kind := LowEnergy 0 [0; 1; 2; 3; 4; 5; 6] 7 0 200; c_encrypted := false |}.
Lemma needed F d pkt : watches F d -> conforming_packet F pkt ->
  happened [some_connection] pkt <> [some_connection] -> lets_through d pkt = true.
Proof.
  intros W Hp Hn. specialize (W [pkt] [some_connection] (Forall_cons _ Hp (Forall_nil _))).
  cbn [filter] in W. destruct (lets_through d pkt); [reflexivity|]. cbn [fold_left] in W. congruence.
Qed.
Lemma bits_needed F d : watches F d -> bits_set d.
Proof.
  intros W.
  assert (A := needed F d _ W (classic_conforms F)). assert (B := needed F d _ W (disconnection_conforms F)).
  assert (C := needed F d _ W (encryption_conforms F)). assert (D := needed F d _ W (connection_conforms F)).
  assert (G := needed F d _ W (update_conforms F)).
  specialize (A ltac:(vm_compute; discriminate)). specialize (B ltac:(vm_compute; discriminate)).
  specialize (C ltac:(vm_compute; discriminate)). specialize (D ltac:(vm_compute; discriminate)).
  specialize (G ltac:(vm_compute; discriminate)).
  unfold lets_through in A, B, C, D, G.
  change (always_sent 3) with false in A. change (always_sent 5) with false in B.
  change (always_sent 8) with false in C. change (always_sent 0x3E) with false in D, G.
  cbn [orb] in A, B, C, D, G. apply andb_prop in A, B, C, D, G.
  unfold bits_set. tauto.
Qed.

Section Told.
Context (F : features) (V : vendor) {St E : Type} (C : controller St E) (h : history St) (os : list (operation V)) (s : St)
  (d : settings) (cs : list (command V)).
Hypothesis (HC : contract C h) (Ho : Forall (typed_operation F) os) (Hs : possible h s) (HT : told F V C h os s d cs).
Lemma watched : watches F d <-> wants_connections F cs.
Proof.
  destruct (told_after F V C h os s d cs HC Ho Hs HT) as [-> _]. rewrite bits_wanted. split.
  - apply bits_needed.
  - intros H ps cs' _. now apply told_all.
Qed.
End Told.

Lemma filter_swap {A} (f g : A -> bool) l : filter f (filter g l) = filter g (filter f l).
Proof.
  induction l as [|x l IH]; [reflexivity|]. cbn [filter].
  destruct (g x) eqn:G, (f x) eqn:H; cbn [filter]; rewrite ?G, ?H; now rewrite ?IH.
Qed.
Lemma filter_all {A} (P : A -> Prop) f l : Forall P l -> Forall P (filter f l).
Proof. induction 1 as [|x l Hx _ IH]; [constructor|]. cbn [filter]. destruct (f x); [now constructor|exact IH]. Qed.

Section Follow.
Context (F : features) (V : vendor) {St E : Type} (C : controller St E) (h : history St).
Lemma watched_uart d os s ps more cs ks : watches F d -> contract C h -> Forall (typed_operation F) os -> possible h s ->
  Forall (conforming_packet F) ps -> Forall2 describes cs ks ->
  let (s', log) := session F V C os s in
  pending h s s' = flat_map uart_frame (filter (lets_through d) ps) ++ more ->
  consumed h s' = (consumed h s + length (flat_map uart_frame (filter (lets_through d) ps)))%nat ->
  Forall2 describes (fold_left happened (filter (fun p => negb (hidden p)) ps) cs)
    (fold_left follow (events_read log) ks).
Proof.
  intros W HC Ho Hs Hp A.
  pose proof (followed_uart F V C h os s (filter (lets_through d) ps) more cs ks HC Ho Hs (filter_all _ _ _ Hp) A) as K.
  destruct (session F V C os s) as [s' log]. intros P N0. specialize (K P N0).
  now rewrite filter_swap, W in K by now apply filter_all.
Qed.
Lemma watched_split d os s ps more cs ks : watches F d -> contract C h -> Forall (typed_operation F) os -> possible h s ->
  Forall (conforming_packet F) ps -> Forall2 describes cs ks ->
  let (s', log) := split_session F V C os s in
  pending h s s' = concat (filter (lets_through d) ps) ++ more ->
  consumed h s' = (consumed h s + length (concat (filter (lets_through d) ps)))%nat ->
  Forall2 describes (fold_left happened (filter (fun p => negb (hidden p)) ps) cs)
    (fold_left follow (split_events_read log) ks).
Proof.
  intros W HC Ho Hs Hp A.
  pose proof (followed_split F V C h os s (filter (lets_through d) ps) more cs ks HC Ho Hs (filter_all _ _ _ Hp) A) as K.
  destruct (split_session F V C os s) as [s' log]. intros P N0. specialize (K P N0).
  now rewrite filter_swap, W in K by now apply filter_all.
Qed.
End Follow.

Section Both.
Context (F : features) (V : vendor) {St E : Type} (C : controller St E) (h : history St) (os : list (operation V)) (s : St)
  (d : settings) (cs : list (command V)).
Hypothesis (HC : contract C h) (Ho : Forall (typed_operation F) os) (Hs : possible h s) (HT : told F V C h os s d cs)
  (HW : wants_connections F cs).
Lemma reads_typed n : Forall (typed_operation F) (repeat (@Receive V) n).
Proof. induction n; constructor; [exact I|assumption]. Qed.
Lemma known_uart n s0 ps more open ks : possible h s0 -> Forall (conforming_packet F) ps -> Forall2 describes open ks ->
  let (s', log) := session F V C (repeat Receive n) s0 in
  pending h s0 s' = flat_map uart_frame (filter (lets_through d) ps) ++ more ->
  consumed h s' = (consumed h s0 + length (flat_map uart_frame (filter (lets_through d) ps)))%nat ->
  Forall2 describes (fold_left happened (filter (fun p => negb (hidden p)) ps) open)
    (fold_left follow (events_read log) ks).
Proof.
  intros H0. apply (watched_uart F V C h d (repeat Receive n) s0 ps more open ks); [|exact HC|apply reads_typed|exact H0].
  now apply (watched F V C h os s d cs HC Ho Hs HT).
Qed.
Lemma known_split n s0 ps more open ks : possible h s0 -> Forall (conforming_packet F) ps -> Forall2 describes open ks ->
  let (s', log) := split_session F V C (repeat Receive n) s0 in
  pending h s0 s' = concat (filter (lets_through d) ps) ++ more ->
  consumed h s' = (consumed h s0 + length (concat (filter (lets_through d) ps)))%nat ->
  Forall2 describes (fold_left happened (filter (fun p => negb (hidden p)) ps) open)
    (fold_left follow (split_events_read log) ks).
Proof.
  intros H0. apply (watched_split F V C h d (repeat Receive n) s0 ps more open ks); [|exact HC|apply reads_typed|exact H0].
  now apply (watched F V C h os s d cs HC Ho Hs HT).
Qed.
End Both.
