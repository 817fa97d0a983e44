(** * A program that sends a list of commands, each in its turn (proofs). *)
From Coq Require Import Lia.
From Verif Require Import Base Model_Types Model_Intervals Model_EventBase Model_Command Model_Event Model_Host
  Spec_Wire Spec_Errors Spec_Report Spec_Host Spec_Link Spec_Split Spec_Conform Spec_Follow Spec_Credit Spec_Facts Spec_Data Spec_Window Spec_Turns
  Spec_Own Spec_Apart Spec_Device Spec_Refuse Spec_Several Spec_Live Spec_LiveOwn Spec_LiveApart Spec_Example Spec_Done
  Proofs_Base Proofs_Command Proofs_Link Proofs_Split Proofs_Conform Proofs_Follow Proofs_Credit
  Proofs_Facts Proofs_Data Proofs_Window Proofs_Turns Proofs_Own Proofs_Apart Proofs_Live Proofs_LiveOwn Proofs_LiveApart Proofs_Several Proofs_Learn Proofs_Rest.
Open Scope list_scope.
Open Scope N_scope.

Section Done.
Context (F : features) (V : vendor) {St E : Type} (C : controller St E) (h : history St) (HB : buffering C h).
Context (calls : nat -> data_operation V) (states : nat -> St) (results : nat -> @data_report V E) (cs : list (command V)).
Context (run : endless (data_perform F V C) calls states results) (start : possible h (states 0%nat)).
Context (Hcs : Forall (typed_data_operation F V) (map Order cs)).
Context (program : forall n, calls n = next_call cs (until calls results n)).
Context (writes : writes_go calls results).
Notation log n := (until calls results n).

Lemma program_typed n : typed_data_operation F V (calls n).
Proof.
  rewrite program. unfold next_call. destruct (nth_error cs _) as [c|] eqn:Q; [|exact I]. destruct (_ <? _); [|exact I].
  apply (proj1 (Forall_forall _ _) Hcs). apply in_map. apply nth_error_In in Q. exact Q.
Qed.
Lemma report_of n c : calls n = Order c -> exists r, results n = Ordered r.
Proof.
  intros H. pose proof (run n) as R. rewrite H in R. cbn [data_perform] in R.
  destruct (run_command _ _ _ _ _ _) as [s r]. injection R as _ <-. now exists r.
Qed.
Lemma fetched_of n : calls n = Fetch -> exists a, results n = Fetched a.
Proof.
  intros H. pose proof (run n) as R. rewrite H in R. cbn [data_perform] in R.
  destruct (read_any _ _ _ _) as [s a]. injection R as _ <-. now exists a.
Qed.
Lemma ordered_S n : ordered (log (S n)) = ordered (log n)
  ++ match calls n, results n with Order c, Ordered r => if succeeded r then [c] else [] | _, _ => [] end.
Proof. rewrite until_S. unfold ordered. rewrite flat_map_app. cbn [flat_map]. now rewrite List.app_nil_r. Qed.
Lemma order_is n c : calls n = Order c -> nth_error cs (length (ordered (log n))) = Some c /\ may_send (log n).
Proof.
  rewrite program. unfold next_call. destruct (nth_error cs _) as [c'|]; [|discriminate].
  destruct (_ <? _) eqn:Q; [|discriminate]. intros [= ->]. split; [reflexivity|]. now apply N.ltb_lt.
Qed.
Lemma sends n : may_send (log n) -> (length (ordered (log n)) < length cs)%nat -> exists c, calls n = Order c.
Proof.
  intros M L. rewrite program. unfold next_call. destruct (nth_error cs _) as [c|] eqn:Q; [|apply nth_error_None in Q; lia].
  apply N.ltb_lt in M. rewrite M. now exists c.
Qed.
Lemma first_ones n : exists rest, cs = ordered (log n) ++ rest.
Proof.
  induction n as [|n [rest IH]]; [now exists cs|]. rewrite ordered_S.
  destruct (calls n) as [c|w|] eqn:Q; [|exists rest; now rewrite List.app_nil_r..].
  destruct (report_of n c Q) as [r ->]. destruct (succeeded r); [|exists rest; now rewrite List.app_nil_r].
  apply order_is in Q. destruct Q as [Q _]. rewrite IH, nth_error_app2, Nat.sub_diag in Q by lia.
  destruct rest as [|c' rest]; [discriminate Q|]. injection Q as ->. exists rest. now rewrite <- app_assoc.
Qed.
Lemma at_most n : (length (ordered (log n)) <= length cs)%nat.
Proof. destruct (first_ones n) as [rest H]. apply (f_equal (@length _)) in H. rewrite app_length in H. lia. Qed.
Lemma more_ordered n m : (n <= m)%nat -> (length (ordered (log n)) <= length (ordered (log m)))%nat.
Proof. intros L. destruct (until_le calls results n m L) as [l ->]. unfold ordered. rewrite flat_map_app, app_length. lia. Qed.
Lemma one_more n c r : calls n = Order c -> results n = Ordered r -> succeeded r = true ->
  length (ordered (log (S n))) = S (length (ordered (log n))).
Proof. intros H1 H2 H3. rewrite ordered_S, H1, H2, H3, app_length. cbn. lia. Qed.

Lemma program_patient n : patient (log n).
Proof.
  intros before c r after H. set (k := length before).
  assert (Lk : forall j, length (log j) = j) by (intros j; unfold until; now rewrite map_length, seq_length).
  assert (K : (S k <= n)%nat).
  { apply (f_equal (@length _)) in H. rewrite Lk, app_length in H. cbn [length] in H. fold k in H. lia. }
  destruct (until_le calls results (S k) n K) as [l Hl]. rewrite until_S in Hl. rewrite Hl, <- app_assoc in H. cbn [app] in H.
  assert (B : log k = before /\ (calls k, results k) :: l = (Order c, r) :: after).
  { apply app_eq_app in H. specialize (Lk k). destruct H as (u & [(H1 & H2)|(H1 & H2)]).
    - assert (u = []) as ->.
      { apply (f_equal (@length _)) in H1. rewrite Lk, app_length in H1. fold k in H1. destruct u; [reflexivity|cbn in H1; lia]. }
      rewrite List.app_nil_r in H1. split; [exact H1|]. now symmetry.
    - assert (u = []) as ->.
      { apply (f_equal (@length _)) in H1. rewrite app_length, Lk in H1. fold k in H1. destruct u; [reflexivity|cbn in H1; lia]. }
      rewrite List.app_nil_r in H1. split; [now symmetry|exact H2]. }
  destruct B as [B1 B]. injection B as B _ _. rewrite <- B1. exact (proj2 (order_is k c B)).
Qed.

Lemma program_reads : again_and_again (fun n => calls n = Fetch).
Proof.
  assert (P : forall left n, (length cs - length (ordered (log n)) <= left)%nat -> exists m, (n <= m)%nat /\ calls m = Fetch).
  { induction left as [|left IH]; intros n Hl.
    - exists n. split; [lia|]. rewrite program. unfold next_call.
      rewrite (proj2 (nth_error_None cs _)) by lia. reflexivity.
    - destruct (writes n) as (m & L & W). destruct (calls m) as [c|w|] eqn:Q.
      + destruct (W c eq_refl) as (r & R & S'). pose proof (one_more m c r Q R S') as O. pose proof (more_ordered n m L).
        destruct (IH (S m)) as (k & L' & K); [lia|]. exists k. split; [lia|exact K].
      + exfalso. rewrite program in Q. unfold next_call in Q. destruct (nth_error cs _); [destruct (_ <? _)|]; discriminate Q.
      + exists m. now split. }
  intros n. exact (P _ n (Nat.le_refl _)).
Qed.

Context (d : nat -> list device_step) (go : goes_on F h states d).
Lemma program_sends : exists m0, forall m, (m0 <= m)%nat -> ordered (log m) = cs /\ calls m = Fetch.
Proof.
  pose proof (turn_comes F V C h calls states results d HB run program_typed start go program_patient program_reads) as turn.
  assert (P : forall left n, (length cs - length (ordered (log n)) <= left)%nat ->
    exists m, length (ordered (log m)) = length cs).
  { induction left as [|left IH]; intros n Hl; [exists n; pose proof (at_most n); lia|].
    destruct (turn n) as (m & L & M). pose proof (more_ordered n m L) as Lm.
    destruct (Nat.eq_dec (length (ordered (log m))) (length cs)) as [Q|Q]; [now exists m|]. pose proof (at_most m) as Am.
    assert (J : forall j, (m <= j)%nat -> (length (ordered (log m)) < length (ordered (log j)))%nat
      \/ (may_send (log j) /\ length (ordered (log j)) = length (ordered (log m)))).
    { induction 1 as [|j Lj [J|[J1 J2]]]; [right; now split|left; pose proof (more_ordered j (S j) ltac:(lia)); lia|].
      destruct (sends j J1 ltac:(lia)) as [c Hc]. destruct (report_of j c Hc) as [r Hr]. destruct (succeeded r) eqn:Su.
      - left. pose proof (one_more j c r Hc Hr Su). lia.
      - right. split.
        + unfold may_send, commands_sent, answers_read, last_number in *.
          assert (E1 : put_out V (log (S j)) = put_out V (log j)).
          { rewrite until_S. unfold put_out. rewrite flat_map_app. cbn [flat_map]. rewrite Hc, Hr, Su. now rewrite !List.app_nil_r. }
          assert (E2 : events_got (log (S j)) = events_got (log j)).
          { rewrite until_S, events_got_app. unfold events_got at 2, got. cbn [flat_map]. rewrite Hr. now rewrite !List.app_nil_r. }
          now rewrite E1, E2.
        + rewrite ordered_S, Hc, Hr, Su, List.app_nil_r. exact J2. }
    destruct (writes m) as (k & Lk & W). destruct (J k Lk) as [J'|[J1 J2]]; [apply (IH k); lia|].
    destruct (sends k J1 ltac:(lia)) as [c Hc]. destruct (W c Hc) as (r & R & Su).
    apply (IH (S k)). pose proof (one_more k c r Hc R Su). lia. }
  destruct (P _ 0%nat (Nat.le_refl _)) as [m0 H0]. exists m0. intros m L.
  assert (O : ordered (log m) = cs).
  { destruct (first_ones m) as [rest H]. pose proof (more_ordered m0 m L) as Lm.
    assert (rest = []) as ->.
    { apply (f_equal (@length _)) in H. rewrite app_length in H. destruct rest; [reflexivity|cbn in H; lia]. }
    rewrite List.app_nil_r in H. now symmetry. }
  split; [exact O|]. rewrite program. unfold next_call. rewrite O, (proj2 (nth_error_None cs _)) by lia. reflexivity.
Qed.

Context (all : forall c : command V, replies_to_all F (command_opcode c) h states d).
Lemma program_done accepts x : (forall m, truthful accepts (d m)) ->
  exists m0, forall m, (m0 <= m)%nat ->
  ordered (log m) = cs
  /\ commands_taken (d m) = map (fun c => (command_opcode c, command_params c)) cs
  /\ all_heard (events_got (log m)) cs
  /\ decide accepts [] (commands_taken (d m)) x = fold_left asked (approved (events_got (log m)) [] cs) x.
Proof.
  intros HT. destruct program_sends as [n Hn].
  destruct (learns F V C h HB calls states results run program_typed start d all program_reads accepts x n HT) as (m0 & L & H).
  exists m0. intros m Hm. destruct (H m Hm) as (H1 & H2 & H3). destruct (Hn n (Nat.le_refl _)) as [On _].
  destruct (Hn m ltac:(lia)) as [Om _]. rewrite On in *. split; [exact Om|].
  pose proof (all (@CReset V)) as A. pose proof (all_connected _ _ _ _ _ A) as con.
  pose proof (device_orderly _ _ _ _ _ A m) as Hd. destruct (orderly_packets F _ Hd) as [D1 _].
  assert (T : commands_taken (d m) = map (fun c => (command_opcode c, command_params c)) cs).
  { pose proof (both_streams F V C h (buffering_contract _ _ HB) (map calls (seq 0 m)) (states 0%nat) (d m)
      (typed_until F V calls program_typed m) start (proj1 Hd) D1) as B.
    pose proof (ordered_taken F V C (map calls (seq 0 m)) (states 0%nat) (typed_until F V calls program_typed m)) as O.
    rewrite (data_until F V C calls states results run) in B, O. cbn [snd] in O. destruct O as [O _].
    destruct (B (commands_on_the_way _ _ _ con m) (events_on_the_way _ _ _ con m)) as (_ & (more & P) & _).
    rewrite Om, P, filter_app, map_app in O. fold (commands_taken (d m)) in O.
    destruct (map _ (filter is_command more)) as [|y l]; [now rewrite List.app_nil_r in O|].
    apply (f_equal (@length _)) in O. rewrite app_length, map_length in O. cbn [length] in O. lia. }
  split; [exact T|]. split; [exact H1|]. rewrite firstn_all2 in H3; [exact H3|]. rewrite T, map_length. lia.
Qed.
End Done.

(** ** The same over separate links *)
Section Links.
Context (F : features) (V : vendor) {St E : Type} (C : controller St E) (h : history St) (HP : prompt C h).
Context (calls : nat -> operation V) (states : nat -> St) (results : nat -> split_report V E) (cs : list (command V)).
Context (run : endless (split_perform F V C) calls states results) (start : possible h (states 0%nat)).
Context (Hcs : Forall (typed_operation F) (map Send cs)).
Context (program : forall n, calls n = next_operation cs (until calls results n)).
Context (writes : links_work results).
Notation log n := (until calls results n).

Lemma split_program_typed n : typed_operation F (calls n).
Proof.
  rewrite program. unfold next_operation. destruct (nth_error cs _) as [c|] eqn:Q; [|exact I]. destruct (_ <? _); [|exact I].
  apply (proj1 (Forall_forall _ _) Hcs). apply in_map. apply nth_error_In in Q. exact Q.
Qed.
Lemma split_report_of n c : calls n = Send c -> exists r, results n = SplitSent r.
Proof.
  intros H. pose proof (run n) as R. rewrite H in R. cbn [split_perform] in R.
  destruct (run_command _ _ _ _ _ _) as [s r]. injection R as _ <-. now exists r.
Qed.
Lemma received_of n : calls n = Receive -> exists a, results n = SplitReceived a.
Proof.
  intros H. pose proof (run n) as R. rewrite H in R. cbn [split_perform] in R.
  destruct (link_read _ _ _ _) as [s a]. injection R as _ <-. now exists a.
Qed.
Lemma split_ordered_S n : split_sent (log (S n)) = split_sent (log n)
  ++ match calls n, results n with Send c, SplitSent r => if succeeded r then [c] else [] | _, _ => [] end.
Proof. rewrite until_S. unfold split_sent. rewrite flat_map_app. cbn [flat_map]. now rewrite List.app_nil_r. Qed.
Lemma split_order_is n c : calls n = Send c -> nth_error cs (length (split_sent (log n))) = Some c /\ split_may_send (log n).
Proof.
  rewrite program. unfold next_operation. destruct (nth_error cs _) as [c'|]; [|discriminate].
  destruct (_ <? _) eqn:Q; [|discriminate]. intros [= ->]. split; [reflexivity|]. now apply N.ltb_lt.
Qed.
Lemma split_sends n : split_may_send (log n) -> (length (split_sent (log n)) < length cs)%nat -> exists c, calls n = Send c.
Proof.
  intros M L. rewrite program. unfold next_operation. destruct (nth_error cs _) as [c|] eqn:Q; [|apply nth_error_None in Q; lia].
  apply N.ltb_lt in M. rewrite M. now exists c.
Qed.
Lemma split_first_ones n : exists rest, cs = split_sent (log n) ++ rest.
Proof.
  induction n as [|n [rest IH]]; [now exists cs|]. rewrite split_ordered_S.
  destruct (calls n) as [c|] eqn:Q; [|exists rest; now rewrite List.app_nil_r].
  destruct (split_report_of n c Q) as [r ->]. destruct (succeeded r); [|exists rest; now rewrite List.app_nil_r].
  apply split_order_is in Q. destruct Q as [Q _]. rewrite IH, nth_error_app2, Nat.sub_diag in Q by lia.
  destruct rest as [|c' rest]; [discriminate Q|]. injection Q as ->. exists rest. now rewrite <- app_assoc.
Qed.
Lemma split_at_most n : (length (split_sent (log n)) <= length cs)%nat.
Proof. destruct (split_first_ones n) as [rest H]. apply (f_equal (@length _)) in H. rewrite app_length in H. lia. Qed.
Lemma split_more_ordered n m : (n <= m)%nat -> (length (split_sent (log n)) <= length (split_sent (log m)))%nat.
Proof. intros L. destruct (until_le calls results n m L) as [l ->]. unfold split_sent. rewrite flat_map_app, app_length. lia. Qed.
Lemma split_one_more n c r : calls n = Send c -> results n = SplitSent r -> succeeded r = true ->
  length (split_sent (log (S n))) = S (length (split_sent (log n))).
Proof. intros H1 H2 H3. rewrite split_ordered_S, H1, H2, H3, app_length. cbn. lia. Qed.

Lemma split_program_patient n : split_patient (log n).
Proof.
  intros before c r after H. set (k := length before).
  assert (Lk : forall j, length (log j) = j) by (intros j; unfold until; now rewrite map_length, seq_length).
  assert (K : (S k <= n)%nat).
  { apply (f_equal (@length _)) in H. rewrite Lk, app_length in H. cbn [length] in H. fold k in H. lia. }
  destruct (until_le calls results (S k) n K) as [l Hl]. rewrite until_S in Hl. rewrite Hl, <- app_assoc in H. cbn [app] in H.
  assert (B : log k = before /\ (calls k, results k) :: l = (Send c, r) :: after).
  { apply app_eq_app in H. specialize (Lk k). destruct H as (u & [(H1 & H2)|(H1 & H2)]).
    - assert (u = []) as ->.
      { apply (f_equal (@length _)) in H1. rewrite Lk, app_length in H1. fold k in H1. destruct u; [reflexivity|cbn in H1; lia]. }
      rewrite List.app_nil_r in H1. split; [exact H1|]. now symmetry.
    - assert (u = []) as ->.
      { apply (f_equal (@length _)) in H1. rewrite app_length, Lk in H1. fold k in H1. destruct u; [reflexivity|cbn in H1; lia]. }
      rewrite List.app_nil_r in H1. split; [now symmetry|exact H2]. }
  destruct B as [B1 B]. injection B as B _ _. rewrite <- B1. exact (proj2 (split_order_is k c B)).
Qed.

Lemma split_program_reads : again_and_again (fun n => split_read_went (results n) = true).
Proof.
  assert (P : forall left n, (length cs - length (split_sent (log n)) <= left)%nat -> exists m, (n <= m)%nat /\ split_read_went (results m) = true).
  { induction left as [|left IH]; intros n Hl; destruct (writes n) as (m & L & W); pose proof (split_more_ordered n m L) as Lm;
      destruct (calls m) as [c|] eqn:Q.
    - apply split_order_is in Q. destruct Q as [Q _]. rewrite (proj2 (nth_error_None cs _)) in Q by lia. discriminate Q.
    - destruct (received_of m Q) as [a Ha]. exists m. split; [exact L|]. rewrite Ha in *. exact W.
    - destruct (split_report_of m c Q) as [r R]. rewrite R in W. pose proof (split_one_more m c r Q R W) as O.
      destruct (IH (S m)) as (k & L' & K); [lia|]. exists k. split; [lia|exact K].
    - destruct (received_of m Q) as [a Ha]. exists m. split; [exact L|]. rewrite Ha in *. exact W. }
  intros n. exact (P _ n (Nat.le_refl _)).
Qed.

Context (d : nat -> list device_step) (go : links_go_on F h states d).
Lemma split_program_sends : exists m0, forall m, (m0 <= m)%nat -> split_sent (log m) = cs /\ calls m = Receive.
Proof.
  pose proof (split_turn_connected F V C h HP calls states results run split_program_typed start d (go_on_connected _ _ _ _ go) go
    split_program_patient split_program_reads) as turn.
  assert (P : forall left n, (length cs - length (split_sent (log n)) <= left)%nat ->
    exists m, length (split_sent (log m)) = length cs).
  { induction left as [|left IH]; intros n Hl; [exists n; pose proof (split_at_most n); lia|].
    destruct (turn n) as (m & L & M). pose proof (split_more_ordered n m L) as Lm.
    destruct (Nat.eq_dec (length (split_sent (log m))) (length cs)) as [Q|Q]; [now exists m|]. pose proof (split_at_most m) as Am.
    assert (J : forall j, (m <= j)%nat -> (length (split_sent (log m)) < length (split_sent (log j)))%nat
      \/ (split_may_send (log j) /\ length (split_sent (log j)) = length (split_sent (log m)))).
    { induction 1 as [|j Lj [J|[J1 J2]]]; [right; now split|left; pose proof (split_more_ordered j (S j) ltac:(lia)); lia|].
      destruct (split_sends j J1 ltac:(lia)) as [c Hc]. destruct (split_report_of j c Hc) as [r Hr]. destruct (succeeded r) eqn:Su.
      - left. pose proof (split_one_more j c r Hc Hr Su). lia.
      - right. assert (E1 : split_sent (log (S j)) = split_sent (log j)) by (rewrite split_ordered_S, Hc, Hr, Su; apply List.app_nil_r).
        assert (E2 : split_events_read (log (S j)) = split_events_read (log j)).
        { rewrite until_S, split_events_read_app. unfold split_events_read at 2. cbn [flat_map]. rewrite Hr. now rewrite !List.app_nil_r. }
        unfold split_may_send, split_commands, split_answers, split_number in *. rewrite E1, E2. now split. }
    destruct (writes m) as (k & Lk & W). destruct (J k Lk) as [J'|[J1 J2]]; [apply (IH k); lia|].
    destruct (split_sends k J1 ltac:(lia)) as [c Hc]. destruct (split_report_of k c Hc) as [r R]. rewrite R in W.
    apply (IH (S k)). pose proof (split_one_more k c r Hc R W). lia. }
  destruct (P _ 0%nat (Nat.le_refl _)) as [m0 H0]. exists m0. intros m L.
  assert (O : split_sent (log m) = cs).
  { destruct (split_first_ones m) as [rest H]. pose proof (split_more_ordered m0 m L) as Lm.
    assert (rest = []) as ->.
    { apply (f_equal (@length _)) in H. rewrite app_length in H. destruct rest; [reflexivity|cbn in H; lia]. }
    rewrite List.app_nil_r in H. now symmetry. }
  split; [exact O|]. rewrite program. unfold next_operation. rewrite O, (proj2 (nth_error_None cs _)) by lia. reflexivity.
Qed.

Context (all : forall c : command V, links_reply F (command_opcode c) h states d).
Lemma split_program_done accepts x : (forall m, truthful accepts (d m)) ->
  exists m0, forall m, (m0 <= m)%nat ->
  split_sent (log m) = cs
  /\ commands_taken (d m) = map (fun c => (command_opcode c, command_params c)) cs
  /\ all_heard (split_events_read (log m)) cs
  /\ decide accepts [] (commands_taken (d m)) x = fold_left asked (approved (split_events_read (log m)) [] cs) x.
Proof.
  intros HT. destruct split_program_sends as [n Hn].
  destruct (split_learns F V C h HP calls states results run split_program_typed start d all split_program_reads accepts x n HT) as (m0 & L & H).
  exists m0. intros m Hm. destruct (H m Hm) as (H1 & H2 & H3). destruct (Hn n (Nat.le_refl _)) as [On _].
  destruct (Hn m ltac:(lia)) as [Om _]. rewrite On in *. split; [exact Om|].
  pose proof (all (@CReset V)) as A. pose proof (reply_connected _ _ _ _ _ A) as con.
  pose proof (reply_orderly _ _ _ _ _ A m) as Hd. destruct (orderly_packets F _ Hd) as [D1 _].
  assert (T : commands_taken (d m) = map (fun c => (command_opcode c, command_params c)) cs).
  { pose proof (both_links F V C h (prompt_contract _ _ HP) (map calls (seq 0 m)) (states 0%nat) (d m)
      (split_typed_until F V calls split_program_typed m) start (links_apart _ _ _ con m) (proj1 Hd) D1) as B.
    pose proof (links_commands V (split_sent (log m))) as O. fold (links_out (log m)) in O.
    rewrite (split_until F V C calls states results run) in B.
    destruct (B (commands_under_way _ _ _ con m) (events_under_way _ _ _ con m)) as ((more & P) & _).
    rewrite Om, P, filter_app, map_app in O. fold (commands_taken (d m)) in O.
    destruct (map _ (filter is_command more)) as [|y l]; [now rewrite List.app_nil_r in O|].
    apply (f_equal (@length _)) in O. rewrite app_length, map_length in O. cbn [length] in O. lia. }
  split; [exact T|]. split; [exact H1|]. rewrite firstn_all2 in H3; [exact H3|]. rewrite T, map_length. lia.
Qed.
End Links.

(** ** The example: two Resets *)
Section Two.
Context (V : vendor).
Let states := states_of (data_perform F41 V reset_controller) two_calls empty_queue.
Let results := results_of (data_perform F41 V reset_controller) two_calls empty_queue.
Lemma two_fetch n : (3 <= n)%nat -> @two_calls V n = Fetch.
Proof. intros L. destruct n as [|[|[|n]]]; try lia. reflexivity. Qed.
Lemma two_stays n : (4 <= n)%nat -> states n = states 4%nat /\ results n = Fetched None.
Proof.
  intros L. apply (stays (data_perform F41 V reset_controller) two_calls empty_queue 4 _ Fetch (Fetched None) eq_refl).
  - intros k K. apply two_fetch. lia.
  - reflexivity.
  - exact L.
Qed.
Lemma two_late n : (3 <= n)%nat -> two_device n = two_device 3.
Proof. intros L. destruct n as [|[|[|n]]]; try lia. reflexivity. Qed.
Lemma two_connected : connected queue_history states two_device.
Proof.
  assert (W : forall n, written queue_history (states n) = flat_map wire_bytes (taken (two_device n))
     /\ pending queue_history (states 0%nat) (states n) = flat_map wire_bytes (sent_by (two_device n))).
  { intros n. destruct (Compare_dec.le_lt_dec 4 n) as [L|L].
    - rewrite (proj1 (two_stays n L)), two_late by lia. split; reflexivity.
    - do 4 (destruct n as [|n]; [split; reflexivity|]). lia. }
  split.
  - intros n. destruct n as [|[|[|n]]].
    + now exists (two_device 1).
    + now exists [].
    + exists (two_device 1). reflexivity.
    + exists []. rewrite (two_late (S (S (S (S n))))), (two_late (S (S (S n)))) by lia. now rewrite List.app_nil_r.
  - intros n. exists []. destruct (W n) as [-> _]. now rewrite List.app_nil_r.
  - intros n. exists []. destruct (W n) as [_ ->]. now rewrite List.app_nil_r.
  - intros n. exists n, []. split; [lia|]. destruct (W n) as [-> _]. now rewrite List.app_nil_r.
  - intros n. exists n, []. split; [lia|]. destruct (W n) as [_ ->]. now rewrite List.app_nil_r.
Qed.
Lemma two_usual n : Forall (fun w => reserved_address_commands (snd w) = false) (sent_by (two_device n)).
Proof. destruct n as [|[|[|n]]]; repeat constructor. Qed.
Lemma two_go_on : goes_on F41 queue_history states two_device.
Proof.
  split.
  - exact two_connected.
  - intros k. exact (resets_fair V _).
  - exact two_usual.
  - intros k. exists k. split; [lia|]. unfold two_device.
    match goal with |- context [Spec_Live.answered _ _ ?j] => destruct (resets_count V j) as (E1 & E2 & _) end. rewrite E1, E2. lia.
  - intros k. exists k. split; [lia|]. right. unfold two_device.
    match goal with |- context [Spec_Live.answered _ _ ?j] => destruct (resets_count V j) as (_ & _ & E3) end. rewrite E3. lia.
Qed.
Lemma two_reply op : replies_to_all F41 op queue_history states two_device.
Proof.
  split; [exact two_connected|intros n; exact (resets_orderly _)|exact two_usual|].
  intros n. exists n. split; [lia|]. unfold two_device. rewrite own_resets_count. lia.
Qed.
Lemma two_truthful n : truthful (fun _ _ => true) (two_device n).
Proof.
  intros before op params after pkt _ H. split; [reflexivity|]. intros _. apply nth_error_In in H. apply filter_In in H. destruct H as [H _].
  pose proof (proj1 (Forall_forall _ _) (resets_sent _) _ H) as Q. cbn beta in Q. injection Q as ->. reflexivity.
Qed.
Lemma two_writes : writes_go (@two_calls V) results.
Proof. intros n. exists (n + 3)%nat. split; [lia|]. intros c. rewrite two_fetch by lia. discriminate. Qed.
Lemma two_program n : @two_calls V n = next_call [CReset; CReset] (until two_calls results n).
Proof.
  destruct (Compare_dec.le_lt_dec 4 n) as [L|L].
  - unfold next_call. rewrite (no_more_ordered V two_calls results 4 n); [|intros k c K; rewrite two_fetch by lia; discriminate|exact L].
    rewrite two_fetch by lia. reflexivity.
  - do 4 (destruct n as [|n]; [reflexivity|]). lia.
Qed.
Let link_states := states_of (split_perform F41 V link_reset_controller) two_sends empty_queue.
Let link_results := results_of (split_perform F41 V link_reset_controller) two_sends empty_queue.
Lemma two_receive n : (3 <= n)%nat -> @two_sends V n = Receive.
Proof. intros L. destruct n as [|[|[|n]]]; try lia. reflexivity. Qed.
Lemma two_link_stays n : (4 <= n)%nat -> link_states n = link_states 4%nat /\ link_results n = SplitReceived (Err WouldBlock).
Proof.
  intros L. apply (stays (split_perform F41 V link_reset_controller) two_sends empty_queue 4 _ Receive (SplitReceived (Err WouldBlock)) eq_refl).
  - intros k K. apply two_receive. lia.
  - reflexivity.
  - exact L.
Qed.
Lemma two_link_connected : links_connected queue_history link_states two_device.
Proof.
  assert (W : forall n, written queue_history (link_states n) = flat_map bare_bytes (taken (two_device n))
     /\ pending queue_history (link_states 0%nat) (link_states n) = flat_map bare_bytes (sent_by (two_device n))).
  { intros n. destruct (Compare_dec.le_lt_dec 4 n) as [L|L].
    - rewrite (proj1 (two_link_stays n L)), two_late by lia. split; reflexivity.
    - do 4 (destruct n as [|n]; [split; reflexivity|]). lia. }
  split.
  - intros n. destruct n as [|[|[|n]]]; split; repeat constructor.
  - exact (device_grows _ _ _ two_connected).
  - intros n. exists []. destruct (W n) as [-> _]. now rewrite List.app_nil_r.
  - intros n. exists []. destruct (W n) as [_ ->]. now rewrite List.app_nil_r.
  - intros n. exists n, []. split; [lia|]. destruct (W n) as [-> _]. now rewrite List.app_nil_r.
  - intros n. exists n, []. split; [lia|]. destruct (W n) as [_ ->]. now rewrite List.app_nil_r.
Qed.
Lemma two_link_go_on : links_go_on F41 queue_history link_states two_device.
Proof. destruct two_go_on as [_ R2 R3 R4 R5]. split; try assumption. exact two_link_connected. Qed.
Lemma two_link_reply op : links_reply F41 op queue_history link_states two_device.
Proof. destruct (two_reply op) as [_ R2 R3 R4]. split; try assumption. exact two_link_connected. Qed.
Lemma two_link_work : links_work link_results.
Proof. intros n. exists (n + 4)%nat. split; [lia|]. now rewrite (proj2 (two_link_stays (n + 4) ltac:(lia))). Qed.
Lemma two_link_program n : @two_sends V n = next_operation [CReset; CReset] (until two_sends link_results n).
Proof.
  destruct (Compare_dec.le_lt_dec 4 n) as [L|L].
  - unfold next_operation. rewrite (no_more_sent V two_sends link_results 4 n); [|intros k c K; rewrite two_receive by lia; discriminate|exact L].
    rewrite two_receive by lia. reflexivity.
  - do 4 (destruct n as [|n]; [reflexivity|]). lia.
Qed.
End Two.
