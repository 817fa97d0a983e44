(** * A program that sends a list of data packets, each in its turn (proofs). *)
From Coq Require Import Lia.
From Verif Require Import Base Model_Types Model_Intervals Model_EventBase Model_Command Model_Event Model_Host
  Spec_Wire Spec_Errors Spec_Report Spec_Host Spec_Link Spec_Split Spec_Conform Spec_Follow Spec_Credit Spec_Facts Spec_Data Spec_Window Spec_Turns
  Spec_Own Spec_Live Spec_LiveOwn Spec_Example Spec_Deliver
  Proofs_Base Proofs_Command Proofs_Link Proofs_Split Proofs_Conform Proofs_Follow Proofs_Credit
  Proofs_Facts Proofs_Data Proofs_Window Proofs_Turns Proofs_Own Proofs_Live.
Open Scope list_scope.
Open Scope N_scope.

Section Pass.
Context (F : features) (V : vendor) {St E : Type} (C : controller St E) (h : history St) (HB : buffering C h).
Context (calls : nat -> data_operation V) (states : nat -> St) (results : nat -> @data_report V E).
Context (run : endless (data_perform F V C) calls states results) (typed : forall n, typed_data_operation F V (calls n)) (start : possible h (states 0%nat)).
Context (size number : N) (d : nat -> list device_step) (go : frees F size number h states d).
Context (ws : list (N * list N)) (Hws : Forall (fun w => is_data w = true /\ data_size w <= size) ws).
Context (program : passes_on ws calls results).
Let con := buffers_connected _ _ _ _ _ _ go.
Notation log n := (until calls results n).

Lemma told_limits m a b : limits (log m) = Some (a, b) -> a = size /\ b = number.
Proof.
  pose proof (device_honest _ _ _ _ _ _ go) as Hd.
  assert (D : Forall outgoing_packet (taken (d m)) /\ Forall incoming_packet (sent_by (d m))).
  { split; [apply Hd|apply (device_packets F size number _ (Hd m))]. }
  destruct (streams_at F V C h HB calls states results run typed start d con m (proj1 D) (proj2 D)) as (_ & _ & xs & later & S4 & Gm).
  assert (Ev : events_got (log m) = flat_map (one F V) (events_in xs)) by (unfold events_got; rewrite Gm; apply events_are).
  destruct (device_packets F size number _ (Hd m)) as (_ & D2 & D3). rewrite S4, events_in_app in D2, D3.
  apply Forall_app in D2. destruct D2 as [D2 _].
  intros El. apply (limits_are size number (log m) a b); [|exact El]. intros x z I.
  rewrite Ev, (facts_steps F V _ D2) in I. apply D3. rewrite flat_map_app. apply in_or_app. now left.
Qed.
Lemma pass_careful n : careful (log n).
Proof.
  intros before w r after H Hw. set (k := length before).
  assert (Lk : forall j, length (log j) = j) by (intros j; unfold until; now rewrite map_length, seq_length).
  assert (K : (S k <= n)%nat).
  { apply (f_equal (@length _)) in H. rewrite Lk, app_length in H. cbn [length] in H. fold k in H. lia. }
  destruct (until_le calls results (S k) n K) as [l Hl]. rewrite until_S in Hl. rewrite Hl, <- app_assoc in H. cbn [app] in H.
  assert (B : log k = before /\ (calls k, results k) :: l = (Transmit w, r) :: after).
  { apply app_eq_app in H. specialize (Lk k). destruct H as (u & [(H1 & H2)|(H1 & H2)]).
    - assert (u = []) as ->.
      { apply (f_equal (@length _)) in H1. rewrite Lk, app_length in H1. fold k in H1. destruct u; [reflexivity|cbn in H1; lia]. }
      rewrite List.app_nil_r in H1. split; [exact H1|]. now symmetry.
    - assert (u = []) as ->.
      { apply (f_equal (@length _)) in H1. rewrite app_length, Lk in H1. fold k in H1. destruct u; [reflexivity|cbn in H1; lia]. }
      rewrite List.app_nil_r in H1. split; [now symmetry|exact H2]. }
  destruct B as [B1 B]. injection B as B _ _. rewrite <- B1. destruct (next_packet _ _ _ program k w B) as [Q (out & a & b & H1 & H2 & H3)].
  exists out, a, b. repeat split; [exact H1|exact H2|exact H3|]. destruct (told_limits k a b H2) as [-> _].
  apply nth_error_In in Q. apply (proj1 (Forall_forall _ _) Hws w Q).
Qed.

Lemma passed_S n : passed (log (S n)) = passed (log n)
  ++ match calls n, results n with Transmit w, Transmitted (Ok _) => [w] | _, _ => [] end.
Proof.
  rewrite until_S. unfold passed, put_out. rewrite flat_map_app, filter_app. f_equal. cbn [flat_map]. rewrite List.app_nil_r.
  destruct (calls n) as [c|w|] eqn:Q.
  - destruct (results n) as [r| |]; try reflexivity. destruct (succeeded r); reflexivity.
  - destruct (next_packet _ _ _ program n w Q) as [I _]. apply nth_error_In in I.
    pose proof (proj1 (proj1 (Forall_forall _ _) Hws w I)) as Hw.
    destruct (results n) as [|[u|e|]|]; try reflexivity. cbn [filter]. now rewrite Hw.
  - now destruct (results n).
Qed.
Lemma first_passed n : exists rest, ws = passed (log n) ++ rest.
Proof.
  induction n as [|n [rest IH]]; [now exists ws|]. rewrite passed_S.
  destruct (calls n) as [c|w|] eqn:Q; [exists rest; now rewrite List.app_nil_r| |exists rest; now rewrite List.app_nil_r].
  destruct (results n) as [|[u|e|]|]; try (exists rest; now rewrite List.app_nil_r).
  apply (next_packet _ _ _ program) in Q. destruct Q as [Q _]. rewrite IH in Q at 1. rewrite nth_error_app2, Nat.sub_diag in Q by lia.
  destruct rest as [|c' rest]; [discriminate Q|]. injection Q as ->. exists rest. now rewrite <- app_assoc.
Qed.
Lemma at_most_passed n : (length (passed (log n)) <= length ws)%nat.
Proof. destruct (first_passed n) as [rest H]. apply (f_equal (@length _)) in H. rewrite app_length in H. lia. Qed.
Lemma more_passed n m : (n <= m)%nat -> (length (passed (log n)) <= length (passed (log m)))%nat.
Proof. intros L. destruct (until_le calls results n m L) as [l ->]. unfold passed, put_out. rewrite flat_map_app, filter_app, app_length. lia. Qed.
Lemma transmitted_of n w : calls n = Transmit w -> exists r, results n = Transmitted r.
Proof.
  intros H. pose proof (run n) as R. rewrite H in R. cbn [data_perform] in R.
  destruct (ctl_write _ _ _ _) as [s r]. injection R as _ <-. now exists r.
Qed.
Lemma one_more_passed n w u : calls n = Transmit w -> results n = Transmitted (Ok u) ->
  length (passed (log (S n))) = S (length (passed (log n))).
Proof. intros H1 H2. rewrite passed_S, H1, H2, app_length. cbn. lia. Qed.

Lemma all_pass : (exists n, limits (log n) <> None) -> data_go calls results ->
  exists m0, forall m, (m0 <= m)%nat -> passed (log m) = ws /\ filter is_data (taken (d m)) = ws.
Proof.
  intros Htold writes.
  pose proof (buffer_comes_back F V C h HB calls states results run typed start size number d go pass_careful (reads_on _ _ _ program) Htold) as turn.
  assert (P : forall left n, (length ws - length (passed (log n)) <= left)%nat ->
    exists m, length (passed (log m)) = length ws).
  { induction left as [|left IH]; intros n Hl; [exists n; pose proof (at_most_passed n); lia|].
    destruct (turn n) as (m & L & M). pose proof (more_passed n m L) as Lm.
    destruct (Nat.eq_dec (length (passed (log m))) (length ws)) as [Q|Q]; [now exists m|]. pose proof (at_most_passed m) as Am.
    assert (J : forall j, (m <= j)%nat -> (length (passed (log m)) < length (passed (log j)))%nat
      \/ (may_transmit (log j) /\ length (passed (log j)) = length (passed (log m)))).
    { induction 1 as [|j Lj [J|[J1 J2]]]; [right; now split|left; pose proof (more_passed j (S j) ltac:(lia)); lia|].
      destruct (at_once _ _ _ program j J1 ltac:(lia)) as [w Hc]. destruct (transmitted_of j w Hc) as [r Hr].
      assert (E2 : events_got (log (S j)) = events_got (log j)).
      { rewrite until_S, events_got_app. unfold events_got at 2, got. cbn [flat_map]. rewrite Hr. now rewrite !List.app_nil_r. }
      destruct r as [u|e|]; [left; pose proof (one_more_passed j w u Hc Hr); lia|right..].
      all: assert (E1 : passed (log (S j)) = passed (log j)) by (rewrite passed_S, Hc, Hr; apply List.app_nil_r).
      all: rewrite E1; split; [|exact J2]; destruct J1 as (out & a & b & (ls & O1 & O2) & O3 & O4); exists out, a, b.
      all: unfold limits, outstanding, data_sent in *; fold (passed (log (S j))); fold (passed (log j)) in O2; rewrite E1, E2.
      all: split; [exists ls; now split|now split]. }
    destruct (writes m) as (k & Lk & W). destruct (J k Lk) as [J'|[J1 J2]]; [apply (IH k); lia|].
    destruct (at_once _ _ _ program k J1 ltac:(lia)) as [w Hc]. destruct (W w Hc) as (u & R).
    apply (IH (S k)). pose proof (one_more_passed k w u Hc R). lia. }
  destruct (P _ 0%nat (Nat.le_refl _)) as [m0 H0].
  assert (O : forall m, (m0 <= m)%nat -> passed (log m) = ws).
  { intros m L. destruct (first_passed m) as [rest H]. pose proof (more_passed m0 m L) as Lm.
    assert (rest = []) as ->.
    { apply (f_equal (@length _)) in H. rewrite app_length in H. destruct rest; [reflexivity|cbn in H; lia]. }
    rewrite List.app_nil_r in H. now symmetry. }
  pose proof (device_honest _ _ _ _ _ _ go) as Hd.
  assert (D : forall k, Forall outgoing_packet (taken (d k)) /\ Forall incoming_packet (sent_by (d k))).
  { intros k. split; [apply Hd|apply (device_packets F size number _ (Hd k))]. }
  destruct (commands_get_there _ _ _ con m0) as (n1 & more1 & L1 & W1).
  pose proof (there_by F V C h HB calls states results run typed start d con is_data m0 n1 more1 L1 D W1) as B1.
  exists n1. intros m L. assert (Om : passed (log m) = ws) by (apply O; lia). split; [exact Om|].
  destruct (streams_at F V C h HB calls states results run typed start d con m (proj1 (D m)) (proj2 (D m))) as (_ & (more & Q) & _).
  unfold passed in Om. rewrite Q, filter_app in Om.
  destruct (later_history h states d con n1 m L) as [x Hx].
  assert (Le : Nat.le (length ws) (length (filter is_data (taken (d m))))).
  { specialize (O m0 (Nat.le_refl _)). unfold how_many in B1. fold (passed (log m0)) in B1. rewrite O in B1.
    rewrite Hx, taken_app, filter_app, app_length. unfold Nat.le. lia. }
  destruct (filter is_data more) as [|y l]; [now rewrite List.app_nil_r in Om|].
  apply (f_equal (@length _)) in Om. rewrite app_length in Om. cbn [length] in Om. unfold Nat.le in Le. lia.
Qed.
End Pass.

(** ** The example: two packets, one buffer *)
Section Two.
Context (V : vendor).
Let states := states_of (data_perform F41 V one_buffer_controller) pass_calls empty_queue.
Let results := results_of (data_perform F41 V one_buffer_controller) pass_calls empty_queue.
Notation log n := (until pass_calls results n).
Lemma pass_fetch n : (5 <= n)%nat -> @pass_calls V n = Fetch.
Proof. intros L. destruct n as [|[|[|[|[|n]]]]]; try lia. reflexivity. Qed.
Lemma pass_stays n : (6 <= n)%nat -> states n = states 6%nat /\ results n = Fetched None.
Proof.
  intros L. apply (stays (data_perform F41 V one_buffer_controller) pass_calls empty_queue 6 _ Fetch (Fetched None) eq_refl).
  - intros k K. apply pass_fetch. lia.
  - reflexivity.
  - exact L.
Qed.
Lemma pass_late n : (5 <= n)%nat -> pass_device n = pass_device 5.
Proof. intros L. destruct n as [|[|[|[|[|n]]]]]; try lia. reflexivity. Qed.
Lemma pass_connected : connected queue_history states pass_device.
Proof.
  assert (W : forall n, written queue_history (states n) = flat_map wire_bytes (taken (pass_device n))
     /\ pending queue_history (states 0%nat) (states n) = flat_map wire_bytes (sent_by (pass_device n))).
  { intros n. destruct (Compare_dec.le_lt_dec 6 n) as [L|L].
    - rewrite (proj1 (pass_stays n L)), pass_late by lia. split; reflexivity.
    - do 6 (destruct n as [|n]; [split; reflexivity|]). lia. }
  split.
  - intros n. destruct n as [|[|[|[|[|n]]]]].
    + now exists (pass_device 1).
    + now exists [].
    + eexists. unfold pass_device. cbn [answered]. reflexivity.
    + now exists [].
    + eexists. unfold pass_device. cbn [answered]. reflexivity.
    + exists []. rewrite (pass_late (S (S (S (S (S (S n))))))), (pass_late (S (S (S (S (S n)))))) by lia. now rewrite List.app_nil_r.
  - intros n. exists []. destruct (W n) as [-> _]. now rewrite List.app_nil_r.
  - intros n. exists []. destruct (W n) as [_ ->]. now rewrite List.app_nil_r.
  - intros n. exists n, []. split; [lia|]. destruct (W n) as [-> _]. now rewrite List.app_nil_r.
  - intros n. exists n, []. split; [lia|]. destruct (W n) as [_ ->]. now rewrite List.app_nil_r.
Qed.
Lemma pass_frees : frees F41 27 1 queue_history states pass_device.
Proof.
  split; [exact pass_connected|intros n; exact (one_buffer_honest V _)|].
  intros n. exists n. split; [lia|]. right. unfold pass_device.
  match goal with |- context [answered _ _ ?j] => pose proof (one_buffer_memory j) as M end. rewrite M. reflexivity.
Qed.
Lemma pass_go : data_go (@pass_calls V) results.
Proof. intros n. exists (n + 5)%nat. split; [lia|]. intros w. rewrite pass_fetch by lia. discriminate. Qed.
Lemma pass_all n : (6 <= n)%nat -> passed (log n) = passed (log 6).
Proof.
  induction 1 as [|n L IH]; [reflexivity|]. rewrite <- IH, until_S. unfold passed, put_out. rewrite flat_map_app, filter_app.
  rewrite (pass_fetch n) by lia. rewrite (proj2 (pass_stays n L)). cbn [flat_map filter app]. apply List.app_nil_r.
Qed.
Lemma pass_program : passes_on [one_buffer_packet 1; one_buffer_packet 2] (@pass_calls V) results.
Proof.
  split.
  - intros n w H. destruct (Compare_dec.le_lt_dec 5 n) as [L|L]; [rewrite pass_fetch in H by exact L; discriminate H|].
    destruct n as [|[|[|[|[|n]]]]]; try discriminate H; try lia; injection H as <-.
    + split; [reflexivity|]. exists [], 27, 1. split; [exists [[]]; split; [vm_compute; repeat constructor|reflexivity]|]. split; reflexivity.
    + split; [reflexivity|]. exists [], 27, 1. split; [|split; reflexivity].
      exists [[]; [Build_completed_packets_pair 0x40 1]]. split; [|reflexivity].
      set (x := log 4). let v := eval vm_compute in x in assert (R : x = v) by (vm_compute; reflexivity). rewrite R.
      cbn [events_got]. repeat constructor. repeat ((apply iterates_end; reflexivity) || (eapply iterates_next; [reflexivity|])).
  - intros n (out & a & b & (ls & H1 & H2) & H3 & H4) Lp. destruct (Compare_dec.le_lt_dec 6 n) as [L|L].
    { exfalso. rewrite (pass_all n L) in Lp. vm_compute in Lp. lia. }
    destruct n as [|[|[|[|[|[|n]]]]]]; try (eexists; reflexivity); try lia; exfalso.
    + discriminate H3.
    + vm_compute in H3. discriminate H3.
    + vm_compute in H3. injection H3 as <- <-. vm_compute in H1. inversion H1 as [|? l ? ls' K1 K2]; subst. inversion K2; subst.
      vm_compute in H4. discriminate H4.
    + vm_compute in Lp. lia.
  - intros n. exists (n + 5)%nat. split; [lia|]. apply pass_fetch. lia.
Qed.
End Two.
