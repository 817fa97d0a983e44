(** * A program that sends commands and data, each in its turn (proofs). *)
From Coq Require Import Lia.
From Verif Require Import Base Model_Types Model_Intervals Model_EventBase Model_Command Model_Event Model_Host
  Spec_Wire Spec_Errors Spec_Report Spec_Host Spec_Link Spec_Split Spec_Conform Spec_Follow Spec_Credit Spec_Facts Spec_Data Spec_Window Spec_Turns
  Spec_Own Spec_Device Spec_Refuse Spec_Several Spec_Live Spec_LiveOwn Spec_Example Spec_Rest Spec_Deliver Spec_Granted Spec_Mixed
  Proofs_Base Proofs_Command Proofs_Link Proofs_Split Proofs_Conform Proofs_Follow Proofs_Credit
  Proofs_Facts Proofs_Data Proofs_Window Proofs_Turns Proofs_Own Proofs_Live Proofs_LiveOwn Proofs_Several Proofs_Learn Proofs_Rest Proofs_Granted Proofs_Deliver.
Open Scope list_scope.
Open Scope N_scope.

Section Mixed.
Context (F : features) (V : vendor) {St E : Type} (C : controller St E) (h : history St) (HB : buffering C h).
Context (calls : nat -> data_operation V) (states : nat -> St) (results : nat -> @data_report V E).
Context (run : endless (data_perform F V C) calls states results) (start : possible h (states 0%nat)).
Context (cs : list (command V)) (ws : list (N * list N)).
Context (Hcs : Forall (typed_data_operation F V) (map Order cs)) (Hws : Forall (typed_data_operation F V) (map Transmit ws)).
Context (program : sends_both cs ws calls results) (works : calls_work results).
Context (size number : N) (d : nat -> list device_step) (go : goes_on F h states d) (fr : frees F size number h states d).
Context (Hsize : Forall (fun w => is_data w = true /\ data_size w <= size) ws).
Let con := buffers_connected _ _ _ _ _ _ fr.
Notation log n := (until calls results n).

Lemma order_next n c : calls n = Order c -> command_next cs (log n) c.
Proof. intros H. pose proof (program n) as P. now rewrite H in P. Qed.
Lemma packet_next n w : calls n = Transmit w -> data_next ws (log n) w.
Proof. intros H. pose proof (program n) as P. now rewrite H in P. Qed.
Lemma mixed_typed n : typed_data_operation F V (calls n).
Proof.
  destruct (calls n) as [c|w|] eqn:Q; [| |exact I].
  - apply order_next in Q. destruct Q as [Q _]. apply nth_error_In in Q. exact (proj1 (Forall_forall _ _) Hcs _ (in_map Order _ _ Q)).
  - apply packet_next in Q. destruct Q as [Q _]. apply nth_error_In in Q. exact (proj1 (Forall_forall _ _) Hws _ (in_map Transmit _ _ Q)).
Qed.
Lemma log_length j : length (log j) = j.
Proof. unfold until. now rewrite map_length, seq_length. Qed.
Lemma at_call n before o r after : log n = before ++ (o, r) :: after -> exists k, before = log k /\ calls k = o.
Proof.
  intros H. set (k := length before). exists k.
  assert (K : (S k <= n)%nat).
  { apply (f_equal (@length _)) in H. rewrite log_length, app_length in H. cbn [length] in H. fold k in H. lia. }
  destruct (until_le calls results (S k) n K) as [l Hl]. rewrite until_S in Hl. rewrite Hl, <- app_assoc in H. cbn [app] in H.
  apply app_eq_app in H. pose proof (log_length k) as Lk. destruct H as (u & [(H1 & H2)|(H1 & H2)]).
  - assert (u = []) as ->.
    { apply (f_equal (@length _)) in H1. rewrite Lk, app_length in H1. fold k in H1. destruct u; [reflexivity|cbn in H1; lia]. }
    rewrite List.app_nil_r in H1. cbn [app] in H2. injection H2 as H2 _ _. now split.
  - assert (u = []) as ->.
    { apply (f_equal (@length _)) in H1. rewrite app_length, Lk in H1. fold k in H1. destruct u; [reflexivity|cbn in H1; lia]. }
    rewrite List.app_nil_r in H1. cbn [app] in H2. injection H2 as H2 _ _. now split.
Qed.
Lemma mixed_patient n : patient (log n).
Proof. intros before c r after H. destruct (at_call n before _ r after H) as (k & -> & Q). exact (proj2 (order_next k c Q)). Qed.
Lemma mixed_careful n : careful (log n).
Proof.
  intros before w r after H Hw. destruct (at_call n before _ r after H) as (k & -> & Q).
  destruct (packet_next k w Q) as [I (out & a & b & H1 & H2 & H3)]. exists out, a, b. repeat split; [exact H1|exact H2|exact H3|].
  destruct (told_limits F V C h HB calls states results run mixed_typed start size number d fr k a b H2) as [-> _].
  apply nth_error_In in I. apply (proj1 (Forall_forall _ _) Hsize w I).
Qed.

Lemma both_S n : ordered (log (S n)) = ordered (log n) ++ ordered [(calls n, results n)]
  /\ passed (log (S n)) = passed (log n) ++ passed [(calls n, results n)]
  /\ put_out V (log (S n)) = put_out V (log n) ++ put_out V [(calls n, results n)]
  /\ events_got (log (S n)) = events_got (log n) ++ events_got [(calls n, results n)].
Proof.
  rewrite until_S. split; [apply flat_map_app|]. split; [unfold passed, put_out; now rewrite flat_map_app, filter_app|].
  split; [apply flat_map_app|apply events_got_app].
Qed.
(** One call. *)
Lemma one_call n :
  (exists c r, calls n = Order c /\ results n = Ordered r
     /\ ordered [(calls n, results n)] = (if succeeded r then [c] else []) /\ passed [(calls n, results n)] = [])
  \/ (exists w r, calls n = Transmit w /\ results n = Transmitted r
     /\ ordered [(calls n, results n)] = [] /\ passed [(calls n, results n)] = match r with Ok _ => [w] | _ => [] end)
  \/ (calls n = Fetch /\ ordered [(calls n, results n)] = [] /\ passed [(calls n, results n)] = []).
Proof.
  pose proof (run n) as R. destruct (calls n) as [c|w|] eqn:Q; cbn [data_perform] in R.
  - destruct (run_command _ _ _ _ _ _) as [s r]. injection R as _ <-. left. exists c, r. repeat split.
    + unfold ordered. cbn [flat_map]. apply List.app_nil_r.
    + unfold passed, put_out. cbn [flat_map]. rewrite List.app_nil_r. now destruct (succeeded r).
  - destruct (ctl_write _ _ _ _) as [s r]. injection R as _ <-. right. left. exists w, r. repeat split.
    apply packet_next in Q. destruct Q as [Q _]. apply nth_error_In in Q.
    pose proof (proj1 (proj1 (Forall_forall _ _) Hsize w Q)) as Hw.
    unfold passed, put_out. cbn [flat_map]. rewrite List.app_nil_r. destruct r as [u|e|]; try reflexivity. cbn [filter]. now rewrite Hw.
  - destruct (read_any _ _ _ _) as [s r]. injection R as _ <-. right. right. repeat split.
Qed.
Lemma first_both n : (exists rest, cs = ordered (log n) ++ rest) /\ exists rest, ws = passed (log n) ++ rest.
Proof.
  induction n as [|n [[rest I1] [rest' I2]]]; [split; [now exists cs|now exists ws]|].
  destruct (both_S n) as (-> & -> & _). destruct (one_call n) as [(c & r & Q & _ & -> & ->)|[(w & r & Q & _ & -> & ->)|(_ & -> & ->)]].
  - rewrite List.app_nil_r. split; [|now exists rest']. apply order_next in Q. destruct Q as [Q _].
    rewrite I1, nth_error_app2, Nat.sub_diag in Q by lia. destruct rest as [|c' rest]; [discriminate Q|]. injection Q as ->.
    destruct (succeeded r); [exists rest; now rewrite <- app_assoc|exists (c :: rest); now rewrite List.app_nil_r].
  - rewrite List.app_nil_r. split; [now exists rest|]. apply packet_next in Q. destruct Q as [Q _].
    rewrite I2, nth_error_app2, Nat.sub_diag in Q by lia. destruct rest' as [|c' rest']; [discriminate Q|]. injection Q as ->.
    destruct r; [exists rest'; now rewrite <- app_assoc|exists (w :: rest'); now rewrite List.app_nil_r..].
  - rewrite !List.app_nil_r. split; [now exists rest|now exists rest'].
Qed.
Definition done (n : nat) : nat := (length (ordered (log n)) + length (passed (log n)))%nat.
Lemma bounds n : (length (ordered (log n)) <= length cs)%nat /\ (length (passed (log n)) <= length ws)%nat.
Proof.
  destruct (first_both n) as [[r1 H1] [r2 H2]]. apply (f_equal (@length _)) in H1, H2. rewrite app_length in H1, H2. lia.
Qed.
Lemma done_le n m : (n <= m)%nat -> (length (ordered (log n)) <= length (ordered (log m)))%nat
  /\ (length (passed (log n)) <= length (passed (log m)))%nat.
Proof.
  intros L. destruct (until_le calls results n m L) as [l ->]. unfold ordered, passed, put_out.
  rewrite !flat_map_app, filter_app, !app_length. lia.
Qed.
Lemma one_done n : calls n <> Fetch -> goes_out (results n) = true -> done (S n) = S (done n).
Proof.
  intros N W. unfold done. destruct (both_S n) as (-> & -> & _).
  destruct (one_call n) as [(c & r & Q & R & -> & ->)|[(w & r & Q & R & -> & ->)|(Q & _)]]; [| |now destruct N].
  - rewrite R in W. cbn [goes_out] in W. rewrite W, !app_length. cbn [length]. lia.
  - rewrite R in W. destruct r; [|discriminate W..]. rewrite !app_length. cbn [length]. lia.
Qed.
Lemma mixed_reads : again_and_again (fun n => calls n = Fetch).
Proof.
  assert (P : forall left n, (length cs + length ws - done n <= left)%nat -> exists m, (n <= m)%nat /\ calls m = Fetch).
  { induction left as [|left IH]; intros n Hl; destruct (works n) as (m & L & W); destruct (done_le n m L) as [D1 D2];
      (destruct (calls m) as [c|w|] eqn:Q; [| |exists m; now split]).
    all: assert (N : calls m <> Fetch) by (rewrite Q; discriminate); pose proof (one_done m N W) as O.
    all: pose proof (bounds (S m)) as B; pose proof (bounds m) as B'; unfold done in *.
    - exfalso. lia.
    - exfalso. lia.
    - destruct (IH (S m)) as (k & L' & K); [lia|]. exists k. split; [lia|exact K].
    - destruct (IH (S m)) as (k & L' & K); [lia|]. exists k. split; [lia|exact K]. }
  intros n. exact (P _ n (Nat.le_refl _)).
Qed.
(** A call that fails changes nothing. *)
Lemma nothing n : calls n <> Fetch -> goes_out (results n) = false ->
  ordered (log (S n)) = ordered (log n) /\ passed (log (S n)) = passed (log n)
  /\ put_out V (log (S n)) = put_out V (log n) /\ events_got (log (S n)) = events_got (log n).
Proof.
  intros N W. destruct (both_S n) as (-> & -> & -> & ->).
  destruct (one_call n) as [(c & r & Q & R & -> & ->)|[(w & r & Q & R & -> & ->)|(Q & _)]]; [| |now destruct N]; rewrite Q, R in *.
  - cbn [goes_out] in W. unfold put_out, events_got, got. cbn [flat_map]. rewrite W. now rewrite !List.app_nil_r.
  - destruct r; [discriminate W|..]; unfold put_out, events_got, got; cbn [flat_map]; now rewrite !List.app_nil_r.
Qed.
Definition ready (n : nat) : Prop := (exists c, command_next cs (log n) c) \/ exists w, data_next ws (log n) w.
Lemma ready_calls n : ready n -> calls n <> Fetch.
Proof. intros R Q. pose proof (program n) as P. rewrite Q in P. destruct P as [P1 P2]. destruct R as [[c R]|[w R]]; [exact (P1 c R)|exact (P2 w R)]. Qed.
Lemma ready_stays n : ready n -> goes_out (results n) = false -> ready (S n).
Proof.
  intros R W. destruct (nothing n (ready_calls n R) W) as (E1 & E2 & E3 & E4).
  destruct R as [[c [R1 R2]]|[w [R1 (out & a & b & (ls & O1 & O2) & O3 & O4)]]].
  - left. exists c. unfold command_next, may_send, commands_sent, answers_read, last_number in *. now rewrite E1, E3, E4.
  - right. exists w. unfold data_next. rewrite E2. split; [exact R1|]. exists out, a, b.
    unfold limits, outstanding, data_sent in *. rewrite E3, E4. split; [exists ls; now split|now split].
Qed.
Lemma ready_sends n : ready n -> exists m, (n <= m)%nat /\ (done n < done m)%nat.
Proof.
  intros R. assert (J : forall j, (n <= j)%nat -> (done n < done j)%nat \/ (ready j /\ done j = done n)).
  { induction 1 as [|j Lj [J|[J1 J2]]]; [right; now split|left; destruct (done_le j (S j) ltac:(lia)); unfold done in *; lia|].
    destruct (goes_out (results j)) eqn:W.
    - left. rewrite (one_done j (ready_calls j J1) W). lia.
    - right. split; [exact (ready_stays j J1 W)|]. destruct (nothing j (ready_calls j J1) W) as (E1 & E2 & _). unfold done in *. now rewrite E1, E2. }
  destruct (works n) as (m & L & W). destruct (J m L) as [J'|[J1 J2]]; [now exists m|].
  exists (S m). split; [lia|]. rewrite (one_done m (ready_calls m J1) W). lia.
Qed.

Lemma both_sent : (exists n, limits (log n) <> None) ->
  exists m0, forall m, (m0 <= m)%nat -> ordered (log m) = cs /\ passed (log m) = ws /\ calls m = Fetch
    /\ commands_taken (d m) = map (fun c => (command_opcode c, command_params c)) cs /\ filter is_data (taken (d m)) = ws.
Proof.
  intros Htold.
  pose proof (turn_comes F V C h calls states results d HB run mixed_typed start go mixed_patient mixed_reads) as turn.
  pose proof (buffer_comes_back F V C h HB calls states results run mixed_typed start size number d fr mixed_careful mixed_reads Htold) as room.
  assert (P : forall left n, (length cs + length ws - done n <= left)%nat ->
    exists m, length (ordered (log m)) = length cs /\ length (passed (log m)) = length ws).
  { induction left as [|left IH]; intros n Hl.
    { exists n. pose proof (bounds n). unfold done in *. lia. }
    destruct (Nat.eq_dec (length (ordered (log n))) (length cs)) as [Q1|Q1].
    - destruct (Nat.eq_dec (length (passed (log n))) (length ws)) as [Q2|Q2]; [now exists n|].
      destruct (room n) as (m & L & M). destruct (done_le n m L) as [D1 D2]. pose proof (bounds n) as Bn. pose proof (bounds m) as Bm.
      destruct (Nat.eq_dec (length (passed (log m))) (length ws)) as [Q3|Q3]; [exists m; split; [lia|exact Q3]|].
      destruct (nth_error ws (length (passed (log m)))) as [w|] eqn:Q4; [|apply nth_error_None in Q4; lia].
      destruct (ready_sends m) as (k & Lk & K); [right; exists w; now split|].
      apply (IH k). unfold done in *. lia.
    - destruct (turn n) as (m & L & M). destruct (done_le n m L) as [D1 D2]. pose proof (bounds n) as Bn. pose proof (bounds m) as Bm.
      destruct (Nat.eq_dec (length (ordered (log m))) (length cs)) as [Q3|Q3]; [apply (IH m); unfold done in *; lia|].
      destruct (nth_error cs (length (ordered (log m)))) as [c|] eqn:Q4; [|apply nth_error_None in Q4; lia].
      destruct (ready_sends m) as (k & Lk & K); [left; exists c; now split|].
      apply (IH k). unfold done in *. lia. }
  destruct (P _ 0%nat (Nat.le_refl _)) as (m0 & H1 & H2).
  assert (O : forall m, (m0 <= m)%nat -> ordered (log m) = cs /\ passed (log m) = ws).
  { intros m L. destruct (done_le m0 m L) as [D1 D2]. destruct (first_both m) as [[r1 R1] [r2 R2]].
    assert (r1 = []) as ->.
    { apply (f_equal (@length _)) in R1. rewrite app_length in R1. destruct r1; [reflexivity|cbn in R1; lia]. }
    assert (r2 = []) as ->.
    { apply (f_equal (@length _)) in R2. rewrite app_length in R2. destruct r2; [reflexivity|cbn in R2; lia]. }
    rewrite List.app_nil_r in R1, R2. now split. }
  pose proof (device_honest _ _ _ _ _ _ fr) as Hd.
  assert (D : forall k, Forall outgoing_packet (taken (d k)) /\ Forall incoming_packet (sent_by (d k))).
  { intros k. split; [apply Hd|apply (Proofs_Window.device_packets F size number _ (Hd k))]. }
  destruct (commands_get_there _ _ _ con m0) as (n1 & more1 & L1 & W1).
  pose proof (Proofs_Live.there_by F V C h HB calls states results run mixed_typed start d con is_data m0 n1 more1 L1 D W1) as B1.
  pose proof (Proofs_Live.there_by F V C h HB calls states results run mixed_typed start d con is_command m0 n1 more1 L1 D W1) as B2.
  assert (T : forall m, ordered (log m) = cs -> map (fun c => (command_opcode c, command_params c)) cs
    = map (fun w => (u16_le (snd w) 0, skipn 3 (snd w))) (filter is_command (put_out V (log m)))).
  { intros m Om. pose proof (ordered_taken F V C (map calls (seq 0 m)) (states 0%nat) (typed_until F V calls mixed_typed m)) as O'.
    rewrite (data_until F V C calls states results run) in O'. cbn [snd] in O'. destruct O' as [O' _]. rewrite Om in O'. now symmetry. }
  exists n1. intros m L. destruct (O m ltac:(lia)) as [Om Pm]. split; [exact Om|]. split; [exact Pm|]. split.
  { destruct (calls m) as [c|w|] eqn:Q; [| |reflexivity]; exfalso.
    - apply order_next in Q. destruct Q as [Q _]. rewrite Om, (proj2 (nth_error_None cs _)) in Q by lia. discriminate Q.
    - apply packet_next in Q. destruct Q as [Q _]. rewrite Pm, (proj2 (nth_error_None ws _)) in Q by lia. discriminate Q. }
  destruct (Proofs_Live.streams_at F V C h HB calls states results run mixed_typed start d con m (proj1 (D m)) (proj2 (D m))) as (_ & (more & Q) & _).
  destruct (Proofs_Live.later_history h states d con n1 m L) as [x Hx]. destruct (O m0 (Nat.le_refl _)) as [O0 P0].
  split.
  - pose proof (T m Om) as Tm. pose proof (T m0 O0) as T0. rewrite Q, filter_app, map_app in Tm. fold (commands_taken (d m)) in Tm.
    assert (Le : Nat.le (length cs) (length (commands_taken (d m)))).
    { apply (f_equal (@length _)) in T0. rewrite !map_length in T0. unfold how_many in B2.
      rewrite Hx, commands_taken_app, app_length. unfold commands_taken. rewrite !map_length. unfold Nat.le. lia. }
    destruct (map _ (filter is_command more)) as [|y l]; [rewrite List.app_nil_r in Tm; now symmetry|].
    apply (f_equal (@length _)) in Tm. rewrite app_length, map_length in Tm. cbn [length] in Tm. unfold Nat.le in Le. lia.
  - assert (Le : Nat.le (length ws) (length (filter is_data (taken (d m))))).
    { unfold how_many in B1. fold (passed (log m0)) in B1. rewrite P0 in B1.
      rewrite Hx, taken_app, filter_app, app_length. unfold Nat.le. lia. }
    unfold passed in Pm. rewrite Q, filter_app in Pm.
    destruct (filter is_data more) as [|y l]; [now rewrite List.app_nil_r in Pm|].
    apply (f_equal (@length _)) in Pm. rewrite app_length in Pm. cbn [length] in Pm. unfold Nat.le in Le. lia.
Qed.
Context (all : forall c : command V, replies_to_all F (command_opcode c) h states d).
Lemma both_known accepts x : (forall m, truthful accepts (d m)) -> (exists n, limits (log n) <> None) ->
  exists m0, forall m, (m0 <= m)%nat ->
  all_heard (events_got (log m)) cs /\ approved (events_got (log m)) [] cs = granted accepts [] cs
  /\ decide accepts [] (commands_taken (d m)) x = fold_left asked (granted accepts [] cs) x.
Proof.
  intros HT Htold. destruct (both_sent Htold) as [n Hn].
  destruct (learns F V C h HB calls states results run mixed_typed start d all mixed_reads accepts x n HT) as (m0 & L & H).
  exists m0. intros m Hm. destruct (H m Hm) as (H1 & _ & H3). destruct (Hn n (Nat.le_refl _)) as [On _].
  destruct (Hn m ltac:(lia)) as (_ & _ & _ & T & _). rewrite On in *. split; [exact H1|].
  pose proof (all (@CReset V)) as A. pose proof (all_connected _ _ _ _ _ A) as con'.
  assert (G : approved (events_got (log m)) [] cs = granted accepts [] cs).
  { pose proof (fun c => own_answer F V C h (buffering_contract _ _ HB) (map calls (seq 0 m)) (states 0%nat) (d m) c
      (typed_until F V calls mixed_typed m) start (device_orderly _ _ _ _ _ A m) (all_usual _ _ _ _ _ A m)) as O.
    rewrite (data_until F V C calls states results run) in O.
    apply (approved_granted F V accepts (d m)); [apply (device_orderly _ _ _ _ _ A)|apply HT|exact T|exact H1|].
    intros c k ev Q. destruct (O c (commands_on_the_way _ _ _ con' m) (events_on_the_way _ _ _ con' m)) as [O1 _].
    destruct (O1 k ev Q) as (pkt & _ & N1 & En & _). now exists pkt. }
  split; [exact G|]. rewrite <- G. rewrite firstn_all2 in H3; [exact H3|]. rewrite T, map_length. lia.
Qed.
Lemma both_rest accepts : (forall m, truthful accepts (d m)) -> (exists n, limits (log n) <> None) ->
  comes_to_rest F V (fun m => decide accepts [] (commands_taken (d m)) after_reset)
    (fun m => approved (events_got (log m)) [] (ordered (log m))).
Proof.
  intros HT Htold. destruct (both_sent Htold) as [n Hn].
  apply (rest_uart F V _ _ St E C h calls states results d accepts n HB run mixed_typed start all mixed_reads HT).
  - intros k c L. destruct (Hn k L) as (_ & _ & -> & _). discriminate.
  - reflexivity.
  - reflexivity.
Qed.
End Mixed.

(** ** The example of C131, with the command that asks for the buffers *)
Section One.
Context (V : vendor).
Let states := states_of (data_perform F41 V one_buffer_controller) pass_calls empty_queue.
Let results := results_of (data_perform F41 V one_buffer_controller) pass_calls empty_queue.
Notation log n := (until pass_calls results n).
Lemma pass_first n : exists rest, pass_device 5 = pass_device n ++ rest.
Proof.
  destruct n as [|[|[|[|[|n]]]]]; unfold pass_device; cbn [answered app].
  all: eexists; rewrite <- ?app_assoc; cbn [app]; reflexivity.
Qed.
Lemma pass_fair n : fair F41 (pass_device n).
Proof.
  destruct (pass_first n) as [rest Q]. apply (fair_before F41 _ rest). rewrite <- Q. clear n rest Q.
  pose proof (one_buffer_ok V) as P.
  assert (Q : forall pkt, conforming_packet F41 pkt -> incoming_packet (0x04, pkt)).
  { intros pkt H. left. split; [reflexivity|]. exact (conforming_event_packet F41 pkt H). }
  split; [exact (proj1 (one_buffer_honest V 3))|].
  intros before w after Hd. unfold pass_device in Hd. cbn [answered app] in Hd. rewrite <- ?app_assoc in Hd. cbn [app] in Hd. places.
  all: subst w; split; [apply Q; first [exact (P 0%nat)|exact (P 1%nat)]|]; split; [intros _; first [exact (P 0%nat)|exact (P 1%nat)]|].
  all: vm_compute; (split; [reflexivity || discriminate|discriminate]).
Qed.
Lemma pass_goes_on : goes_on F41 queue_history states pass_device.
Proof.
  split; [exact (pass_connected V)|exact pass_fair|..].
  - intros n. assert (H : Forall (fun w => reserved_address_commands (snd w) = false) (sent_by (pass_device 5))) by (vm_compute; repeat constructor).
    destruct (pass_first n) as [rest Q]. rewrite Q, sent_by_app in H. now apply Forall_app in H.
  - intros n. exists n. split; [lia|]. destruct n as [|[|[|[|[|n]]]]]; vm_compute; discriminate.
  - intros n. exists n. split; [lia|]. right. destruct n as [|[|[|[|[|n]]]]]; vm_compute; reflexivity.
Qed.
Lemma pass_ordered n : (1 <= n)%nat -> ordered (log n) = [CLeReadBufferSize].
Proof.
  induction 1 as [|n L IH]; [vm_compute; reflexivity|]. rewrite until_S. unfold ordered in *. rewrite flat_map_app, IH.
  destruct n as [|[|[|[|[|n]]]]]; [lia|..]; reflexivity.
Qed.
Lemma pass_both : sends_both [CLeReadBufferSize] [one_buffer_packet 1; one_buffer_packet 2] (@pass_calls V) results.
Proof.
  intros n. cbv zeta. pose proof (pass_program V) as P. fold results in P. destruct (@pass_calls V n) as [c|w|] eqn:Q.
  - destruct n as [|[|[|[|[|n]]]]]; try discriminate Q. injection Q as <-. split; [reflexivity|vm_compute; reflexivity].
  - exact (next_packet _ _ _ P n w Q).
  - split.
    + intros c [H _]. destruct n as [|n]; [discriminate Q|]. rewrite pass_ordered in H by lia. discriminate H.
    + intros w [H1 H2]. assert (L : nth_error [one_buffer_packet 1; one_buffer_packet 2] (length (passed (log n))) <> None) by congruence.
      apply nth_error_Some in L. destruct (at_once _ _ _ P n H2 L) as [w' R]. rewrite Q in R. discriminate R.
Qed.
Lemma pass_works : calls_work results.
Proof. intros n. exists (n + 6)%nat. split; [lia|]. unfold results. now rewrite (proj2 (pass_stays V (n + 6) ltac:(lia))). Qed.
Lemma pass_usual n : Forall (fun w => reserved_address_commands (snd w) = false) (sent_by (pass_device n)).
Proof. exact (device_usual _ _ _ _ pass_goes_on n). Qed.
Lemma pass_orderly n : orderly F41 (pass_device n).
Proof.
  destruct (pass_first n) as [rest Q]. apply (orderly_first F41 _ rest). rewrite <- Q. clear n rest Q.
  split; [exact (proj1 (pass_fair 5))|].
  intros before w after Hd. destruct (proj2 (pass_fair 5) before w after Hd) as (P1 & P2 & _). split; [exact P1|]. split; [exact P2|].
  unfold pass_device in Hd. cbn [answered app] in Hd. rewrite <- ?app_assoc in Hd. cbn [app] in Hd. places.
  all: intros op Z H; subst w; apply andb_prop in H; destruct H as [_ H]; apply orb_prop in H; destruct H as [H|H];
    apply andb_prop in H; destruct H as [H1 H2]; try discriminate H1.
  all: apply N.eqb_eq in H2; subst op; vm_compute; reflexivity.
Qed.
Lemma pass_reply op : replies_to_all F41 op queue_history states pass_device.
Proof.
  split; [exact (pass_connected V)|exact pass_orderly|exact pass_usual|].
  intros n. exists (n + 5)%nat. split; [lia|]. rewrite (pass_late (n + 5)) by lia.
  destruct (pass_first n) as [rest Q]. transitivity (how_many (command_with op) (taken (pass_device 5))).
  { rewrite Q, taken_app, how_many_app. lia. }
  destruct (N.eq_dec op 0x2002) as [->|N]; [vm_compute; discriminate|].
  replace (how_many (command_with op) (taken (pass_device 5))) with 0; [lia|].
  apply N.eqb_neq in N. rewrite N.eqb_sym in N. unfold how_many.
  change (taken (pass_device 5)) with [(0x01, [0x02; 0x20; 0]); (0x02, [0x40; 0; 1; 0; 7]); (0x02, [0x40; 0; 1; 0; 7])].
  cbn [filter]. unfold command_with. cbn [fst snd]. change (u16_le [0x02; 0x20; 0] 0) with 0x2002. now rewrite N.
Qed.
Lemma pass_truthful n : truthful (fun _ _ => true) (pass_device n).
Proof.
  destruct (pass_first n) as [rest Q]. apply (truthful_first _ _ rest). rewrite <- Q. clear n rest Q.
  intros before op params after pkt Hc H. replace (commands_taken (pass_device 5)) with [(0x2002, @nil N)] in Hc by (vm_compute; reflexivity).
  destruct before as [|? before]; [|injection Hc as _ Hc; now destruct before].
  injection Hc as <- <- _. vm_compute in H. injection H as <-. split; [reflexivity|]. intros _. vm_compute. reflexivity.
Qed.
End One.
