(** * A host that reads on learns what its commands have done (proofs). *)
From Coq Require Import Lia.
From Verif Require Import Base Model_Types Model_Intervals Model_EventBase Model_Command Model_Event Model_Host
  Spec_Wire Spec_Errors Spec_Report Spec_Host Spec_Link Spec_Split Spec_Conform Spec_Follow Spec_Credit Spec_Facts Spec_Data Spec_Window Spec_Turns
  Spec_Own Spec_Apart Spec_Live Spec_LiveOwn Spec_LiveApart Spec_Device Spec_Dialogue Spec_Refuse Spec_Several Spec_Example Spec_Learn
  Proofs_Base Proofs_Command Proofs_Link Proofs_Split Proofs_Conform Proofs_Follow Proofs_Credit
  Proofs_Facts Proofs_Data Proofs_Window Proofs_Turns Proofs_Own Proofs_Apart Proofs_Live Proofs_LiveOwn Proofs_LiveApart
  Proofs_Device Proofs_Calls Proofs_Refuse Proofs_Several.
Open Scope list_scope.
Open Scope N_scope.

(** As each comes true for ever at some time, so do all of them together. *)
Lemma all_some_day {A} (P : A -> nat -> Prop) n l : (forall a k m, (k <= m)%nat -> P a k -> P a m) ->
  (forall a, In a l -> exists m, (n <= m)%nat /\ P a m) -> exists m, (n <= m)%nat /\ forall a, In a l -> P a m.
Proof.
  intros Mono H. induction l as [|a l IH]; [exists n; split; [lia|intros a []]|].
  destruct IH as (m1 & L1 & H1); [intros b I; apply H; now right|]. destruct (H a (or_introl eq_refl)) as (m2 & L2 & H2).
  exists (Nat.max m1 m2). split; [lia|]. intros b [<-|I]; [apply (Mono a m2)|apply (Mono b m1)]; auto; lia.
Qed.

Lemma opcode_count op ws : length (filter (command_with op) ws)
  = length (filter (fun c => fst c =? op) (map (fun w => (u16_le (snd w) 0, skipn 3 (snd w))) (filter is_command ws))).
Proof.
  rewrite with_opcode.
  assert (H : Forall (fun w => is_command w = true) (filter is_command ws)).
  { apply Forall_forall. intros w I. now apply filter_In in I. }
  induction H as [|w l Hw _ IH]; [reflexivity|]. cbn [map filter fst]. unfold command_with at 1.
  unfold is_command in Hw. rewrite Hw. cbn [andb]. destruct (u16_le (snd w) 0 =? op); cbn [length]; now rewrite IH.
Qed.

Section Uart.
Context (F : features) (V : vendor) {St E : Type} (C : controller St E) (h : history St) (HB : buffering C h).
Context (calls : nat -> data_operation V) (states : nat -> St) (results : nat -> @data_report V E).
Context (run : endless (data_perform F V C) calls states results) (typed : forall n, typed_data_operation F V (calls n)) (start : possible h (states 0%nat)).
Context (d : nat -> list device_step) (all : forall c : command V, replies_to_all F (command_opcode c) h states d).
Context (reads : again_and_again (fun n => calls n = Fetch)).
Let HC : contract C h := buffering_contract _ _ HB.

Lemma ordered_count n (c : command V) :
  length (filter (fun b => command_opcode b =? command_opcode c) (ordered (until calls results n)))
  = length (filter (command_with (command_opcode c)) (put_out V (until calls results n))).
Proof.
  pose proof (ordered_taken F V C (map calls (seq 0 n)) (states 0%nat) (typed_until F V calls typed n)) as O.
  rewrite (data_until F V C calls states results run) in O. cbn [snd] in O. destruct O as [O _].
  rewrite <- same_count, <- O. symmetry. apply opcode_count.
Qed.
Lemma all_heard_some_day n : exists m0, (n <= m0)%nat /\ forall m, (m0 <= m)%nat ->
  all_heard (events_got (until calls results m)) (ordered (until calls results n)).
Proof.
  destruct (all_some_day (fun c m =>
      Nat.le (length (filter (fun b => command_opcode b =? command_opcode c) (ordered (until calls results n))))
             (length (filter (answer_to (command_opcode c)) (events_got (until calls results m)))))
    n (ordered (until calls results n))) as (m0 & L & H).
  - intros c k m Hk H. destruct (until_le calls results k m Hk) as [l ->]. rewrite events_got_app, filter_app, app_length. unfold Nat.le in *. lia.
  - intros c _. destruct (enough_answers F V C h HB calls states results run typed start d c (all c) reads n) as (m & L & H).
    exists m. split; [exact L|]. rewrite ordered_count. exact H.
  - exists m0. split; [exact L|]. intros m Hm c I. specialize (H c I). destruct (until_le calls results m0 m Hm) as [l ->].
    rewrite events_got_app, filter_app, app_length. unfold Nat.le in *. lia.
Qed.
Lemma learns accepts x n : (forall m, truthful accepts (d m)) ->
  exists m0, (n <= m0)%nat /\ forall m, (m0 <= m)%nat ->
  all_heard (events_got (until calls results m)) (ordered (until calls results n))
  /\ (length (ordered (until calls results n)) <= length (commands_taken (d m)))%nat
  /\ decide accepts [] (firstn (length (ordered (until calls results n))) (commands_taken (d m))) x
     = fold_left asked (approved (events_got (until calls results m)) [] (ordered (until calls results n))) x.
Proof.
  intros HT. destruct (all_heard_some_day n) as (m0 & L & H). exists m0. split; [exact L|]. intros m Hm. specialize (H m Hm).
  split; [exact H|]. pose proof (all (@CReset V)) as A.
  pose proof (several_known F V C h HC accepts (map calls (seq 0 m)) (states 0%nat) (d m) x
    (typed_until F V calls typed m) start (device_orderly _ _ _ _ _ A m) (all_usual _ _ _ _ _ A m) (HT m)) as K.
  rewrite (data_until F V C calls states results run) in K.
  pose proof (all_connected _ _ _ _ _ A) as con.
  destruct (until_le calls results n m ltac:(lia)) as [l Hl].
  apply (K (commands_on_the_way _ _ _ con m) (events_on_the_way _ _ _ con m) _ (ordered l)); [|exact H].
  rewrite Hl. unfold ordered. apply flat_map_app.
Qed.
Lemma no_more_ordered n m : (forall k c, (n <= k)%nat -> calls k <> Order c) -> (n <= m)%nat ->
  ordered (until calls results m) = ordered (until calls results n).
Proof.
  intros Hn L. induction L as [|m L IH]; [reflexivity|]. unfold until in *. rewrite seq_S, map_app. cbn [map Nat.add].
  unfold ordered in *. rewrite flat_map_app, IH. cbn [flat_map]. specialize (Hn m).
  destruct (calls m) as [c|w|]; [now destruct (Hn c L)|now rewrite ?List.app_nil_r..].
Qed.
Lemma settles accepts x n : (forall m, truthful accepts (d m)) -> (forall k c, (n <= k)%nat -> calls k <> Order c) ->
  exists m0, (n <= m0)%nat /\ forall m, (m0 <= m)%nat ->
  all_heard (events_got (until calls results m)) (ordered (until calls results m))
  /\ decide accepts [] (commands_taken (d m)) x
     = fold_left asked (approved (events_got (until calls results m)) [] (ordered (until calls results m))) x.
Proof.
  intros HT Hn. destruct (learns accepts x n HT) as (m0 & L & H). exists m0. split; [exact L|]. intros m Hm.
  destruct (H m Hm) as (H1 & _ & H2). rewrite (no_more_ordered n m Hn ltac:(lia)). split; [exact H1|].
  rewrite firstn_all2 in H2; [exact H2|]. rewrite <- (no_more_ordered n m Hn ltac:(lia)).
  pose proof (all (@CReset V)) as A. pose proof (all_connected _ _ _ _ _ A) as con.
  pose proof (ordered_bound F V C h HC (map calls (seq 0 m)) (states 0%nat) (d m)
    (typed_until F V calls typed m) start (device_orderly _ _ _ _ _ A m)) as K.
  rewrite (data_until F V C calls states results run) in K.
  exact (K (commands_on_the_way _ _ _ con m) (events_on_the_way _ _ _ con m)).
Qed.
End Uart.

Section Links.
Context (F : features) (V : vendor) {St E : Type} (C : controller St E) (h : history St) (HP : prompt C h).
Context (calls : nat -> operation V) (states : nat -> St) (results : nat -> split_report V E).
Context (run : endless (split_perform F V C) calls states results) (typed : forall n, typed_operation F (calls n)) (start : possible h (states 0%nat)).
Context (d : nat -> list device_step) (all : forall c : command V, links_reply F (command_opcode c) h states d).
Context (reads : again_and_again (fun n => split_read_went (results n) = true)).
Let HC : contract C h := prompt_contract _ _ HP.
Let con : links_connected h states d := reply_connected _ _ _ _ _ (all (@CReset V)).

Lemma split_sent_count n (c : command V) :
  length (filter (fun b => command_opcode b =? command_opcode c) (split_sent (until calls results n)))
  = length (filter (command_with (command_opcode c)) (links_out (until calls results n))).
Proof.
  pose proof (links_commands V (split_sent (until calls results n))) as O. fold (links_out (until calls results n)) in O.
  rewrite <- same_count, <- O. symmetry. apply opcode_count.
Qed.
Lemma split_events_read_app (a b : list (operation V * split_report V E)) :
  split_events_read (a ++ b) = split_events_read a ++ split_events_read b.
Proof. unfold split_events_read. now rewrite ?flat_map_app. Qed.
Lemma split_heard_some_day n : exists m0, (n <= m0)%nat /\ forall m, (m0 <= m)%nat ->
  all_heard (split_events_read (until calls results m)) (split_sent (until calls results n)).
Proof.
  destruct (all_some_day (fun c m =>
      Nat.le (length (filter (fun b => command_opcode b =? command_opcode c) (split_sent (until calls results n))))
             (length (filter (answer_to (command_opcode c)) (split_events_read (until calls results m)))))
    n (split_sent (until calls results n))) as (m0 & L & H).
  - intros c k m Hk H. destruct (until_le calls results k m Hk) as [l ->]. rewrite split_events_read_app, filter_app, app_length. unfold Nat.le in *. lia.
  - intros c _. destruct (split_enough_answers F V C h HP calls states results run typed start d con c (all c) n reads) as (m & L & H).
    exists m. split; [exact L|]. rewrite split_sent_count. exact H.
  - exists m0. split; [exact L|]. intros m Hm c I. specialize (H c I). destruct (until_le calls results m0 m Hm) as [l ->].
    rewrite split_events_read_app, filter_app, app_length. unfold Nat.le in *. lia.
Qed.
Lemma split_learns accepts x n : (forall m, truthful accepts (d m)) ->
  exists m0, (n <= m0)%nat /\ forall m, (m0 <= m)%nat ->
  all_heard (split_events_read (until calls results m)) (split_sent (until calls results n))
  /\ (length (split_sent (until calls results n)) <= length (commands_taken (d m)))%nat
  /\ decide accepts [] (firstn (length (split_sent (until calls results n))) (commands_taken (d m))) x
     = fold_left asked (approved (split_events_read (until calls results m)) [] (split_sent (until calls results n))) x.
Proof.
  intros HT. destruct (split_heard_some_day n) as (m0 & L & H). exists m0. split; [exact L|]. intros m Hm. specialize (H m Hm).
  split; [exact H|]. pose proof (all (@CReset V)) as A.
  pose proof (split_known F V C h HC accepts (map calls (seq 0 m)) (states 0%nat) (d m) x
    (split_typed_until F V calls typed m) start (reply_orderly _ _ _ _ _ A m) (links_apart _ _ _ con m) (reply_usual _ _ _ _ _ A m) (HT m)) as K.
  rewrite (split_until F V C calls states results run) in K.
  destruct (until_le calls results n m ltac:(lia)) as [l Hl].
  apply (K (commands_under_way _ _ _ con m) (events_under_way _ _ _ con m) _ (split_sent l)); [|exact H].
  rewrite Hl. unfold split_sent. apply flat_map_app.
Qed.
Lemma no_more_sent n m : (forall k c, (n <= k)%nat -> calls k <> Send c) -> (n <= m)%nat ->
  split_sent (until calls results m) = split_sent (until calls results n).
Proof.
  intros Hn L. induction L as [|m L IH]; [reflexivity|]. unfold until in *. rewrite seq_S, map_app. cbn [map Nat.add].
  unfold split_sent in *. rewrite flat_map_app, IH. cbn [flat_map]. specialize (Hn m).
  destruct (calls m) as [c|]; [now destruct (Hn c L)|now rewrite ?List.app_nil_r].
Qed.
Lemma split_settles accepts x n : (forall m, truthful accepts (d m)) -> (forall k c, (n <= k)%nat -> calls k <> Send c) ->
  exists m0, (n <= m0)%nat /\ forall m, (m0 <= m)%nat ->
  all_heard (split_events_read (until calls results m)) (split_sent (until calls results m))
  /\ decide accepts [] (commands_taken (d m)) x
     = fold_left asked (approved (split_events_read (until calls results m)) [] (split_sent (until calls results m))) x.
Proof.
  intros HT Hn. destruct (split_learns accepts x n HT) as (m0 & L & H). exists m0. split; [exact L|]. intros m Hm.
  destruct (H m Hm) as (H1 & _ & H2). rewrite (no_more_sent n m Hn ltac:(lia)). split; [exact H1|].
  rewrite firstn_all2 in H2; [exact H2|]. rewrite <- (no_more_sent n m Hn ltac:(lia)).
  pose proof (all (@CReset V)) as A.
  pose proof (split_bound F V C h HC (map calls (seq 0 m)) (states 0%nat) (d m)
    (split_typed_until F V calls typed m) start (reply_orderly _ _ _ _ _ A m) (links_apart _ _ _ con m)) as K.
  rewrite (split_until F V C calls states results run) in K.
  exact (K (commands_under_way _ _ _ con m) (events_under_way _ _ _ con m)).
Qed.
End Links.

(** ** The example: Reset and its answer, for ever *)
Section Resets.
Context (V : vendor).
Lemma resets_all op : replies_to_all F41 op queue_history
  (states_of (data_perform F41 V reset_controller) reset_calls empty_queue) reset_device.
Proof.
  destruct (resets_answered V) as [R1 R2 R3 _]. split; [exact R1|exact R2|exact R3|].
  intros n. exists n. split; [lia|]. unfold reset_device. pose proof (own_resets_count op (Nat.div2 (S n))) as J. lia.
Qed.
Lemma link_resets_all op : links_reply F41 op queue_history
  (states_of (split_perform F41 V link_reset_controller) link_resets empty_queue) reset_device.
Proof.
  destruct (link_resets_reply V) as [R1 R2 R3 _]. split; [exact R1|exact R2|exact R3|].
  intros n. exists n. split; [lia|]. unfold reset_device. pose proof (own_resets_count op (Nat.div2 (S n))) as J. lia.
Qed.
Lemma resets_sent k : Forall (fun w => w = (0x04, reset_answer)) (sent_by (Spec_Live.answered (fun _ => reset_packet) (fun _ => reset_answer) k)).
Proof.
  induction k as [|k IH]; [constructor|]. destruct (answered_S (fun _ => reset_packet) (fun _ => reset_answer) k) as [E2 _].
  rewrite E2. apply Forall_app. split; [exact IH|]. constructor; [reflexivity|constructor].
Qed.
Lemma resets_truthful n : truthful (fun _ _ => true) (reset_device n).
Proof.
  intros before op params after pkt _ H. split; [reflexivity|]. intros _. apply nth_error_In in H. apply filter_In in H. destruct H as [H _].
  pose proof (proj1 (Forall_forall _ _) (resets_sent _) _ H) as Q. cbn beta in Q. injection Q as ->. reflexivity.
Qed.
End Resets.

(** ** The example: one Reset *)
Section OneReset.
Context (V : vendor).
Lemma one_is n : one_device n = Spec_Live.answered (fun _ => reset_packet) (fun _ => reset_answer) (Nat.min n 1).
Proof. destruct n as [|[|n]]; reflexivity. Qed.
Lemma one_grows : grows one_device.
Proof. intros [|n]; [now exists [Takes reset_packet; Sends (0x04, reset_answer)]|exists []; now rewrite List.app_nil_r]. Qed.
Lemma one_usual n : Forall (fun w => reserved_address_commands (snd w) = false) (sent_by (one_device n)).
Proof. destruct n as [|n]; repeat constructor. Qed.
Lemma one_truthful n : truthful (fun _ _ => true) (one_device n).
Proof.
  intros before op params after pkt _ H. split; [reflexivity|]. intros _. apply nth_error_In in H. apply filter_In in H. destruct H as [H _].
  rewrite one_is in H. pose proof (proj1 (Forall_forall _ _) (resets_sent _) _ H) as Q. cbn beta in Q. injection Q as ->. reflexivity.
Qed.
Let states := states_of (data_perform F41 V reset_controller) (@one_call V) empty_queue.
Lemma one_states n : (2 <= n)%nat -> states n = states 2%nat.
Proof.
  intros L. unfold states.
  exact (proj1 (stays (data_perform F41 V reset_controller) (@one_call V) empty_queue 2 _ Fetch (Fetched None) eq_refl
    ltac:(intros [|k] K; [lia|reflexivity]) eq_refl n L)).
Qed.
Lemma one_all op : replies_to_all F41 op queue_history states one_device.
Proof.
  assert (W : forall n, (1 <= n)%nat -> written queue_history (states n) = flat_map wire_bytes (taken (one_device 1))
     /\ pending queue_history (states 0%nat) (states n) = flat_map wire_bytes (sent_by (one_device 1))).
  { intros [|[|n]] L; [lia|split; reflexivity|]. rewrite one_states by lia. split; reflexivity. }
  assert (D : forall n, (1 <= n)%nat -> one_device n = one_device 1) by (intros [|n] L; [lia|reflexivity]).
  split; [split|..].
  - exact one_grows.
  - intros [|n]; [now exists []|]. exists []. destruct (W (S n) ltac:(lia)) as [-> _]. now rewrite List.app_nil_r.
  - intros [|n]; [now exists []|]. exists []. destruct (W (S n) ltac:(lia)) as [_ ->]. now rewrite List.app_nil_r.
  - intros [|n].
    + exists 1%nat, (flat_map wire_bytes (taken (one_device 1))). split; [lia|reflexivity].
    + exists (S n), []. split; [lia|]. destruct (W (S n) ltac:(lia)) as [-> _]. now rewrite List.app_nil_r.
  - intros [|n].
    + exists 1%nat, (flat_map wire_bytes (sent_by (one_device 1))). split; [lia|reflexivity].
    + exists (S n), []. split; [lia|]. destruct (W (S n) ltac:(lia)) as [_ ->]. now rewrite List.app_nil_r.
  - intros n. rewrite one_is. apply resets_orderly.
  - exact one_usual.
  - intros n. exists n. split; [lia|]. rewrite one_is. pose proof (own_resets_count op (Nat.min n 1)) as J. lia.
Qed.
Let split_states := states_of (split_perform F41 V link_reset_controller) (@one_send V) empty_queue.
Lemma one_split_states n : (2 <= n)%nat -> split_states n = split_states 2%nat
  /\ results_of (split_perform F41 V link_reset_controller) (@one_send V) empty_queue n = SplitReceived (Err WouldBlock).
Proof.
  intros L. unfold split_states.
  exact (stays (split_perform F41 V link_reset_controller) (@one_send V) empty_queue 2 _ Receive (SplitReceived (Err WouldBlock)) eq_refl
    ltac:(intros [|k] K; [lia|reflexivity]) eq_refl n L).
Qed.
Lemma one_split_all op : links_reply F41 op queue_history split_states one_device.
Proof.
  assert (W : forall n, (1 <= n)%nat -> written queue_history (split_states n) = flat_map bare_bytes (taken (one_device 1))
     /\ pending queue_history (split_states 0%nat) (split_states n) = flat_map bare_bytes (sent_by (one_device 1))).
  { intros [|[|n]] L; [lia|split; reflexivity|]. rewrite (proj1 (one_split_states (S (S n)) ltac:(lia))). split; reflexivity. }
  split; [split|..].
  - intros [|n]; split; repeat constructor.
  - exact one_grows.
  - intros [|n]; [now exists []|]. exists []. destruct (W (S n) ltac:(lia)) as [-> _]. now rewrite List.app_nil_r.
  - intros [|n]; [now exists []|]. exists []. destruct (W (S n) ltac:(lia)) as [_ ->]. now rewrite List.app_nil_r.
  - intros [|n].
    + exists 1%nat, (flat_map bare_bytes (taken (one_device 1))). split; [lia|reflexivity].
    + exists (S n), []. split; [lia|]. destruct (W (S n) ltac:(lia)) as [-> _]. now rewrite List.app_nil_r.
  - intros [|n].
    + exists 1%nat, (flat_map bare_bytes (sent_by (one_device 1))). split; [lia|reflexivity].
    + exists (S n), []. split; [lia|]. destruct (W (S n) ltac:(lia)) as [_ ->]. now rewrite List.app_nil_r.
  - intros n. rewrite one_is. apply resets_orderly.
  - exact one_usual.
  - intros n. exists n. split; [lia|]. rewrite one_is. pose proof (own_resets_count op (Nat.min n 1)) as J. lia.
Qed.
Lemma one_split_reads : again_and_again (fun n => split_read_went
  (results_of (split_perform F41 V link_reset_controller) (@one_send V) empty_queue n) = true).
Proof.
  intros n. exists (n + 2)%nat. split; [lia|]. now rewrite (proj2 (one_split_states (n + 2) ltac:(lia))).
Qed.
End OneReset.
