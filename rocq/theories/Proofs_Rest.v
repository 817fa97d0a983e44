(** * Hosts that have said what they want (proofs). *)
From Coq Require Import Lia.
From Verif Require Import Base Model_Types Model_Intervals Model_EventBase Model_Command Model_Event Model_Host
  Spec_Wire Spec_Errors Spec_Report Spec_Host Spec_Link Spec_Split Spec_Conform Spec_Follow Spec_Credit Spec_Facts Spec_Data Spec_Window Spec_Turns
  Spec_Own Spec_Apart Spec_Live Spec_LiveOwn Spec_LiveApart Spec_Device Spec_Air Spec_Scan Spec_Meet Spec_Refuse Spec_Several Spec_Approved Spec_Rest
  Proofs_Base Proofs_Command Proofs_Link Proofs_Split Proofs_Conform Proofs_Follow Proofs_Credit
  Proofs_Facts Proofs_Data Proofs_Window Proofs_Turns Proofs_Own Proofs_Apart Proofs_Live Proofs_LiveOwn Proofs_LiveApart
  Proofs_Several Proofs_Approved Proofs_Learn.
Open Scope list_scope.
Open Scope N_scope.

(** Later events do not change what the host has found. *)
Lemma approved_more {V} (evs more : list (event V)) before cs :
  (forall c, In c cs -> Nat.le (length (filter (fun b => command_opcode b =? command_opcode c) (before ++ cs)))
                               (length (filter (answer_to (command_opcode c)) evs))) ->
  approved (evs ++ more) before cs = approved evs before cs.
Proof.
  revert before. induction cs as [|c cs IH]; intros before H; [reflexivity|]. cbn [approved]. f_equal.
  - specialize (H c (or_introl eq_refl)). rewrite !filter_app, app_length in H. cbn [filter] in H. rewrite N.eqb_refl in H.
    cbn [length] in H. rewrite filter_app, nth_error_app1 by (unfold Nat.le in H; lia). reflexivity.
  - apply IH. intros b I. specialize (H b (or_intror I)). rewrite <- app_assoc. exact H.
Qed.
Lemma commands_taken_app a b : commands_taken (a ++ b) = commands_taken a ++ commands_taken b.
Proof. unfold commands_taken. now rewrite taken_app, filter_app, map_app. Qed.
Lemma no_more_taken a b : Nat.le (length (commands_taken (a ++ b))) (length (commands_taken a)) ->
  commands_taken (a ++ b) = commands_taken a.
Proof.
  rewrite commands_taken_app, app_length. intros H. destruct (commands_taken b) as [|x l]; [now rewrite List.app_nil_r|].
  cbn [length] in H. unfold Nat.le in H. lia.
Qed.

Section Rest.
Context (F : features) (V : vendor).
Lemma at_rest device known : comes_to_rest F V device known ->
  exists m0, by_answers F V (device m0) (known m0) /\ forall m, (m0 <= m)%nat -> device m = device m0 /\ known m = known m0.
Proof.
  intros [St E C h calls states results d accepts n HB run typed start all reads HT Hn Hd Hk
         |St E C h calls states results d accepts n HP run typed start all reads HT Hn Hd Hk].
  - destruct (learns F V C h HB calls states results run typed start d all reads accepts after_reset n HT) as (m0 & L & H).
    pose proof (all (@CReset V)) as A. pose proof (all_connected _ _ _ _ _ A) as con.
    assert (N : forall m, (m0 <= m)%nat -> ordered (until calls results m) = ordered (until calls results n))
      by (intros m Hm; apply (no_more_ordered V calls results n m Hn); lia).
    assert (B : forall m, (m0 <= m)%nat -> Nat.le (length (commands_taken (d m))) (length (ordered (until calls results n)))).
    { intros m Hm. rewrite <- (N m Hm).
      pose proof (ordered_bound F V C h (buffering_contract _ _ HB) (map calls (seq 0 m)) (states 0%nat) (d m)
        (typed_until F V calls typed m) start (device_orderly _ _ _ _ _ A m)) as K.
      rewrite (data_until F V C calls states results run) in K.
      exact (K (commands_on_the_way _ _ _ con m) (events_on_the_way _ _ _ con m)). }
    exists m0. split.
    + apply (by_uart F V _ _ St E C h accepts (map calls (seq 0 m0)) (states 0%nat) (d m0) (states m0) (until calls results m0)).
      all: auto using (buffering_contract C h HB), (typed_until F V calls typed m0).
      * apply (device_orderly _ _ _ _ _ A).
      * apply (all_usual _ _ _ _ _ A).
      * apply (data_until F V C calls states results run).
      * apply (commands_on_the_way _ _ _ con).
      * apply (events_on_the_way _ _ _ con).
      * rewrite (N m0 (Nat.le_refl _)). apply (H m0 (Nat.le_refl _)).
    + intros m Hm. rewrite !Hd, !Hk, (N m Hm), (N m0 (Nat.le_refl _)). destruct (H m0 (Nat.le_refl _)) as (H1 & H2 & _). split.
      * destruct (later_history h states d con m0 m Hm) as [x Hx]. rewrite Hx, no_more_taken; [reflexivity|]. rewrite <- Hx.
        specialize (B m Hm). unfold Nat.le in *. lia.
      * destruct (until_le calls results m0 m Hm) as [l ->]. rewrite events_got_app. apply approved_more. exact H1.
  - destruct (split_learns F V C h HP calls states results run typed start d all reads accepts after_reset n HT) as (m0 & L & H).
    pose proof (all (@CReset V)) as A. pose proof (reply_connected _ _ _ _ _ A) as con.
    assert (N : forall m, (m0 <= m)%nat -> split_sent (until calls results m) = split_sent (until calls results n))
      by (intros m Hm; apply (no_more_sent V calls results n m Hn); lia).
    assert (B : forall m, (m0 <= m)%nat -> Nat.le (length (commands_taken (d m))) (length (split_sent (until calls results n)))).
    { intros m Hm. rewrite <- (N m Hm).
      pose proof (split_bound F V C h (prompt_contract _ _ HP) (map calls (seq 0 m)) (states 0%nat) (d m)
        (split_typed_until F V calls typed m) start (reply_orderly _ _ _ _ _ A m) (links_apart _ _ _ con m)) as K.
      rewrite (split_until F V C calls states results run) in K.
      exact (K (commands_under_way _ _ _ con m) (events_under_way _ _ _ con m)). }
    exists m0. split.
    + apply (by_links F V _ _ St E C h accepts (map calls (seq 0 m0)) (states 0%nat) (d m0) (states m0) (until calls results m0)).
      all: auto using (prompt_contract C h HP), (split_typed_until F V calls typed m0).
      * apply (reply_orderly _ _ _ _ _ A).
      * apply (links_apart _ _ _ con).
      * apply (reply_usual _ _ _ _ _ A).
      * apply (split_until F V C calls states results run).
      * apply (commands_under_way _ _ _ con).
      * apply (events_under_way _ _ _ con).
      * rewrite (N m0 (Nat.le_refl _)). apply (H m0 (Nat.le_refl _)).
    + intros m Hm. rewrite !Hd, !Hk, (N m Hm), (N m0 (Nat.le_refl _)). destruct (H m0 (Nat.le_refl _)) as (H1 & H2 & _). split.
      * destruct (links_later h states d con m0 m Hm) as [x Hx]. rewrite Hx, no_more_taken; [reflexivity|]. rewrite <- Hx.
        specialize (B m Hm). unfold Nat.le in *. lia.
      * destruct (until_le calls results m0 m Hm) as [l ->]. rewrite split_events_read_app. apply approved_more. exact H1.
Qed.
End Rest.

Lemma rest_hears F V device known F' V' device' known' public public' :
  comes_to_rest F V device known -> comes_to_rest F' V' device' known' ->
  exists m0, forall m m', (m0 <= m)%nat -> (m0 <= m')%nat ->
  hears public (device m) public' (device' m') <-> is_to_hear public (known m) public' (known' m').
Proof.
  intros R R'. destruct (at_rest F V _ _ R) as (n & B & S). destruct (at_rest F' V' _ _ R') as (n' & B' & S').
  exists (Nat.max n n'). intros m m' L L'. destruct (S m ltac:(lia)) as [-> ->]. destruct (S' m' ltac:(lia)) as [-> ->].
  exact (approved_hears F V _ _ F' V' _ _ public public' B B').
Qed.
Lemma rest_connect F V device known F' V' device' known' public public' :
  comes_to_rest F V device known -> comes_to_rest F' V' device' known' ->
  exists m0, forall m m', (m0 <= m)%nat -> (m0 <= m')%nat ->
  connect public (device m) public' (device' m') <-> is_to_connect public (known m) public' (known' m').
Proof.
  intros R R'. destruct (at_rest F V _ _ R) as (n & B & S). destruct (at_rest F' V' _ _ R') as (n' & B' & S').
  exists (Nat.max n n'). intros m m' L L'. destruct (S m ltac:(lia)) as [-> ->]. destruct (S' m' ltac:(lia)) as [-> ->].
  exact (approved_connect F V _ _ F' V' _ _ public public' B B').
Qed.

(** ** For the example *)
Lemma orderly_first F a b : orderly F (a ++ b) -> orderly F a.
Proof.
  intros [H1 H2]. split.
  - rewrite taken_app in H1. now apply Forall_app in H1.
  - intros before w after ->. apply (H2 before w (after ++ b)). now rewrite <- app_assoc.
Qed.
Lemma truthful_first accepts a b : truthful accepts (a ++ b) -> truthful accepts a.
Proof.
  intros H before op params after pkt Hc Hr. apply (H before op params (after ++ commands_taken b) pkt).
  - now rewrite commands_taken_app, Hc, <- app_assoc.
  - rewrite sent_by_app, filter_app, nth_error_app1; [exact Hr|]. apply nth_error_Some. congruence.
Qed.
Lemma idle {V E} (calls : nat -> data_operation V) (results : nat -> @data_report V E) k m : (k <= m)%nat ->
  (forall n, (k <= n)%nat -> calls n = Fetch /\ results n = Fetched None) ->
  approved (events_got (until calls results m)) [] (ordered (until calls results m))
  = approved (events_got (until calls results k)) [] (ordered (until calls results k)).
Proof.
  intros L H. enough (Q : events_got (until calls results m) = events_got (until calls results k)
    /\ ordered (until calls results m) = ordered (until calls results k)) by (now rewrite (proj1 Q), (proj2 Q)).
  induction L as [|m L [I1 I2]]; [now split|]. rewrite <- I1, <- I2. unfold until. rewrite seq_S, map_app. cbn [map Nat.add].
  destruct (H m L) as [-> ->]. unfold events_got, got, ordered. rewrite !flat_map_app. cbn [flat_map]. now rewrite !List.app_nil_r.
Qed.
Lemma split_idle {V E} (calls : nat -> operation V) (results : nat -> split_report V E) k m : (k <= m)%nat ->
  (forall n, (k <= n)%nat -> calls n = Receive /\ results n = SplitReceived (Err WouldBlock)) ->
  approved (split_events_read (until calls results m)) [] (split_sent (until calls results m))
  = approved (split_events_read (until calls results k)) [] (split_sent (until calls results k)).
Proof.
  intros L H. enough (Q : split_events_read (until calls results m) = split_events_read (until calls results k)
    /\ split_sent (until calls results m) = split_sent (until calls results k)) by (now rewrite (proj1 Q), (proj2 Q)).
  induction L as [|m L [I1 I2]]; [now split|]. rewrite <- I1, <- I2. unfold until. rewrite seq_S, map_app. cbn [map Nat.add].
  destruct (H m L) as [-> ->]. unfold split_events_read, split_sent. rewrite !flat_map_app. cbn [flat_map]. now rewrite !List.app_nil_r.
Qed.
