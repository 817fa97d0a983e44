(** * What is asked of a controller (proofs). *)
From Verif Require Import Base Model_Types Model_EventBase Model_Command Model_Event Model_Host
  Spec_Wire Spec_Errors Spec_Host Spec_Link Spec_Split Spec_Retry Spec_Demand
  Proofs_Base Proofs_Flags Proofs_Calls Proofs_Link Proofs_Queue Proofs_Retry.
Open Scope list_scope.
Open Scope N_scope.

Lemma slice_zeros {G} k n : (n <= k)%nat -> @slice G (zeros k) 0 n = Ok (zeros n).
Proof.
  intros H. unfold slice. rewrite zeros_length. replace (_ && _)%bool with true
    by (symmetry; apply andb_true_intro; split; apply Nat.leb_le; lia).
  cbn [skipn]. rewrite Nat.sub_0_r. f_equal. unfold zeros. revert k H.
  induction n as [|n IH]; intros k H; [reflexivity|]. destruct k as [|k]; [lia|]. cbn. f_equal. apply IH. lia.
Qed.
Lemma zeros_zero n : forallb (N.eqb 0) (zeros n) = true.
Proof. induction n as [|n IH]; [reflexivity|exact IH]. Qed.

Section Modest.
Context (F : features) (V : vendor) {St E : Type} (C : controller St E).
Hypothesis HS : shows_bytes C.

Lemma byte_nat b : byte b -> (N.to_nat b <= 255)%nat.
Proof. unfold byte. lia. Qed.

Lemma uart_read_modest s : uart_read F V (modest [0; 2]%nat 3 258 4 32 C) s = uart_read F V C s.
Proof.
  unfold uart_read, abind, amap_err. cbn [ctl_peek modest existsb Nat.eqb orb].
  destruct (ctl_peek C s 0) as [s1 [t|e|]]; cbn [map_err]; try reflexivity.
  destruct (t =? 4); [|reflexivity]. unfold uart_read_event, abind, amap_err.
  cbn [ctl_peek modest existsb Nat.eqb orb].
  destruct (ctl_peek C s1 2) as [s2 [n|e|]] eqn:Ep; cbn [map_err]; try reflexivity.
  apply HS, byte_nat in Ep. unfold read_into_prefix, abind, pure.
  rewrite slice_zeros by lia. cbn [ctl_read_into modest].
  rewrite zeros_length, zeros_zero. replace (Nat.leb 3 (3 + N.to_nat n)) with true by (symmetry; apply Nat.leb_le; lia).
  replace (Nat.leb (3 + N.to_nat n) 258) with true by (symmetry; apply Nat.leb_le; lia). reflexivity.
Qed.
Lemma link_read_modest s : link_read F V (modest [1]%nat 2 257 3 32 C) s = link_read F V C s.
Proof.
  unfold link_read, abind, amap_err. cbn [ctl_peek modest existsb Nat.eqb orb].
  destruct (ctl_peek C s 1) as [s2 [n|e|]] eqn:Ep; cbn [map_err]; try reflexivity.
  apply HS, byte_nat in Ep. unfold read_into_prefix, abind, pure.
  rewrite slice_zeros by lia. cbn [ctl_read_into modest].
  rewrite zeros_length, zeros_zero. replace (Nat.leb 2 (2 + N.to_nat n)) with true by (symmetry; apply Nat.leb_le; lia).
  replace (Nat.leb (2 + N.to_nat n) 257) with true by (symmetry; apply Nat.leb_le; lia). reflexivity.
Qed.
Lemma command_modest H enc indices least most k c s : In (H, enc) header_formats ->
  (forall op n, length (enc op n) = k) -> arguments_typed F c ->
  run_command F V H (modest indices least most k 32 C) c s = run_command F V H C c s.
Proof.
  intros HH HK HA. destruct (@rejection V E c) as [e|] eqn:HR.
  - now rewrite !(call_rejected F V H enc _ HH c s e HA HR).
  - rewrite !(call_written F V H enc _ HH c s HA HR). cbn [ctl_write modest].
    rewrite HK, Nat.eqb_refl. destruct (params_ok F V c HA HR) as [L _].
    now replace (Nat.leb _ 32) with true by (symmetry; now apply Nat.leb_le).
Qed.
Lemma session_modest os s : Forall (typed_operation F) os ->
  session F V (modest [0; 2]%nat 3 258 4 32 C) os s = session F V C os s.
Proof.
  intros H. revert s. induction H as [|o os Ho _ IH]; intros s; [reflexivity|]. cbn [session].
  replace (perform F V (modest [0; 2]%nat 3 258 4 32 C) o s) with (perform F V C o s).
  - destruct (perform F V C o s) as [s1 r]. now rewrite IH.
  - destruct o as [c|]; cbn [perform].
    + rewrite (command_modest uart_header uart_header_bytes);
        [reflexivity|left; reflexivity|reflexivity|exact Ho].
    + now rewrite uart_read_modest.
Qed.
Lemma split_session_modest os s : Forall (typed_operation F) os ->
  split_session F V (modest [1]%nat 2 257 3 32 C) os s = split_session F V C os s.
Proof.
  intros H. revert s. induction H as [|o os Ho _ IH]; intros s; [reflexivity|]. cbn [split_session].
  replace (split_perform F V (modest [1]%nat 2 257 3 32 C) o s) with (split_perform F V C o s).
  - destruct (split_perform F V C o s) as [s1 r]. now rewrite IH.
  - destruct o as [c|]; cbn [split_perform].
    + rewrite (command_modest cmd_link_header cmd_link_header_bytes);
        [reflexivity|right; left; reflexivity|reflexivity|exact Ho].
    + now rewrite link_read_modest.
Qed.
End Modest.

Section Counting.
Context (F : features) (V : vendor) {St E : Type} (C : controller St E).

(** The same, with up to [k] calls. *)
Definition costs {A} (k : nat) (r : St * A) (n : nat) (r' : (St * nat) * A) : Prop :=
  fst (fst r') = fst r /\ snd r' = snd r /\ (snd (fst r') <= n + k)%nat.

Lemma read_into_counted buf k st n : costs 1 (read_into_prefix C buf k st) n (read_into_prefix (counting C) buf k (st, n)).
Proof.
  unfold read_into_prefix, abind, pure. destruct (slice buf 0 k) as [b|e|]; [|split; [reflexivity|split; [reflexivity|cbn; lia]]..].
  cbn [ctl_read_into counting fst snd]. destruct (ctl_read_into C st b) as [s1 [d|e|]];
    (split; [reflexivity|split; [reflexivity|cbn; lia]]).
Qed.
Lemma uart_read_counted s n : costs 3 (uart_read F V C s) n (uart_read F V (counting C) (s, n)).
Proof.
  unfold uart_read, uart_read_event, abind, amap_err, pure. cbn [ctl_peek counting fst snd].
  destruct (ctl_peek C s 0) as [s1 [t|e|]]; cbn [map_err];
    try (split; [reflexivity|split; [reflexivity|cbn; lia]]).
  destruct (t =? 4); [|split; [reflexivity|split; [reflexivity|cbn; lia]]].
  cbn [ctl_peek counting fst snd].
  destruct (ctl_peek C s1 2) as [s2 [l|e|]]; cbn [map_err];
    try (split; [reflexivity|split; [reflexivity|cbn; lia]]).
  pose proof (read_into_counted (zeros (255 + 3)) (3 + N.to_nat l) s2 (S (S n))) as K. cbv zeta.
  destruct (read_into_prefix C _ _ s2) as [s3 r].
  destruct (read_into_prefix (counting C) _ _ (s2, S (S n))) as [[s3' n'] r'].
  destruct K as (K1 & K2 & K3). cbn in K1, K2, K3. subst s3' r'.
  destruct r as [buf|e|]; cbn [map_err]; try (split; [reflexivity|split; [reflexivity|cbn; lia]]).
  destruct (slice buf 1 _) as [p|e|]; try (split; [reflexivity|split; [reflexivity|cbn; lia]]).
  all: destruct (event_new F V p); (split; [reflexivity|split; [reflexivity|cbn; lia]]).
Qed.
Lemma link_read_counted s n : costs 2 (link_read F V C s) n (link_read F V (counting C) (s, n)).
Proof.
  unfold link_read, abind, amap_err, pure. cbn [ctl_peek counting fst snd].
  destruct (ctl_peek C s 1) as [s2 [l|e|]]; cbn [map_err];
    try (split; [reflexivity|split; [reflexivity|cbn; lia]]).
  pose proof (read_into_counted (zeros (255 + 2)) (2 + N.to_nat l) s2 (S n)) as K. cbv zeta.
  destruct (read_into_prefix C _ _ s2) as [s3 r].
  destruct (read_into_prefix (counting C) _ _ (s2, S n)) as [[s3' n'] r'].
  destruct K as (K1 & K2 & K3). cbn in K1, K2, K3. subst s3' r'.
  destruct r as [buf|e|]; cbn [map_err]; try (split; [reflexivity|split; [reflexivity|cbn; lia]]).
  destruct (slice buf 0 _) as [p|e|]; try (split; [reflexivity|split; [reflexivity|cbn; lia]]).
  all: destruct (event_new F V p); (split; [reflexivity|split; [reflexivity|cbn; lia]]).
Qed.
Lemma command_counted H enc c s n : In (H, enc) header_formats -> arguments_typed F c ->
  costs 1 (run_command F V H C c s) n (run_command F V H (counting C) c (s, n)).
Proof.
  intros HH HA. destruct (@rejection V E c) as [e|] eqn:HR.
  - rewrite !(call_rejected F V H enc _ HH c _ e HA HR). split; [reflexivity|split; [reflexivity|cbn; lia]].
  - rewrite !(call_written F V H enc _ HH c _ HA HR). cbn [ctl_write counting fst snd].
    destruct (ctl_write C s _ _) as [s1 r]. split; [reflexivity|split; [reflexivity|cbn; lia]].
Qed.
Lemma session_counted os : Forall (typed_operation F) os -> forall s n,
  costs (sends_count os + 3 * receives_count os) (session F V C os s) n (session F V (counting C) os (s, n)).
Proof.
  induction 1 as [|o os Ho _ IH]; intros s n; [split; [reflexivity|split; [reflexivity|cbn; lia]]|]. cbn [session].
  assert (K : costs (if sends o then 1 else 3) (perform F V C o s) n (perform F V (counting C) o (s, n))).
  { destruct o as [c|]; cbn [perform sends].
    - pose proof (command_counted uart_header uart_header_bytes c s n ltac:(left; reflexivity) Ho) as K.
      destruct (run_command F V uart_header C c s), (run_command F V uart_header (counting C) c (s, n)).
      destruct K as (K1 & K2 & K3). cbn in K2. subst. split; [exact K1|split; [reflexivity|exact K3]].
    - pose proof (uart_read_counted s n) as K. destruct (uart_read F V C s), (uart_read F V (counting C) (s, n)).
      destruct K as (K1 & K2 & K3). cbn in K2. subst. split; [exact K1|split; [reflexivity|exact K3]]. }
  destruct (perform F V C o s) as [s1 r]. destruct (perform F V (counting C) o (s, n)) as [[s1' n1] r'].
  destruct K as (K1 & K2 & K3). cbn [fst snd] in K1, K2, K3. subst s1' r'. specialize (IH s1 n1).
  destruct (session F V C os s1) as [s2 rs]. destruct (session F V (counting C) os (s1, n1)) as [[s2' n2] rs'].
  destruct IH as (I1 & I2 & I3). cbn [fst snd] in I1, I2, I3. subst s2' rs'.
  split; [reflexivity|]. split; [reflexivity|]. cbn [fst snd]. unfold sends_count, receives_count in *. cbn [filter].
  destruct (sends o); cbn [negb length]; lia.
Qed.
Lemma split_session_counted os : Forall (typed_operation F) os -> forall s n,
  costs (sends_count os + 2 * receives_count os) (split_session F V C os s) n (split_session F V (counting C) os (s, n)).
Proof.
  induction 1 as [|o os Ho _ IH]; intros s n; [split; [reflexivity|split; [reflexivity|cbn; lia]]|]. cbn [split_session].
  assert (K : costs (if sends o then 1 else 2) (split_perform F V C o s) n (split_perform F V (counting C) o (s, n))).
  { destruct o as [c|]; cbn [split_perform sends].
    - pose proof (command_counted cmd_link_header cmd_link_header_bytes c s n ltac:(right; left; reflexivity) Ho) as K.
      destruct (run_command F V cmd_link_header C c s), (run_command F V cmd_link_header (counting C) c (s, n)).
      destruct K as (K1 & K2 & K3). cbn in K2. subst. split; [exact K1|split; [reflexivity|exact K3]].
    - pose proof (link_read_counted s n) as K. destruct (link_read F V C s), (link_read F V (counting C) (s, n)).
      destruct K as (K1 & K2 & K3). cbn in K2. subst. split; [exact K1|split; [reflexivity|exact K3]]. }
  destruct (split_perform F V C o s) as [s1 r]. destruct (split_perform F V (counting C) o (s, n)) as [[s1' n1] r'].
  destruct K as (K1 & K2 & K3). cbn [fst snd] in K1, K2, K3. subst s1' r'. specialize (IH s1 n1).
  destruct (split_session F V C os s1) as [s2 rs]. destruct (split_session F V (counting C) os (s1, n1)) as [[s2' n2] rs'].
  destruct IH as (I1 & I2 & I3). cbn [fst snd] in I1, I2, I3. subst s2' rs'.
  split; [reflexivity|]. split; [reflexivity|]. cbn [fst snd]. unfold sends_count, receives_count in *. cbn [filter].
  destruct (sends o); cbn [negb length]; lia.
Qed.
End Counting.

(** ** The controller with little memory *)
Definition tank_history (capacity : nat) : history tank :=
  {| possible := fun s => bytes (t_received s) /\ (t_consumed s <= length (t_received s))%nat
                          /\ bytes (t_waiting s) /\ (t_kept s <= capacity)%nat;
     received := t_received; consumed := t_consumed; written := fun _ => [] |}.

Section Tank.
Context (k : nat).
Notation h := (tank_history k).
Notation T := (tank_controller k).

Lemma bytes_parts n l : bytes l -> bytes (firstn n l) /\ bytes (skipn n l).
Proof. intros H. rewrite <- (firstn_skipn n l) in H. now apply bytes_app in H. Qed.
Lemma fill_spec s : possible h s ->
  possible h (t_fill k s) /\ arrives h s (t_fill k s) /\ t_consumed (t_fill k s) = t_consumed s.
Proof.
  intros (H1 & H2 & H3 & H4). unfold t_fill. cbv zeta.
  destruct (bytes_parts (Nat.min (t_supply s 0) (k - t_kept s)) _ H3) as [B1 B2].
  pose proof (firstn_le_length (Nat.min (t_supply s 0) (k - t_kept s)) (t_waiting s)) as L.
  repeat split; cbn.
  - apply bytes_app; auto.
  - rewrite app_length. lia.
  - exact B2.
  - unfold t_kept in *. cbn. rewrite app_length. lia.
  - now eexists.
Qed.
Lemma tank_buffering : buffering T h.
Proof.
  split; [split|..].
  - now intros s (H & _).
  - now intros s (_ & H & _).
  - intros s n Hs. destruct (fill_spec s Hs) as (A & B & D). cbn [ctl_peek tank_controller].
    split; [exact A|]. split; [exact B|]. split; [exact D|]. split; [reflexivity|].
    unfold t_pending, pending. cbn [consumed received tank_history]. rewrite D. now destruct (nth_error _ _).
  - intros s buf Hs. destruct (fill_spec s Hs) as (A & B & D). cbn [ctl_read_into tank_controller].
    destruct (Nat.leb_spec (length buf) (length (t_pending (t_fill k s)))) as [HL|HL].
    + assert (HL' : (length buf <= length (t_received (t_fill k s)) - t_consumed s)%nat)
        by (unfold t_pending in HL; now rewrite D, skipn_length in HL).
      split; [|split; [exact B|split; [reflexivity|]]].
      * destruct A as (A1 & A2 & A3 & A4). unfold t_kept in A4. rewrite D in A2, A4.
        assert (X1 : (t_consumed (t_take (length buf) (t_fill k s)) = t_consumed s + length buf)%nat)
          by (cbn; reflexivity).
        assert (X2 : t_received (t_take (length buf) (t_fill k s)) = t_received (t_fill k s)) by reflexivity.
        split; [exact A1|]. split; [rewrite X1, X2; lia|]. split; [exact A3|].
        unfold t_kept. rewrite X1, X2. lia.
      * unfold pending. cbn [consumed received tank_history].
        change (t_received (t_take (length buf) (t_fill k s))) with (t_received (t_fill k s)).
        rewrite skipn_length. split; [exact HL'|]. split; [|reflexivity].
        unfold t_pending. now rewrite D.
    + split; [exact A|]. split; [exact B|]. split; [reflexivity|]. exact D.
  - intros s hd p Hs. destruct (fill_spec s Hs) as (A & B & D). cbn [ctl_write tank_controller]. auto.
  - intros s n Hs. destruct (fill_spec s Hs) as (A & B & D). cbn [ctl_peek tank_controller].
    unfold t_pending, pending. cbn [consumed received tank_history]. rewrite D.
    destruct (Nat.ltb_spec n (length (skipn (t_consumed s) (t_received (t_fill k s))))) as [HL|HL].
    + destruct (nth_error _ n) eqn:En; [eauto|]. apply nth_error_None in En. lia.
    + now rewrite (proj2 (nth_error_None _ _) HL).
  - intros s buf Hs. destruct (fill_spec s Hs) as (A & B & D). cbn [ctl_read_into tank_controller].
    destruct (Nat.leb_spec (length buf) (length (t_pending (t_fill k s)))) as [HL|HL];
      unfold t_pending, pending in *; cbn [consumed received tank_history];
      change (t_received (t_take (length buf) (t_fill k s))) with (t_received (t_fill k s)); rewrite D in *.
    + rewrite (proj2 (Nat.leb_le _ _) HL). eauto.
    + rewrite (proj2 (Nat.leb_gt _ _) HL). reflexivity.
Qed.

(** [need] bytes in all are there after at most [d] more calls. *)
Definition near (g need least d : nat) (s : tank) : Prop :=
  (least <= t_consumed s)%nat /\ (least <= length (t_received s))%nat /\ (need <= length (t_received s) + length (t_waiting s))%nat
  /\ brings g (t_supply s)
  /\ ((need <= length (t_received s))%nat
      \/ exists j, (1 <= t_supply s j)%nat /\ ((need - length (t_received s)) * g + j <= d)%nat).
Lemma fill_total s : t_received (t_fill k s) ++ t_waiting (t_fill k s) = t_received s ++ t_waiting s.
Proof. unfold t_fill. cbn. now rewrite <- app_assoc, firstn_skipn. Qed.
Lemma fill_nearer g need least d s : (need <= least + k)%nat ->
  near g need least d s -> near g need least (pred d) (t_fill k s).
Proof.
  intros HK (A1 & A0 & A2 & A3 & A4). pose proof (f_equal (@length N) (fill_total s)) as L. rewrite !app_length in L.
  assert (M : (length (t_received s) <= length (t_received (t_fill k s)))%nat)
    by (unfold t_fill; cbn; rewrite app_length; lia).
  split; [exact A1|]. split; [lia|]. split; [lia|]. split.
  { intros i. destruct (A3 (S i)) as (j & J1 & J2). exists j. cbn. auto. }
  destruct A4 as [A4|(j & J1 & J2)]; [left; lia|].
  destruct (Nat.le_gt_cases need (length (t_received (t_fill k s)))) as [G|G]; [now left|]. right.
  destruct j as [|j].
  - destruct (A3 1%nat) as (i & I1 & I2). exists i. split; [exact I2|].
    assert (P : (length (t_received s) < length (t_received (t_fill k s)))%nat).
    { assert (R : (1 <= k - t_kept s)%nat) by (unfold t_kept; lia).
      assert (W : (1 <= length (t_waiting s))%nat) by lia.
     unfold t_fill. cbn [t_received]. rewrite app_length, firstn_length. clear - R W J1. lia. }
    assert (Q : ((need - length (t_received (t_fill k s))) * g + g <= (need - length (t_received s)) * g)%nat).
    { assert (Q : (S (need - length (t_received (t_fill k s))) <= need - length (t_received s))%nat) by lia.
      apply (Nat.mul_le_mono_r _ _ g) in Q. cbn [Nat.mul] in Q. rewrite Nat.add_comm. exact Q. }
    lia.
  - exists j. split; [exact J1|].
    assert (Q : ((need - length (t_received (t_fill k s))) * g <= (need - length (t_received s)) * g)%nat)
      by (apply Nat.mul_le_mono_r; lia).
    lia.
Qed.
Lemma near_more g need least d d' s : (d <= d')%nat -> near g need least d s -> near g need least d' s.
Proof.
  intros HD (A1 & A0 & A2 & A3 & A4). repeat split; auto. destruct A4 as [A4|(j & J1 & J2)]; [auto|].
  right. exists j. split; [exact J1|lia].
Qed.
Lemma peek_near g need least d s n : (need <= least + k)%nat ->
  near g need least d s -> near g need least (pred d) (fst (ctl_peek T s n)).
Proof. intros HK H. cbn. now apply fill_nearer. Qed.
Lemma read_near g need least d s buf : (need <= least + k)%nat ->
  near g need least d s -> near g need least (pred d) (fst (ctl_read_into T s buf)).
Proof.
  intros HK H. cbn. apply fill_nearer in H; [|exact HK]. destruct (Nat.leb _ _); [|exact H].
  destruct H as (A1 & A2). split; [|exact A2]. cbn [fst]. 
  change (t_consumed (t_take (length buf) (t_fill k s))) with (t_consumed (t_fill k s) + length buf)%nat. lia.
Qed.
Definition t_total (s : tank) : list N := t_received s ++ t_waiting s.

Section Reads.
Context (F : features) (V : vendor).
Lemma uart_near g need least d s : (need <= least + k)%nat -> near g need least d s ->
  let s' := fst (uart_read F V T s) in near g need least (pred d) s' /\ t_total s' = t_total s.
Proof.
  intros HK H. cbv zeta.
  apply (uart_read_keeps F V T (fun x => near g need least (pred d) x /\ t_total x = t_total s)).
  - split; [now apply peek_near|]. apply fill_total.
  - intros x n [X1 X2]. split; [eapply near_more; [|now apply peek_near; [|exact X1]]; lia|].
    rewrite <- X2. apply fill_total.
  - intros x buf [X1 X2]. split; [eapply near_more; [|now apply read_near; [|exact X1]]; lia|].
    rewrite <- X2. cbn. destruct (Nat.leb _ _); apply fill_total.
Qed.
Lemma link_near g need least d s : (need <= least + k)%nat -> near g need least d s ->
  let s' := fst (link_read F V T s) in near g need least (pred d) s' /\ t_total s' = t_total s.
Proof.
  intros HK H. cbv zeta.
  apply (link_read_keeps F V T (fun x => near g need least (pred d) x /\ t_total x = t_total s)).
  - split; [now apply peek_near|]. apply fill_total.
  - intros x buf [X1 X2]. split; [eapply near_more; [|now apply read_near; [|exact X1]]; lia|].
    rewrite <- X2. cbn. destruct (Nat.leb _ _); apply fill_total.
Qed.
Lemma tank_after s s1 : possible h s -> arrives h s s1 -> t_total s1 = t_total s ->
  pending h s s1 ++ t_waiting s1 = t_pending s ++ t_waiting s.
Proof.
  intros Hs [m Hm] Q1. unfold t_pending, pending. cbn [received consumed tank_history] in *.
  assert (L1 : (t_consumed s <= length (t_received s))%nat) by apply Hs.
  assert (L2 : (t_consumed s <= length (t_received s1))%nat) by (rewrite Hm, app_length; lia).
  unfold t_total in Q1. apply (f_equal (skipn (t_consumed s))) in Q1.
  rewrite !skipn_app in Q1. replace (t_consumed s - length (t_received s))%nat with 0%nat in Q1 by lia.
  replace (t_consumed s - length (t_received s1))%nat with 0%nat in Q1 by lia. exact Q1.
Qed.
Lemma taken_rest s s1 l rest : pending h s s1 ++ t_waiting s1 = l ++ rest -> took h s s1 l ->
  t_pending s1 ++ t_waiting s1 = rest.
Proof.
  intros T0 (_ & _ & [more M] & C1 & _). rewrite M in T0. rewrite <- app_assoc in T0.
  apply app_inv_head in T0. rewrite <- T0. f_equal. unfold t_pending. cbn in C1. rewrite C1.
  rewrite skipn_add. change (skipn (t_consumed s) (t_received s1) = l ++ more) in M. rewrite M.
  now rewrite skipn_all_app.
Qed.
Lemma whole_there s s1 g l rest least : possible h s -> least = t_consumed s ->
  near g (least + length l) least 0 s1 -> (1 <= g)%nat -> consumed h s1 = consumed h s ->
  pending h s s1 ++ t_waiting s1 = l ++ rest -> exists more, pending h s s1 = l ++ more.
Proof.
  intros Hs -> (_ & _ & _ & _ & N4) Hg Hc Ht.
  assert (N5 : (length l <= length (pending h s s1))%nat).
  { unfold pending. cbn [consumed received tank_history]. rewrite skipn_length.
    destruct N4 as [N4|(j & J1 & J2)]; [lia|].
    destruct (t_consumed s + length l - length (t_received s1))%nat as [|x] eqn:Ex; [lia|].
    cbn [Nat.mul] in J2. lia. }
  exists (skipn (length l) (pending h s s1)).
  apply (f_equal (firstn (length l))) in Ht. rewrite firstn_app in Ht.
  replace (length l - length (pending h s s1))%nat with 0%nat in Ht by lia.
  cbn [firstn] in Ht. rewrite app_nil_r, firstn_all_app in Ht by reflexivity.
  rewrite <- Ht at 1. symmetry. apply firstn_skipn.
Qed.

Lemma tank_wait_read g n : forall d s p rest, possible h s -> event_packet p -> (1 <= g)%nat ->
  (length (uart_frame p) <= k)%nat -> t_pending s ++ t_waiting s = uart_frame p ++ rest ->
  near g (t_consumed s + length (uart_frame p)) (t_consumed s) d s -> (d < n)%nat ->
  exists s', waiting blocked (uart_read F V T) n s = (s', Some (uart_result F V p))
    /\ possible h s' /\ t_pending s' ++ t_waiting s' = rest /\ brings g (t_supply s').
Proof.
  pose proof tank_buffering as HB.
  induction n as [|n IH]; intros d s p rest Hs Hp Hg Hk Htot Hn Hd; [lia|]. cbn [waiting].
  pose proof (uart_read_front F V _ _ HB s Hs) as K.
  pose proof (uart_near g (t_consumed s + length (uart_frame p)) (t_consumed s) d s ltac:(lia) Hn) as [Q2 Q1].
  destruct (uart_read F V T s) as [s1 r]. cbn [fst] in Q1, Q2.
  assert (Ha : arrives h s s1) by (destruct (uart_front _); destruct K as [_ K]; apply K).
  pose proof (tank_after s s1 Hs Ha Q1) as T0. rewrite Htot in T0.
  pose proof Hp as (code & params & Ep & _).
  pose proof (uart_front_more (pending h s s1) (t_waiting s1)) as Fm.
  rewrite T0, Ep, uart_front_whole in Fm. rewrite <- Ep in Fm.
  destruct (uart_front (pending h s s1)) as [|t|p'] eqn:Ef.
  - destruct K as [-> HN]. cbn [blocked].
    assert (Hs1 : possible h s1) by apply HN.
    assert (C1 : t_consumed s1 = t_consumed s) by apply HN.
    destruct d as [|d].
    { exfalso. destruct (whole_there s s1 g (uart_frame p) rest (t_consumed s) Hs eq_refl Q2 Hg C1 T0) as [more M].
      rewrite M, Ep, uart_front_whole in Ef. discriminate Ef. }
    destruct (IH d s1 p rest Hs1 Hp Hg Hk) as (s' & -> & HR).
    + rewrite <- T0. f_equal. unfold t_pending, pending. cbn. now rewrite C1.
    + rewrite C1. exact Q2.
    + lia.
    + now exists s'.
  - specialize (Fm ltac:(discriminate)). discriminate Fm.
  - specialize (Fm ltac:(discriminate)). injection Fm as <-. destruct K as [-> HT].
    assert (Eb : blocked (uart_result (E := N) F V p) = false)
      by (unfold uart_result; now destruct (event_new F V p)).
    rewrite Eb. exists s1. split; [reflexivity|]. split; [apply HT|].
    split; [eapply taken_rest; eassumption|apply Q2].
Qed.
Lemma tank_wait_link g n : forall d s p rest, possible h s -> event_packet p -> (1 <= g)%nat ->
  (length p <= k)%nat -> t_pending s ++ t_waiting s = p ++ rest ->
  near g (t_consumed s + length p) (t_consumed s) d s -> (d < n)%nat ->
  exists s', waiting blocked (link_read F V T) n s = (s', Some (link_result F V p))
    /\ possible h s' /\ t_pending s' ++ t_waiting s' = rest /\ brings g (t_supply s').
Proof.
  pose proof tank_buffering as HB.
  induction n as [|n IH]; intros d s p rest Hs Hp Hg Hk Htot Hn Hd; [lia|]. cbn [waiting].
  pose proof (link_read_front F V _ _ HB s Hs) as K.
  pose proof (link_near g (t_consumed s + length p) (t_consumed s) d s ltac:(lia) Hn) as [Q2 Q1].
  destruct (link_read F V T s) as [s1 r]. cbn [fst] in Q1, Q2.
  assert (Ha : arrives h s s1) by (destruct (link_front _); destruct K as [_ K]; apply K).
  pose proof (tank_after s s1 Hs Ha Q1) as T0. rewrite Htot in T0.
  pose proof Hp as (code & params & Ep & _).
  pose proof (link_front_more (pending h s s1) (t_waiting s1)) as Fm.
  rewrite T0, Ep, link_front_whole in Fm. rewrite <- Ep in Fm.
  destruct (link_front (pending h s s1)) as [|t|p'] eqn:Ef.
  - destruct K as [-> HN]. cbn [blocked].
    assert (Hs1 : possible h s1) by apply HN.
    assert (C1 : t_consumed s1 = t_consumed s) by apply HN.
    destruct d as [|d].
    { exfalso. destruct (whole_there s s1 g p rest (t_consumed s) Hs eq_refl Q2 Hg C1 T0) as [more M].
      rewrite M, Ep, link_front_whole in Ef. discriminate Ef. }
    destruct (IH d s1 p rest Hs1 Hp Hg Hk) as (s' & -> & HR).
    + rewrite <- T0. f_equal. unfold t_pending, pending. cbn. now rewrite C1.
    + rewrite C1. exact Q2.
    + lia.
    + now exists s'.
  - specialize (Fm ltac:(discriminate)). discriminate Fm.
  - specialize (Fm ltac:(discriminate)). injection Fm as <-. destruct K as [-> HT].
    assert (Eb : blocked (link_result (E := N) F V p) = false)
      by (unfold link_result; now destruct (event_new F V p)).
    rewrite Eb. exists s1. split; [reflexivity|]. split; [apply HT|].
    split; [eapply taken_rest; eassumption|apply Q2].
Qed.

Lemma near_start s l rest g : possible h s -> brings g (t_supply s) ->
  t_pending s ++ t_waiting s = l ++ rest ->
  exists d, (d < S (length l) * g)%nat /\ near g (t_consumed s + length l) (t_consumed s) d s.
Proof.
  intros Hs HG Ht. assert (L1 : (t_consumed s <= length (t_received s))%nat) by apply Hs.
  pose proof (f_equal (@length N) Ht) as L. unfold t_pending in L. rewrite !app_length, skipn_length in L.
  destruct (HG 0%nat) as (j & J1 & J2). exists (length l * g + j)%nat. split; [cbn; lia|].
  split; [lia|]. split; [lia|]. split; [lia|]. split; [exact HG|]. right. exists j. split; [exact J2|].
  assert (Q : ((t_consumed s + length l - length (t_received s)) * g <= length l * g)%nat)
    by (apply Nat.mul_le_mono_r; lia).
  lia.
Qed.
Lemma event_packet_length p : event_packet p -> (length p <= 257)%nat.
Proof. intros (code & q & -> & _ & _ & H). cbn. lia. Qed.
Lemma brings_some g f : brings g f -> (1 <= g)%nat.
Proof. intros H. destruct (H 0%nat) as (j & J & _). lia. Qed.
Lemma tank_reads g patience ps : (258 <= k)%nat -> (259 * g <= patience)%nat -> Forall event_packet ps ->
  forall s, possible h s -> brings g (t_supply s) -> t_pending s ++ t_waiting s = flat_map uart_frame ps ->
  snd (repeated (waiting blocked (uart_read F V T) patience) (length ps) s)
  = map Some (map (uart_result F V) ps).
Proof.
  intros Hk Hn. induction 1 as [|p ps Hp _ IH]; intros s Hs HG Ht; [reflexivity|].
  cbn [flat_map] in Ht. cbn [length repeated map].
  destruct (near_start s _ _ g Hs HG Ht) as (d & D1 & D2). pose proof (event_packet_length p Hp) as L.
  destruct (tank_wait_read g patience d s p (flat_map uart_frame ps) Hs Hp (brings_some _ _ HG))
    as (s1 & -> & S1 & S2 & S3).
  - cbn. lia.
  - exact Ht.
  - exact D2.
  - cbn [uart_frame length] in D1. apply (Nat.lt_le_trans _ _ _ D1). apply (Nat.le_trans _ (259 * g)); [|exact Hn].
    apply Nat.mul_le_mono_r. lia.
  - specialize (IH s1 S1 S3 S2). destruct (repeated _ (length ps) s1) as [s2 rs]. cbn [snd] in *. now rewrite IH.
Qed.
Lemma tank_links g patience ps : (257 <= k)%nat -> (258 * g <= patience)%nat -> Forall event_packet ps ->
  forall s, possible h s -> brings g (t_supply s) -> t_pending s ++ t_waiting s = concat ps ->
  snd (repeated (waiting blocked (link_read F V T) patience) (length ps) s)
  = map Some (map (link_result F V) ps).
Proof.
  intros Hk Hn. induction 1 as [|p ps Hp _ IH]; intros s Hs HG Ht; [reflexivity|].
  cbn [concat] in Ht. cbn [length repeated map].
  destruct (near_start s _ _ g Hs HG Ht) as (d & D1 & D2). pose proof (event_packet_length p Hp) as L.
  destruct (tank_wait_link g patience d s p (concat ps) Hs Hp (brings_some _ _ HG))
    as (s1 & -> & S1 & S2 & S3).
  - lia.
  - exact Ht.
  - exact D2.
  - apply (Nat.lt_le_trans _ _ _ D1). apply (Nat.le_trans _ (258 * g)); [|exact Hn].
    apply Nat.mul_le_mono_r. lia.
  - specialize (IH s1 S1 S3 S2). destruct (repeated _ (length ps) s1) as [s2 rs]. cbn [snd] in *. now rewrite IH.
Qed.

(** Too small. *)
Lemma total_uart s : t_total (fst (uart_read F V T s)) = t_total s.
Proof.
  apply (uart_read_keeps F V T (fun x => t_total x = t_total s)).
  - apply fill_total.
  - intros x n X. rewrite <- X. apply fill_total.
  - intros x buf X. rewrite <- X. cbn. destruct (Nat.leb _ _); apply fill_total.
Qed.
Lemma total_link s : t_total (fst (link_read F V T s)) = t_total s.
Proof.
  apply (link_read_keeps F V T (fun x => t_total x = t_total s)).
  - apply fill_total.
  - intros x buf X. rewrite <- X. cbn. destruct (Nat.leb _ _); apply fill_total.
Qed.
Lemma fill_bound c s : t_consumed s = c -> (length (t_received s) <= k + c)%nat ->
  t_consumed (t_fill k s) = c /\ (length (t_received (t_fill k s)) <= k + c)%nat.
Proof.
  intros H1 H2. unfold t_fill. cbn [t_received t_consumed]. split; [exact H1|].
  rewrite app_length, firstn_length. unfold t_kept. lia.
Qed.
Lemma read_bound c s buf : t_consumed s = c -> (length (t_received s) <= k + c)%nat ->
  (length (t_received (fst (ctl_read_into T s buf))) <= k + c)%nat.
Proof.
  intros H1 H2. cbn. destruct (fill_bound c s H1 H2) as [A1 A2]. destruct (Nat.leb _ _); exact A2.
Qed.
Lemma uart_bound s : possible h s -> (length (t_received (fst (uart_read F V T s))) <= k + t_consumed s)%nat.
Proof.
  intros Hs. assert (L : (length (t_received s) <= k + t_consumed s)%nat)
    by (destruct Hs as (_ & H2 & _ & H4); unfold t_kept in H4; lia).
  set (c := t_consumed s) in *.
  assert (P : forall x n, t_consumed x = c /\ (length (t_received x) <= k + c)%nat ->
    t_consumed (fst (ctl_peek T x n)) = c /\ (length (t_received (fst (ctl_peek T x n))) <= k + c)%nat).
  { intros x n [X1 X2]. cbn. now apply fill_bound. }
  pose proof (P s 0%nat (conj eq_refl L)) as H0.
  unfold uart_read, abind, amap_err.
  destruct (ctl_peek T s 0) as [s1 [t|e|]]; cbn [map_err fst] in *; try apply H0.
  destruct (t =? 4); [|apply H0].
  unfold uart_read_event, abind, amap_err, read_into_prefix, pure, abind.
  pose proof (P s1 2%nat H0) as H1. destruct (ctl_peek T s1 2) as [s2 [n|e|]]; cbn [map_err fst] in *; try apply H1.
  destruct (slice _ _ _) as [sub|e|]; try apply H1.
  pose proof (read_bound c s2 sub (proj1 H1) (proj2 H1)) as H2.
  destruct (ctl_read_into T s2 sub) as [s3 [d|e|]]; try exact H2.
  cbn [map_err fst] in *. destruct (slice _ _ _) as [pkt|e|]; try exact H2.
  all: destruct (event_new F V pkt); exact H2.
Qed.
Lemma link_bound s : possible h s -> (length (t_received (fst (link_read F V T s))) <= k + t_consumed s)%nat.
Proof.
  intros Hs. assert (L : (length (t_received s) <= k + t_consumed s)%nat)
    by (destruct Hs as (_ & H2 & _ & H4); unfold t_kept in H4; lia).
  set (c := t_consumed s) in *.
  assert (H1 : t_consumed (fst (ctl_peek T s 1)) = c /\ (length (t_received (fst (ctl_peek T s 1))) <= k + c)%nat)
    by (cbn; now apply fill_bound).
  unfold link_read, abind, amap_err, read_into_prefix, pure, abind.
  destruct (ctl_peek T s 1) as [s2 [n|e|]]; cbn [map_err fst] in *; try apply H1.
  destruct (slice _ _ _) as [sub|e|]; try apply H1.
  pose proof (read_bound c s2 sub (proj1 H1) (proj2 H1)) as H2.
  destruct (ctl_read_into T s2 sub) as [s3 [d|e|]]; try exact H2.
  cbn [map_err fst] in *. destruct (slice _ _ _) as [pkt|e|]; try exact H2.
  all: destruct (event_new F V pkt); exact H2.
Qed.
Lemma tank_stuck_uart n : forall s p rest, possible h s -> event_packet p -> (k < length (uart_frame p))%nat ->
  t_pending s ++ t_waiting s = uart_frame p ++ rest ->
  exists s', waiting blocked (uart_read F V T) n s = (s', None) /\ t_consumed s' = t_consumed s.
Proof.
  pose proof tank_buffering as HB.
  induction n as [|n IH]; intros s p rest Hs Hp Hk Htot; [now exists s|]. cbn [waiting].
  pose proof (uart_read_front F V _ _ HB s Hs) as K.
  pose proof (total_uart s) as Q1. pose proof (uart_bound s Hs) as Q2.
  destruct (uart_read F V T s) as [s1 r]. cbn [fst] in Q1, Q2.
  assert (Ha : arrives h s s1) by (destruct (uart_front _); destruct K as [_ K]; apply K).
  pose proof (tank_after s s1 Hs Ha Q1) as T0. rewrite Htot in T0.
  pose proof Hp as (code & params & Ep & _).
  pose proof (uart_front_more (pending h s s1) (t_waiting s1)) as Fm.
  rewrite T0, Ep, uart_front_whole in Fm. rewrite <- Ep in Fm.
  destruct (uart_front (pending h s s1)) as [|t|p'] eqn:Ef.
  - destruct K as [-> HN]. cbn [blocked].
    assert (Hs1 : possible h s1) by apply HN.
    assert (C1 : t_consumed s1 = t_consumed s) by apply HN.
    destruct (IH s1 p rest Hs1 Hp Hk) as (s' & -> & HR).
    + rewrite <- T0. f_equal. unfold t_pending, pending. cbn. now rewrite C1.
    + exists s'. split; [reflexivity|congruence].
  - specialize (Fm ltac:(discriminate)). discriminate Fm.
  - specialize (Fm ltac:(discriminate)). injection Fm as <-. destruct K as [_ (_ & _ & [more M] & _)].
    apply (f_equal (@length N)) in M. unfold pending in M. cbn [consumed received tank_history] in M.
    rewrite skipn_length, app_length in M. lia.
Qed.
Lemma tank_stuck_link n : forall s p rest, possible h s -> event_packet p -> (k < length p)%nat ->
  t_pending s ++ t_waiting s = p ++ rest ->
  exists s', waiting blocked (link_read F V T) n s = (s', None) /\ t_consumed s' = t_consumed s.
Proof.
  pose proof tank_buffering as HB.
  induction n as [|n IH]; intros s p rest Hs Hp Hk Htot; [now exists s|]. cbn [waiting].
  pose proof (link_read_front F V _ _ HB s Hs) as K.
  pose proof (total_link s) as Q1. pose proof (link_bound s Hs) as Q2.
  destruct (link_read F V T s) as [s1 r]. cbn [fst] in Q1, Q2.
  assert (Ha : arrives h s s1) by (destruct (link_front _); destruct K as [_ K]; apply K).
  pose proof (tank_after s s1 Hs Ha Q1) as T0. rewrite Htot in T0.
  pose proof Hp as (code & params & Ep & _).
  pose proof (link_front_more (pending h s s1) (t_waiting s1)) as Fm.
  rewrite T0, Ep, link_front_whole in Fm. rewrite <- Ep in Fm.
  destruct (link_front (pending h s s1)) as [|t|p'] eqn:Ef.
  - destruct K as [-> HN]. cbn [blocked].
    assert (Hs1 : possible h s1) by apply HN.
    assert (C1 : t_consumed s1 = t_consumed s) by apply HN.
    destruct (IH s1 p rest Hs1 Hp Hk) as (s' & -> & HR).
    + rewrite <- T0. f_equal. unfold t_pending, pending. cbn. now rewrite C1.
    + exists s'. split; [reflexivity|congruence].
  - specialize (Fm ltac:(discriminate)). discriminate Fm.
  - specialize (Fm ltac:(discriminate)). injection Fm as <-. destruct K as [_ (_ & _ & [more M] & _)].
    apply (f_equal (@length N)) in M. unfold pending in M. cbn [consumed received tank_history] in M.
    rewrite skipn_length, app_length in M. lia.
Qed.
End Reads.
End Tank.

Lemma packets_bytes frame ps : (forall p, bytes p -> bytes (frame p)) -> Forall event_packet ps -> bytes (flat_map frame ps).
Proof.
  intros HF. induction 1 as [|p ps (code & q & -> & H1 & H2 & H3) _ IH]; cbn; [constructor|].
  apply bytes_app. split; [|exact IH]. apply HF. unfold framed. constructor; [exact H1|].
  constructor; [unfold byte; lia|exact H2].
Qed.
Lemma concat_flat {B} (l : list (list B)) : concat l = flat_map (fun p => p) l.
Proof. induction l as [|x l IH]; [reflexivity|]. cbn. now rewrite IH. Qed.
Lemma uart_frame_bytes p : bytes p -> bytes (uart_frame p).
Proof. intros H. constructor; [reflexivity|exact H]. Qed.
Lemma fresh_possible k stream supply : bytes stream -> possible (tank_history k) (fresh_tank stream supply).
Proof. intros H. repeat split; cbn; auto; [constructor|lia]. Qed.

Lemma enough_uart F V capacity g patience ps supply : (258 <= capacity)%nat -> brings g supply ->
  (259 * g <= patience)%nat -> Forall event_packet ps ->
  snd (repeated (waiting blocked (uart_read F V (tank_controller capacity)) patience) (length ps)
         (fresh_tank (flat_map uart_frame ps) supply))
  = map Some (map (uart_result F V) ps).
Proof.
  intros Hk Hg Hn Hp. apply (tank_reads capacity F V g patience ps Hk Hn Hp); [|exact Hg|reflexivity].
  apply fresh_possible, packets_bytes; [exact uart_frame_bytes|exact Hp].
Qed.
Lemma enough_link F V capacity g patience ps supply : (257 <= capacity)%nat -> brings g supply ->
  (258 * g <= patience)%nat -> Forall event_packet ps ->
  snd (repeated (waiting blocked (link_read F V (tank_controller capacity)) patience) (length ps)
         (fresh_tank (concat ps) supply))
  = map Some (map (link_result F V) ps).
Proof.
  intros Hk Hg Hn Hp. apply (tank_links capacity F V g patience ps Hk Hn Hp); [|exact Hg|reflexivity].
  apply fresh_possible. rewrite concat_flat. now apply packets_bytes.
Qed.
Lemma stuck_uart F V capacity patience p ps supply : Forall event_packet (p :: ps) -> (capacity < 1 + length p)%nat ->
  snd (waiting blocked (uart_read F V (tank_controller capacity)) patience
         (fresh_tank (flat_map uart_frame (p :: ps)) supply)) = None.
Proof.
  intros Hp Hk. inversion Hp as [|? ? H1 H2]; subst.
  destruct (tank_stuck_uart capacity F V patience (fresh_tank (flat_map uart_frame (p :: ps)) supply) p
    (flat_map uart_frame ps)) as (s' & -> & _); auto.
  apply fresh_possible, packets_bytes; [exact uart_frame_bytes|exact Hp].
Qed.
Lemma stuck_link F V capacity patience p ps supply : Forall event_packet (p :: ps) -> (capacity < length p)%nat ->
  snd (waiting blocked (link_read F V (tank_controller capacity)) patience
         (fresh_tank (concat (p :: ps)) supply)) = None.
Proof.
  intros Hp Hk. inversion Hp as [|? ? H1 H2]; subst.
  destruct (tank_stuck_link capacity F V patience (fresh_tank (concat (p :: ps)) supply) p (concat ps))
    as (s' & -> & _); auto.
  apply fresh_possible. rewrite concat_flat. now apply packets_bytes.
Qed.

Lemma counted_uart F V {St E} (C : controller St E) os s : Forall (typed_operation F) os ->
  let (s', log) := session F V C os s in
  exists n, session F V (counting C) os (s, 0%nat) = ((s', n), log)
    /\ (n <= sends_count os + 3 * receives_count os)%nat.
Proof.
  intros H. pose proof (session_counted F V C os H s 0) as K. destruct (session F V C os s) as [s' log].
  destruct (session F V (counting C) os (s, 0%nat)) as [[s1 n] log1]. destruct K as (K1 & K2 & K3).
  cbn [fst snd] in *. subst. now exists n.
Qed.
Lemma counted_split F V {St E} (C : controller St E) os s : Forall (typed_operation F) os ->
  let (s', log) := split_session F V C os s in
  exists n, split_session F V (counting C) os (s, 0%nat) = ((s', n), log)
    /\ (n <= sends_count os + 2 * receives_count os)%nat.
Proof.
  intros H. pose proof (split_session_counted F V C os H s 0) as K. destruct (split_session F V C os s) as [s' log].
  destruct (split_session F V (counting C) os (s, 0%nat)) as [[s1 n] log1]. destruct K as (K1 & K2 & K3).
  cbn [fst snd] in *. subst. now exists n.
Qed.
