(** * Runs without an end (proofs). *)
From Coq Require Import Lia.
From Verif Require Import Base Model_Types Model_Intervals Model_EventBase Model_Command Model_Event Model_Host
  Spec_Wire Spec_Errors Spec_Report Spec_Host Spec_Link Spec_Split Spec_Example Spec_Conform Spec_Follow Spec_Credit Spec_Facts Spec_Data Spec_Window Spec_Turns Spec_Live
  Proofs_Base Proofs_Event Proofs_Host Proofs_Calls Proofs_Streams Proofs_Link Proofs_Split Proofs_Follow Proofs_Credit Proofs_Facts Proofs_Data Proofs_Window Proofs_Turns.
Open Scope list_scope.
Open Scope N_scope.

(** ** Histories of calls *)
Section Times.
Context {R : Type} (results : nat -> R).
Lemma times_S (such : R -> bool) n m : (n <= m)%nat ->
  times such results n (S m) = (times such results n m + if such (results m) then 1 else 0)%nat.
Proof.
  intros H. unfold times. replace (S m - n)%nat with (S (m - n)) by lia. rewrite seq_S, filter_app, app_length.
  replace (n + (m - n))%nat with m by lia. cbn [filter]. now destruct (such (results m)).
Qed.
Lemma times_none (such : R -> bool) n : times such results n n = 0%nat.
Proof. unfold times. now rewrite Nat.sub_diag. Qed.
Lemma times_grow (such : R -> bool) : again_and_again (fun m => such (results m) = true) ->
  forall n k, exists m, (n <= m)%nat /\ (k <= times such results n m)%nat.
Proof.
  intros H n k. induction k as [|k [m [H1 H2]]]; [exists n; split; lia|].
  destruct (H m) as (m' & H3 & H4).
  assert (M : forall x, (m <= x)%nat -> (times such results n m <= times such results n x)%nat).
  { induction 1 as [|x Hx IH]; [lia|]. rewrite times_S by lia. lia. }
  exists (S m'). split; [lia|]. rewrite times_S by lia. rewrite H4. specialize (M m' H3). lia.
Qed.
End Times.

Section Log.
Context {O R : Type} (calls : nat -> O) (results : nat -> R).
Lemma until_S n : until calls results (S n) = until calls results n ++ [(calls n, results n)].
Proof. unfold until. rewrite seq_S, map_app. reflexivity. Qed.
Lemma until_le n m : (n <= m)%nat -> exists l, until calls results m = until calls results n ++ l.
Proof.
  induction 1 as [|m _ [l IH]]; [exists []; now rewrite app_nil_r|].
  rewrite until_S, IH, <- app_assoc. now eexists.
Qed.
Context {St : Type} (call : O -> St -> St * R) (states : nat -> St).
(** As sessions. *)
Lemma until_session (sess : list O -> St -> St * list (O * R)) :
  (forall s, sess [] s = (s, [])) ->
  (forall o os s, sess (o :: os) s = let (s, r) := call o s in let (s, l) := sess os s in (s, (o, r) :: l)) ->
  endless call calls states results ->
  forall n, sess (map calls (seq 0 n)) (states 0%nat) = (states n, until calls results n).
Proof.
  intros Z Step H n. unfold until.
  assert (G : forall k i, sess (map calls (seq i k)) (states i)
    = (states (i + k)%nat, map (fun k => (calls k, results k)) (seq i k))).
  { induction k as [|k IH]; intros i; cbn [seq map]; [now rewrite Z, Nat.add_0_r|].
    rewrite Step, (H i), (IH (S i)). now replace (S i + k)%nat with (i + S k)%nat by lia. }
  apply (G n 0%nat).
Qed.
End Log.

(** ** Packets that are there are read *)
Section Reading.
Context {St O R X G : Type} (call : O -> St -> St * R) (h : history St) (good : O -> Prop)
  (packet : X -> Prop) (frame : X -> list N) (result : X -> G) (gets : R -> list G) (went : R -> bool).
Context (apart : forall p q a b, packet p -> packet q -> frame p ++ a = frame q ++ b -> p = q).
Context (one_call : forall o s, good o -> possible h s -> (consumed h s <= length (received h s))%nat ->
  let (s', r) := call o s in
  possible h s' /\ (consumed h s' <= length (received h s'))%nat /\ arrives h s s'
  /\ ((consumed h s' = consumed h s /\ gets r = []
       /\ (went r = true -> forall p more, packet p -> pending h s s <> frame p ++ more))
      \/ exists p, packet p /\ (exists more, pending h s s' = frame p ++ more)
         /\ consumed h s' = (consumed h s + length (frame p))%nat /\ gets r = [result p])).
Context (calls : nat -> O) (states : nat -> St) (results : nat -> R)
  (run : endless call calls states results) (all_good : forall n, good (calls n))
  (start : possible h (states 0%nat)) (start_ok : (consumed h (states 0%nat) <= length (received h (states 0%nat)))%nat).
Definition gotten (n : nat) : list G := flat_map (fun x => gets (snd x)) (until calls results n).

Lemma gotten_S n : gotten (S n) = gotten n ++ gets (results n).
Proof. unfold gotten. rewrite until_S, flat_map_app. cbn [flat_map snd]. now rewrite app_nil_r. Qed.

(** What was read by then, and what is left. *)
Definition so_far (n : nat) (qs : list X) : Prop :=
  Forall packet qs /\ gotten n = map result qs
  /\ consumed h (states n) = (consumed h (states 0%nat) + length (flat_map frame qs))%nat
  /\ exists rest, pending h (states 0%nat) (states n) = flat_map frame qs ++ rest /\ rest = pending h (states n) (states n).
Lemma pending_split s s' x l : consumed h s = (consumed h x + l)%nat -> pending h s s' = skipn l (pending h x s').
Proof. intros E. unfold pending. now rewrite E, skipn_add. Qed.

Lemma run_ok n : possible h (states n) /\ (consumed h (states n) <= length (received h (states n)))%nat
  /\ arrives h (states 0%nat) (states n).
Proof.
  induction n as [|n (I1 & I2 & I3)]; [split; [exact start|split; [exact start_ok|apply arrives_refl]]|].
  pose proof (one_call (calls n) (states n) (all_good n) I1 I2) as K. rewrite (run n) in K.
  destruct K as (K1 & K2 & K3 & _). split; [exact K1|]. split; [exact K2|]. eapply arrives_trans; eassumption.
Qed.
Lemma run_arrives n m : (n <= m)%nat -> arrives h (states n) (states m).
Proof.
  induction 1 as [|m _ IH]; [apply arrives_refl|].
  destruct (run_ok m) as (I1 & I2 & _).
  pose proof (one_call (calls m) (states m) (all_good m) I1 I2) as K. rewrite (run m) in K.
  eapply arrives_trans; [exact IH|apply K].
Qed.
Lemma pending_more x n m : (consumed h x <= length (received h (states n)))%nat -> (n <= m)%nat ->
  exists more, pending h x (states m) = pending h x (states n) ++ more.
Proof. intros Hx H. apply pending_grows; [exact Hx|now apply run_arrives]. Qed.
Lemma start_bound n : (consumed h (states 0%nat) <= length (received h (states n)))%nat.
Proof.
  destruct (run_ok n) as (_ & _ & [more M]). rewrite M, app_length. lia.
Qed.

Lemma read_so_far n : exists qs, so_far n qs.
Proof.
  induction n as [|n (qs & Q1 & Q2 & Q3 & rest & Q4 & Q5)].
  - exists []. split; [constructor|]. split; [reflexivity|]. split; [cbn; lia|]. now eexists.
  - destruct (run_ok n) as (I1 & I2 & _).
    pose proof (one_call (calls n) (states n) (all_good n) I1 I2) as K. rewrite (run n) in K.
    destruct K as (_ & _ & K3 & K).
    destruct (pending_more (states 0%nat) n (S n) (start_bound n)) as [more M]; [lia|].
    assert (P : pending h (states n) (states (S n)) = rest ++ more).
    { rewrite (pending_split _ _ _ _ Q3), M, Q4, <- app_assoc. now apply skipn_all_app. }
    destruct K as [(K4 & K5 & _)|(p & K4 & (m2 & K5) & K6 & K7)].
    + exists qs. split; [exact Q1|]. rewrite gotten_S, K5, app_nil_r. split; [exact Q2|]. split; [lia|].
      exists (rest ++ more). split; [now rewrite M, Q4, app_assoc|]. rewrite <- P. now rewrite <- (pending_same h (states n) (states (S n))).
    + exists (qs ++ [p]). split; [apply Forall_app; split; [exact Q1|now constructor]|].
      rewrite gotten_S, K7, Q2, map_app. split; [reflexivity|].
      rewrite flat_map_app. cbn [flat_map]. rewrite app_nil_r, app_length. split; [lia|].
      exists m2. split.
      * rewrite M, Q4, <- !app_assoc. f_equal. rewrite <- P. exact K5.
      * rewrite (pending_split _ _ _ _ K6), K5. symmetry. now apply skipn_all_app.
Qed.

Lemma streams_start ps : Forall packet ps -> forall qs a b, Forall packet qs ->
  flat_map frame ps ++ a = flat_map frame qs ++ b ->
  (exists more, qs = ps ++ more) \/ exists p more, packet p /\ ps = qs ++ p :: more /\ b = frame p ++ flat_map frame more ++ a.
Proof.
  induction 1 as [|p ps Hp Hps IH]; intros qs a b Hq H; [left; now exists qs|].
  destruct Hq as [|q qs Hq Hqs].
  - right. exists p, ps. split; [exact Hp|]. split; [reflexivity|]. cbn [flat_map app] in H. now rewrite app_assoc.
  - cbn [flat_map] in H. rewrite <- !app_assoc in H. pose proof (apart _ _ _ _ Hp Hq H) as <-. apply app_inv_head in H.
    destruct (IH qs a b Hqs H) as [[more ->]|(x & more & Hx & -> & ->)]; [left; now exists more|].
    right. now exists x, more.
Qed.

Lemma read_by n m ps rest : Forall packet ps -> pending h (states 0%nat) (states n) = flat_map frame ps ++ rest ->
  (n <= m)%nat -> (length ps <= length (gotten n) + times went results n m)%nat ->
  exists more, gotten m = map result ps ++ more.
Proof.
  intros Hp E L.
  assert (Same : forall k qs, (n <= k)%nat -> so_far k qs -> (length ps <= length qs)%nat -> exists more, qs = ps ++ more).
  { intros k qs Hk (Q1 & _ & _ & r & Q4 & _) Hl.
    destruct (pending_more (states 0%nat) n k (start_bound n) Hk) as [more M]. rewrite M, E, <- app_assoc in Q4.
    destruct (streams_start ps Hp qs _ _ Q1 Q4) as [K|(p & x & _ & -> & _)]; [exact K|].
    rewrite app_length in Hl. cbn [length] in Hl. lia. }
  assert (G0 : (Nat.min (length ps) (length (gotten n) + times went results n m) <= length (gotten m))%nat).
  { clear - L Same E Hp all_good apart one_call run start start_ok. induction L as [|m L IH]; [rewrite times_none; lia|].
    rewrite times_S by exact L. rewrite gotten_S, app_length.
    destruct (went (results m)) eqn:W; [|lia].
    destruct (run_ok m) as (I1 & I2 & _).
    pose proof (one_call (calls m) (states m) (all_good m) I1 I2) as K. rewrite (run m) in K.
    destruct K as (_ & _ & _ & [(_ & _ & K)|(p & _ & _ & _ & K)]).
    - specialize (K W). destruct (read_so_far m) as (qs & S). pose proof S as (Q1 & Q2 & _ & r & Q4 & Q5).
      destruct (pending_more (states 0%nat) n m (start_bound n) L) as [more M]. rewrite M, E, <- app_assoc in Q4.
      destruct (streams_start ps Hp qs _ _ Q1 Q4) as [[x ->]|(p & x & Hpk & -> & Hb)].
      + rewrite Q2, map_length, app_length. lia.
      + exfalso. rewrite Q5 in Hb. exact (K p _ Hpk Hb).
    - rewrite K. cbn [length]. lia. }
  intros B. destruct (read_so_far m) as (qs & S). pose proof S as (_ & Q2 & _).
  destruct (Same m qs L S) as [x ->]; [rewrite Q2, map_length in G0; lia|].
  exists (map result x). now rewrite Q2, map_app.
Qed.

Lemma read_some_day n ps rest : again_and_again (fun m => went (results m) = true) ->
  Forall packet ps -> pending h (states 0%nat) (states n) = flat_map frame ps ++ rest ->
  exists m more, (n <= m)%nat /\ gotten m = map result ps ++ more.
Proof.
  intros A Hp E. destruct (times_grow results went A n (length ps)) as (m & L & T).
  destruct (read_by n m ps rest Hp E L) as [more M]; [lia|]. eauto.
Qed.
End Reading.

(** ** Reads of a controller that is prompt *)
Section Prompt.
Context (F : features) (V : vendor) {St E : Type} (C : controller St E) (h : history St) (HP : prompt C h).
Let HC : contract C h := prompt_contract C h HP.

Lemma there_later s x : possible h s -> arrives h s x -> exists more, pending h s x = pending h s s ++ more.
Proof. intros Hs Ha. apply pending_grows; [|exact Ha]. now apply (consumed_received _ _ HC). Qed.

Lemma prompt_frame {G} (f : nb_error E -> G) pre n params rest s s' g : possible h s ->
  pending h s s = pre ++ n :: params ++ rest -> length params = N.to_nat n ->
  frame C f (length pre) s = (s', Err g) -> exists e, g = f (Other e).
Proof.
  intros Hs Hp Hn. unfold frame, abind, amap_err. set (k := length pre).
  destruct (peek_cases C h HC s k Hs) as (s1 & r1 & Hr1 & N1 & P1).
  pose proof (peek_prompt _ _ HP s k Hs) as R1. rewrite Hr1 in *.
  assert (Ha1 : arrives h s s1) by apply N1.
  destruct (there_later s s1 Hs Ha1) as [m1 M1]. rewrite Hp in M1.
  assert (K1 : (k < length (pending h s s1))%nat) by (rewrite M1, !app_length; cbn [length]; unfold k; lia).
  specialize (R1 K1).
  destruct r1 as [b|[e|]|]; cbn [map_err]; [|intros X; injection X as <- <-; eauto|now destruct R1|contradiction].
  destruct P1 as [P1 Hb].
  assert (b = n) as ->.
  { rewrite M1 in P1. unfold k in P1. rewrite <- app_assoc in P1. rewrite nth_error_app2, Nat.sub_diag in P1 by lia.
    cbn [app nth_error] in P1. congruence. }
  assert (Hs1 : possible h s1) by apply N1.
  unfold read_into_prefix, abind, pure. unfold slice.
  assert (Hn' : (N.to_nat n <= 255)%nat) by (unfold byte in Hb; lia).
  assert (Hz : length (zeros (255 + S k)) = (255 + S k)%nat) by apply repeat_length.
  rewrite Hz. replace (Nat.leb 0 (S k + N.to_nat n) && Nat.leb (S k + N.to_nat n) (255 + S k))%bool with true
    by (symmetry; apply andb_true_intro; split; apply Nat.leb_le; lia).
  cbn [skipn]. rewrite Nat.sub_0_r.
  set (sub := firstn (S k + N.to_nat n) (zeros (255 + S k))).
  assert (Hsub : length sub = (S k + N.to_nat n)%nat) by (unfold sub; rewrite firstn_length, Hz; lia).
  destruct (read_cases C h HC s1 sub Hs1) as (s2 & r2 & Hr2 & R2).
  pose proof (read_prompt _ _ HP s1 sub Hs1) as R3. rewrite Hr2 in *.
  assert (Ha2 : arrives h s1 s2) by (destruct r2; [apply R2|apply R2|contradiction]).
  assert (K2 : (length sub <= length (pending h s1 s2))%nat).
  { destruct (there_later s1 s2 Hs1 Ha2) as [m2 M2]. rewrite M2, app_length.
    rewrite (pending_same h s s1 s1) by apply N1. rewrite M1, Hsub, !app_length. cbn [length]. rewrite app_length. unfold k. lia. }
  specialize (R3 K2). destruct r2 as [data|[e|]|]; cbn [map_err]; try discriminate.
  - intros X. injection X as <- <-. eauto.
  - now destruct R3.
Qed.

Lemma prompt_link p rest s s' r : possible h s -> event_packet p -> pending h s s = p ++ rest ->
  link_read F V C s = (s', r) -> r <> Err WouldBlock.
Proof.
  intros Hs (code & params & -> & _ & _ & L) Hp Hr X. subst r. rewrite link_read_frame in Hr. unfold abind in Hr.
  unfold framed in Hp. cbn [app] in Hp.
  destruct (frame C link_rewrap_error 1 s) as [s1 [[buf n]|g|]] eqn:Ef.
  - unfold pure in Hr. destruct (slice _ _ _) as [packet|e|] eqn:Es; try discriminate.
    + destruct (event_new F V packet); discriminate Hr.
    + unfold slice in Es. destruct (_ && _)%bool; discriminate Es.
  - injection Hr as <- ->.
    destruct (prompt_frame link_rewrap_error [code] (N.of_nat (length params)) params rest s _ _ Hs Hp (eq_sym (Nat2N.id _)) Ef) as [e He].
    discriminate He.
  - discriminate Hr.
Qed.
Lemma prompt_uart p rest s s' r : possible h s -> event_packet p -> pending h s s = uart_frame p ++ rest ->
  uart_read F V C s = (s', r) -> r <> Err WouldBlock /\ forall t, r <> Err (Other (UBadPacketType t)).
Proof.
  intros Hs Hpk Hp Hr. split.
  2:{ intros t ->. destruct (uart_read_cases F V C h HC s Hs) as (s1 & r1 & E1 & K). rewrite Hr in E1. injection E1 as <- <-.
      destruct K as [(_ & HN & Hb)|(q & _ & _ & K)].
      - destruct (Hb t eq_refl) as [Ht Hn]. destruct (there_later s s' Hs) as [m M]; [apply HN|]. rewrite M, Hp in Hn.
        cbn in Hn. congruence.
      - unfold uart_result in K. destruct (event_new F V q); discriminate K. }
  intros ->. destruct Hpk as (code & params & -> & _ & _ & L). unfold uart_frame, framed in Hp. cbn [app] in Hp.
  unfold uart_read, abind, amap_err in Hr.
  destruct (peek_cases C h HC s 0 Hs) as (s1 & r1 & Hr1 & N1 & P1).
  pose proof (peek_prompt _ _ HP s 0 Hs) as R1. rewrite Hr1 in *.
  assert (Ha1 : arrives h s s1) by apply N1.
  destruct (there_later s s1 Hs Ha1) as [m1 M1]. rewrite Hp in M1.
  assert (K1 : (0 < length (pending h s s1))%nat) by (rewrite M1; cbn; lia). specialize (R1 K1).
  destruct r1 as [t|[e|]|]; cbn [map_err] in Hr; [|discriminate Hr|now destruct R1|contradiction].
  destruct P1 as [P1 _]. rewrite M1 in P1. cbn in P1. injection P1 as <-. change (4 =? 4) with true in Hr. cbv beta iota in Hr.
  rewrite event_read_frame in Hr. unfold abind in Hr.
  destruct (frame C uart_rewrap_error 2 s1) as [s2 [[buf n]|g|]] eqn:Ef.
  - unfold pure in Hr. destruct (slice _ _ _) as [packet|e|] eqn:Es; try discriminate.
    + destruct (event_new F V packet); discriminate Hr.
    + unfold slice in Es. destruct (_ && _)%bool; discriminate Es.
  - injection Hr as <- ->. rewrite <- (pending_same h s s1 s1) in M1 by apply N1. cbn [app] in M1. rewrite <- app_assoc in M1.
    assert (Hs1 : possible h s1) by apply N1.
    destruct (prompt_frame uart_rewrap_error [4; code] (N.of_nat (length params)) params (rest ++ m1) s1 _ _ Hs1 M1 (eq_sym (Nat2N.id _)) Ef) as [e He].
    discriminate He.
  - discriminate Hr.
Qed.

Lemma event_packets_apart p q a b : event_packet p -> event_packet q -> p ++ a = q ++ b -> p = q.
Proof.
  intros (c1 & p1 & -> & _) (c2 & p2 & -> & _) H. unfold framed in *. cbn [app] in H. injection H as <- L H.
  apply Nat2N.inj in L. destruct (app_inv_len p1 a p2 b L H) as [-> _]. reflexivity.
Qed.
Lemma frames_apart p q a b : event_packet p -> event_packet q -> uart_frame p ++ a = uart_frame q ++ b -> p = q.
Proof. intros Hp Hq H. unfold uart_frame in H. cbn [app] in H. injection H as H. exact (event_packets_apart _ _ _ _ Hp Hq H). Qed.

Definition uart_gets (r : report V E) :=
  match r with Received r => if uart_reports V r then [r] else [] | Sent _ => [] end.
Lemma uart_one_call o s : typed_operation F o -> possible h s -> (consumed h s <= length (received h s))%nat ->
  let (s', r) := perform F V C o s in
  possible h s' /\ (consumed h s' <= length (received h s'))%nat /\ arrives h s s'
  /\ ((consumed h s' = consumed h s /\ uart_gets r = []
       /\ (read_went r = true -> forall p more, event_packet p -> pending h s s <> uart_frame p ++ more))
      \/ exists p, event_packet p /\ (exists more, pending h s s' = uart_frame p ++ more)
         /\ consumed h s' = (consumed h s + length (uart_frame p))%nat /\ uart_gets r = [uart_result F V p]).
Proof.
  intros Ho Hs _. destruct o as [c|]; cbn [perform].
  - pose proof (call_contract F V C h HC c s Ho Hs) as K. destruct (run_command _ _ _ _ _ _) as [s1 r].
    destruct K as (K1 & K2 & K3 & K4). split; [exact K1|]. split; [now apply (consumed_received _ _ HC)|]. split; [exact K2|].
    left. split; [exact K3|]. split; [reflexivity|discriminate].
  - destruct (uart_read_cases F V C h HC s Hs) as (s1 & r & Hr & K). rewrite Hr. cbn [uart_gets].
    destruct K as [(Hf & HN & Hbad)|(p & Hp & HT & ->)].
    + pose proof HN as (K1 & K2 & K3 & K4). split; [exact K1|]. split; [now apply (consumed_received _ _ HC)|]. split; [exact K2|].
      left. split; [exact K3|]. rewrite Hf. split; [reflexivity|]. intros W p more Hp X.
      destruct (prompt_uart p more s s1 r Hs Hp X Hr) as [A B].
      destruct r as [u|[[t|x|x]|]|]; try discriminate Hf; try discriminate W; [now apply (B t)|now apply A].
    + pose proof HT as (K1 & K2 & K3 & K4 & K5). split; [exact K1|]. split; [now apply (consumed_received _ _ HC)|]. split; [exact K2|].
      right. exists p. rewrite uart_result_reports. auto.
Qed.
Definition link_gets (r : split_report V E) :=
  match r with SplitReceived r => if link_reports V r then [r] else [] | SplitSent _ => [] end.
Lemma link_one_call o s : typed_operation F o -> possible h s -> (consumed h s <= length (received h s))%nat ->
  let (s', r) := split_perform F V C o s in
  possible h s' /\ (consumed h s' <= length (received h s'))%nat /\ arrives h s s'
  /\ ((consumed h s' = consumed h s /\ link_gets r = []
       /\ (split_read_went r = true -> forall p more, event_packet p -> pending h s s <> p ++ more))
      \/ exists p, event_packet p /\ (exists more, pending h s s' = p ++ more)
         /\ consumed h s' = (consumed h s + length p)%nat /\ link_gets r = [link_result F V p]).
Proof.
  intros Ho Hs _. destruct o as [c|]; cbn [split_perform].
  - pose proof (link_call F V C h HC c s Ho Hs) as K. destruct (run_command _ _ _ _ _ _) as [s1 r].
    destruct K as ((K1 & K2 & K3 & K4) & _). split; [exact K1|]. split; [now apply (consumed_received _ _ HC)|]. split; [exact K2|].
    left. split; [exact K3|]. split; [reflexivity|discriminate].
  - destruct (link_read_cases F V C h HC s Hs) as (s1 & r & Hr & K). rewrite Hr. cbn [link_gets].
    destruct K as [(Hf & HN)|(p & Hp & HT & ->)].
    + pose proof HN as (K1 & K2 & K3 & K4). split; [exact K1|]. split; [now apply (consumed_received _ _ HC)|]. split; [exact K2|].
      left. split; [exact K3|]. rewrite Hf. split; [reflexivity|]. intros W p more Hp X.
      pose proof (prompt_link p more s s1 r Hs Hp X Hr) as A.
      destruct r as [u|[[x|x]|]|]; try discriminate Hf; try discriminate W. now apply A.
    + pose proof HT as (K1 & K2 & K3 & K4 & K5). split; [exact K1|]. split; [now apply (consumed_received _ _ HC)|]. split; [exact K2|].
      right. exists p. rewrite link_result_reports. auto.
Qed.
End Prompt.

(** ** Programs with data *)
Section Buffering.
Context (F : features) (V : vendor) {St E : Type} (C : controller St E) (h : history St) (HB : buffering C h).
Let HC : contract C h := buffering_contract _ _ HB.

Lemma wires_apart p q a b : incoming_packet p -> incoming_packet q -> wire_bytes p ++ a = wire_bytes q ++ b -> p = q.
Proof.
  intros Hp Hq H. destruct (one_start p q a b (incoming_delimited _ Hp) (incoming_delimited _ Hq) H) as [E1 _]. exact E1.
Qed.

Definition data_gets (r : @data_report V E) : list (@arrival V E) :=
  match r with Fetched (Some a) => [a] | _ => [] end.
Lemma data_one_call o s : typed_data_operation F V o -> possible h s -> (consumed h s <= length (received h s))%nat ->
  let (s', r) := data_perform F V C o s in
  possible h s' /\ (consumed h s' <= length (received h s'))%nat /\ arrives h s s'
  /\ ((consumed h s' = consumed h s /\ data_gets r = []
       /\ (fetch_went r = true -> forall p more, incoming_packet p -> pending h s s <> wire_bytes p ++ more))
      \/ exists p, incoming_packet p /\ (exists more, pending h s s' = wire_bytes p ++ more)
         /\ consumed h s' = (consumed h s + length (wire_bytes p))%nat /\ data_gets r = [arrives_as F V p]).
Proof.
  intros Ho Hs _. destruct o as [c|w|]; cbn [data_perform].
  - pose proof (call_contract F V C h HC c s Ho Hs) as K. destruct (run_command _ _ _ _ _ _) as [s1 r].
    destruct K as (K1 & K2 & K3 & K4). split; [exact K1|]. split; [now apply (consumed_received _ _ HC)|]. split; [exact K2|].
    left. split; [exact K3|]. split; [reflexivity|discriminate].
  - pose proof (write_contract _ _ HC s [fst w] (snd w) Hs) as K. destruct (ctl_write C s [fst w] (snd w)) as [s1 r].
    destruct K as (K1 & K2 & K3 & K4). split; [exact K1|]. split; [now apply (consumed_received _ _ HC)|]. split; [exact K2|].
    left. split; [exact K3|]. split; [reflexivity|discriminate].
  - pose proof (read_any_cases F V C h HC s Hs) as K. destruct (read_any F V C s) as [s1 [a|]] eqn:Er.
    + destruct K as (w & K0 & K & ->). destruct K as (K1 & K2 & K3 & K4 & K5). split; [exact K1|]. split; [now apply (consumed_received _ _ HC)|]. split; [exact K2|].
      right. exists w. cbn [data_gets]. auto.
    + destruct K as (K1 & K2 & K3 & K4). split; [exact K1|]. split; [now apply (consumed_received _ _ HC)|]. split; [exact K2|].
      left. split; [exact K3|]. split; [reflexivity|]. intros _ p more Hp X.
      destruct (read_any_there F V C h HB p more s Hp Hs X) as (s2 & E2 & _). rewrite Er in E2. discriminate E2.
Qed.
End Buffering.

(** ** Nothing is left unread *)
Section Unread.
Context (F : features) (V : vendor) {St E : Type} (C : controller St E) (h : history St).

Section Uart.
Context (HP : prompt C h) (calls : nat -> operation V) (states : nat -> St) (results : nat -> report V E).
Context (run : endless (perform F V C) calls states results) (typed : forall n, typed_operation F (calls n)) (start : possible h (states 0%nat)).
Let ok := consumed_received _ _ (prompt_contract _ _ HP) (states 0%nat) start.
Lemma uart_gotten n : gotten (uart_gets V) calls results n = received_packets (until calls results n).
Proof. unfold gotten, received_packets. apply flat_map_ext. intros [o [r|r]]; reflexivity. Qed.
Lemma uart_by n m ps rest : Forall event_packet ps ->
  pending h (states 0%nat) (states n) = flat_map uart_frame ps ++ rest -> (n <= m)%nat ->
  (length ps <= length (received_packets (until calls results n)) + times read_went results n m)%nat ->
  exists more, received_packets (until calls results m) = map (uart_result F V) ps ++ more.
Proof.
  rewrite <- !uart_gotten.
  exact (read_by (perform F V C) h (typed_operation F) event_packet uart_frame (uart_result F V) (uart_gets V) read_went
    frames_apart (uart_one_call F V C h HP) calls states results run typed start ok n m ps rest).
Qed.
Lemma uart_some_day n ps rest : again_and_again (fun m => read_went (results m) = true) ->
  Forall event_packet ps -> pending h (states 0%nat) (states n) = flat_map uart_frame ps ++ rest ->
  exists m more, (n <= m)%nat /\ received_packets (until calls results m) = map (uart_result F V) ps ++ more.
Proof.
  intros H Hp E1.
  destruct (read_some_day (perform F V C) h (typed_operation F) event_packet uart_frame (uart_result F V) (uart_gets V) read_went
    frames_apart (uart_one_call F V C h HP) calls states results run typed start ok n ps rest H Hp E1) as (m & more & L & G).
  exists m, more. rewrite <- uart_gotten. auto.
Qed.
End Uart.

Section Link.
Context (HP : prompt C h) (calls : nat -> operation V) (states : nat -> St) (results : nat -> split_report V E).
Context (run : endless (split_perform F V C) calls states results) (typed : forall n, typed_operation F (calls n)) (start : possible h (states 0%nat)).
Let ok := consumed_received _ _ (prompt_contract _ _ HP) (states 0%nat) start.
Lemma link_gotten n : gotten (link_gets V) calls results n = split_received (until calls results n).
Proof. unfold gotten, split_received. apply flat_map_ext. intros [o [r|r]]; reflexivity. Qed.
Lemma link_by n m ps rest : Forall event_packet ps ->
  pending h (states 0%nat) (states n) = concat ps ++ rest -> (n <= m)%nat ->
  (length ps <= length (split_received (until calls results n)) + times split_read_went results n m)%nat ->
  exists more, split_received (until calls results m) = map (link_result F V) ps ++ more.
Proof.
  rewrite <- !link_gotten. replace (concat ps) with (flat_map (fun p : list N => p) ps) by now rewrite flat_map_concat_map, map_id.
  exact (read_by (split_perform F V C) h (typed_operation F) event_packet (fun p => p) (link_result F V) (link_gets V) split_read_went
    event_packets_apart (link_one_call F V C h HP) calls states results run typed start ok n m ps rest).
Qed.
Lemma link_some_day n ps rest : again_and_again (fun m => split_read_went (results m) = true) ->
  Forall event_packet ps -> pending h (states 0%nat) (states n) = concat ps ++ rest ->
  exists m more, (n <= m)%nat /\ split_received (until calls results m) = map (link_result F V) ps ++ more.
Proof.
  intros H Hp E1. replace (concat ps) with (flat_map (fun p : list N => p) ps) in E1 by now rewrite flat_map_concat_map, map_id.
  destruct (read_some_day (split_perform F V C) h (typed_operation F) event_packet (fun p => p) (link_result F V) (link_gets V) split_read_went
    event_packets_apart (link_one_call F V C h HP) calls states results run typed start ok n ps rest H Hp E1) as (m & more & L & G).
  exists m, more. rewrite <- link_gotten. auto.
Qed.
End Link.

Section Data.
Context (HB : buffering C h) (calls : nat -> data_operation V) (states : nat -> St) (results : nat -> @data_report V E).
Context (run : endless (data_perform F V C) calls states results) (typed : forall n, typed_data_operation F V (calls n)) (start : possible h (states 0%nat)).
Let ok := consumed_received _ _ (buffering_contract _ _ HB) (states 0%nat) start.
Lemma data_gotten n : gotten (data_gets V) calls results n = got V (until calls results n).
Proof. unfold gotten, got. apply flat_map_ext. intros [o [r|r|r]]; reflexivity. Qed.
Lemma data_by n m ps rest : Forall incoming_packet ps ->
  pending h (states 0%nat) (states n) = flat_map wire_bytes ps ++ rest -> (n <= m)%nat ->
  (length ps <= length (got V (until calls results n)) + times fetch_went results n m)%nat ->
  exists more, got V (until calls results m) = map (arrives_as F V) ps ++ more.
Proof.
  rewrite <- !data_gotten.
  exact (read_by (data_perform F V C) h (typed_data_operation F V) incoming_packet wire_bytes (arrives_as F V) (data_gets V) fetch_went
    wires_apart (data_one_call F V C h HB) calls states results run typed start ok n m ps rest).
Qed.
Lemma data_some_day n ps rest : again_and_again (fun m => calls m = Fetch) ->
  Forall incoming_packet ps -> pending h (states 0%nat) (states n) = flat_map wire_bytes ps ++ rest ->
  exists m more, (n <= m)%nat /\ got V (until calls results m) = map (arrives_as F V) ps ++ more.
Proof.
  intros H Hp E1.
  destruct (read_some_day (data_perform F V C) h (typed_data_operation F V) incoming_packet wire_bytes (arrives_as F V) (data_gets V) fetch_went
    wires_apart (data_one_call F V C h HB) calls states results run typed start ok n ps rest) as (m & more & L & G); [|exact Hp|exact E1|].
  - intros k. destruct (H k) as (m & L & X). exists m. split; [exact L|]. pose proof (run m) as R. rewrite X in R. cbn [data_perform] in R.
    destruct (read_any F V C (states m)) as [s1 a]. injection R as _ <-. reflexivity.
  - exists m, more. rewrite <- data_gotten. auto.
Qed.
End Data.
End Unread.

(** ** Runs with a device *)
Lemma parse_sound fuel : forall l ws, parse_packets_fuel fuel l = Some ws -> flat_map wire_bytes ws = l.
Proof.
  induction fuel as [|fuel IH]; intros [|t l] ws H; cbn [parse_packets_fuel] in H; try discriminate; try (now injection H as <-).
  destruct (body_length t l) as [n|]; [|discriminate]. destruct (Nat.leb n (length l)); [|discriminate].
  destruct (parse_packets_fuel fuel (skipn n l)) as [found|] eqn:Ef; [|discriminate]. injection H as <-.
  cbn [flat_map]. unfold wire_bytes at 1. cbn [fst snd app]. rewrite (IH _ _ Ef). f_equal. apply firstn_skipn.
Qed.
Lemma wires_length (ws : list (N * list N)) : (length ws <= length (flat_map wire_bytes ws))%nat.
Proof. induction ws as [|w ws IH]; [cbn; lia|]. cbn [flat_map wire_bytes app length]. rewrite app_length. lia. Qed.
(** Of two starts of a list one is a start of the other. *)
Lemma two_starts {A} (a b c d : list A) : a ++ b = c ++ d -> (exists m, c = a ++ m) \/ exists x m, a = c ++ x :: m.
Proof.
  revert c. induction a as [|x a IH]; intros c H; [left; now exists c|].
  destruct c as [|y c]; [right; now exists x, a|]. injection H as -> H.
  destruct (IH c H) as [[m ->]|(z & m & ->)]; [left; now exists m|right; now exists z, m].
Qed.

Section Turn.
Context (F : features) (V : vendor) {St E : Type} (C : controller St E) (h : history St) (HB : buffering C h).
Context (calls : nat -> data_operation V) (states : nat -> St) (results : nat -> @data_report V E).
Context (run : endless (data_perform F V C) calls states results) (typed : forall n, typed_data_operation F V (calls n)) (start : possible h (states 0%nat)).
Context (d : nat -> list device_step) (con : connected h states d).
Let HC : contract C h := buffering_contract _ _ HB.

Lemma later_history n m : (n <= m)%nat -> exists x, d m = d n ++ x.
Proof.
  induction 1 as [|m _ [x IH]]; [exists []; now rewrite app_nil_r|].
  destruct (device_grows _ _ _ con m) as [y ->]. exists (x ++ y). now rewrite IH, app_assoc.
Qed.
Lemma data_until n : data_session F V C (map calls (seq 0 n)) (states 0%nat) = (states n, until calls results n).
Proof. apply (until_session calls results (data_perform F V C) states); [reflexivity|reflexivity|exact run]. Qed.
Lemma typed_until n : Forall (typed_data_operation F V) (map calls (seq 0 n)).
Proof. apply Forall_forall. intros o I. apply in_map_iff in I. destruct I as (k & <- & _). apply typed. Qed.

(** Both streams, at any time. *)
Lemma streams_at n : Forall outgoing_packet (taken (d n)) -> Forall incoming_packet (sent_by (d n)) ->
  written h (states n) = written h (states 0%nat) ++ flat_map wire_bytes (put_out V (until calls results n))
  /\ (exists more, put_out V (until calls results n) = taken (d n) ++ more)
  /\ exists ws more, sent_by (d n) = ws ++ more /\ got V (until calls results n) = map (arrives_as F V) ws.
Proof.
  intros D1 D2. pose proof (data_session_spec F V C h HC _ _ (typed_until n) start) as K. rewrite data_until in K.
  destruct K as (_ & (out & W & P) & ws & Hws & _ & (rest & Hp) & _ & G).
  pose proof (parse_sound _ _ _ P) as <-. split; [exact W|]. split.
  - destruct (commands_on_the_way _ _ _ con n) as (r & W1). rewrite W in W1. apply app_inv_head in W1. rewrite W1 in P.
    apply (parse_start (taken (d n))) in P; [exact P|].
    eapply Forall_impl; [|exact D1]. intros w. apply outgoing_delimited.
  - destruct (events_on_the_way _ _ _ con n) as (r & W2). rewrite Hp, <- app_assoc in W2.
    destruct (stream_start ws) with (vs := sent_by (d n)) (rest := rest ++ r) as (m & M & _).
    { eapply Forall_impl; [|exact Hws]. intros w. apply incoming_delimited. }
    { eapply Forall_impl; [|exact D2]. intros w. apply incoming_delimited. }
    { exact W2. }
    exists ws, m. split; [exact M|exact G].
Qed.

(** Commands and data that were sent by [n] have got there by [n1]. *)
Lemma there_by p n n1 more : (n <= n1)%nat -> (forall k, Forall outgoing_packet (taken (d k)) /\ Forall incoming_packet (sent_by (d k))) ->
  written h (states 0%nat) ++ flat_map wire_bytes (taken (d n1)) = written h (states n) ++ more ->
  how_many p (put_out V (until calls results n)) <= how_many p (taken (d n1)).
Proof.
  intros L1 D W1. destruct (streams_at n (proj1 (D n)) (proj2 (D n))) as (Wn & _).
  destruct (streams_at n1 (proj1 (D n1)) (proj2 (D n1))) as (_ & (o1 & O1) & _).
  destruct (until_le calls results n n1 L1) as [l Hl].
  assert (Q : put_out V (until calls results n1) = put_out V (until calls results n) ++ put_out V l).
  { rewrite Hl. unfold put_out. apply flat_map_app. }
  rewrite O1 in Q. destruct (two_starts _ _ _ _ (eq_sym Q)) as [[y Y]|(w & y & Y)].
  - rewrite Y, how_many_app. lia.
  - exfalso. apply (f_equal (@length N)) in W1. rewrite Wn, Y, flat_map_app, !app_length in W1. cbn [flat_map wire_bytes app length] in W1. lia.
Qed.
(** Either a method is called, or no more commands are sent. *)
Lemma called n m : (n <= m)%nat ->
  (exists k c, (n <= k < m)%nat /\ calls k = Order c)
  \/ commands_sent (until calls results m) = commands_sent (until calls results n).
Proof.
  induction 1 as [|m L [(k & c & Hk & Hc)|IH]]; [now right|left; exists k, c; split; [lia|exact Hc]|].
  destruct (calls m) as [c|w|] eqn:Ec; [left; exists m, c; split; [lia|exact Ec]| |]; right; rewrite <- IH, until_S, Ec;
    unfold commands_sent, put_out; rewrite flat_map_app, how_many_app; fold (put_out V (until calls results m));
    rewrite <- (N.add_0_r (how_many is_command (put_out V (until calls results m)))) at 2; f_equal;
    cbn [flat_map]; rewrite app_nil_r.
  pose proof (typed m) as T. rewrite Ec in T. destruct T as (a & b & x & _ & _ & _ & [[-> _]|[-> _]]);
      destruct (results m) as [r|[u|e|]|r]; reflexivity.
Qed.

(** ** The turn comes *)
Context (go : goes_on F h states d).
Lemma turn_comes_connected : (forall n, patient (until calls results n)) -> again_and_again (fun n => calls n = Fetch) ->
  again_and_again (fun n => may_send (until calls results n)).
Proof.
  intros Hpat Hreads n.
  destruct (commands_get_there _ _ _ con n) as (n1 & more1 & L1 & W1).
  destruct (answers_come _ _ _ _ go n1) as (n2 & L2 & A2).
  destruct (room_comes _ _ _ _ go n2) as (n3 & L3 & A3).
  destruct (events_get_there _ _ _ con n3) as (n4 & more4 & L4 & P4).
  pose proof (device_fair _ _ _ _ go n3) as D3.
  destruct (data_some_day F V C h HB calls states results run typed start n4 (sent_by (d n3)) more4 Hreads
    (proj1 (fair_packets F _ D3)) P4) as (m & more5 & L5 & G5).
  destruct (called n m) as [(k & c & Hk & Hc)|Same]; [lia| |].
  { exists k. split; [lia|]. apply (Hpat (S k) (until calls results k) c (results k) []). now rewrite until_S, Hc. }
  exists m. split; [lia|].
  destruct (later_history n1 n2 L2) as [x2 H2]. destruct (later_history n2 n3 L3) as [x3 H3].
  destruct (later_history n3 m) as [x4 H4]; [lia|].
  assert (D : forall k, Forall outgoing_packet (taken (d k)) /\ Forall incoming_packet (sent_by (d k))).
  { intros k. pose proof (device_fair _ _ _ _ go k) as Dk. split; [apply Dk|apply (fair_packets F _ Dk)]. }
  destruct (streams_at m (proj1 (D m)) (proj2 (D m))) as (_ & (o4 & O4) & ws & later & S4 & G4).
  (* all commands there are have got there by [n1] *)
  assert (B1 : commands_sent (until calls results n) <= how_many is_command (taken (d n1))).
  { exact (there_by is_command n n1 more1 L1 D W1). }
  assert (B4 : how_many is_command (taken (d m)) <= commands_sent (until calls results m)).
  { unfold commands_sent. rewrite O4, how_many_app. lia. }
  rewrite H4, H3, H2, !taken_app, !how_many_app in B4.
  pose proof (replies_bound F _ D3) as R3.
  assert (C3 : how_many is_command (taken (d n3)) = commands_sent (until calls results n)).
  { rewrite H3, H2, !taken_app, !how_many_app. lia. }
  assert (Q3 : how_many is_reply (sent_by (d n3)) = how_many is_command (taken (d n3))).
  { apply N.le_antisymm; [exact R3|]. rewrite C3. rewrite H3, sent_by_app, how_many_app. lia. }
  assert (Room : 0 < allowed (d n3)) by (destruct A3 as [A3|A3]; [lia|exact A3]).
  (* what was read has all that was sent by [n3] *)
  assert (S3 : exists y, ws = sent_by (d n3) ++ y).
  { rewrite H4, sent_by_app in S4. destruct (two_starts _ _ _ _ S4) as [Y|(w & y & Y)]; [exact Y|].
    exfalso. rewrite G4 in G5. apply (f_equal (@length _)) in G5. rewrite app_length, !map_length, Y, app_length in G5.
    cbn [length] in G5. lia. }
  destruct S3 as [y S3].
  pose proof (device_fair _ _ _ _ go m) as Dm.
  assert (Part : exists d', (exists z, d' = d n3 ++ z) /\ (exists z, d m = d' ++ z) /\ events_in (sent_by d') = events_in ws).
  { assert (X : events_in (sent_by (d m)) = events_in ws ++ events_in later) by (rewrite S4; apply events_in_app).
    destruct (sent_until (d m) _ _ X) as (d1 & d2 & E1 & E2). rewrite E1 in H4.
    destruct (two_starts _ _ _ _ (eq_sym H4)) as [[z Z]|(w & z & Z)].
    - exists d1. split; [now exists z|]. split; [now exists d2|exact E2].
    - exists (d n3). split; [exists []; now rewrite app_nil_r|]. split; [exists x4; now rewrite E1|].
      rewrite S3, events_in_app. rewrite S3, events_in_app, Z, sent_by_app, events_in_app in E2.
      assert (N0 : events_in y = []).
      { apply (f_equal (@length _)) in E2. rewrite !app_length in E2. destruct (events_in y); [reflexivity|cbn [length] in E2; lia]. }
      now rewrite N0, app_nil_r. }
  destruct Part as (d' & [z1 Z1] & [z2 Z2] & E').
  assert (D' : fair F d') by (apply (fair_before F d' z2); now rewrite <- Z2).
  assert (C' : how_many is_command (taken d') = commands_sent (until calls results n)).
  { assert (Y1 : how_many is_command (taken (d n3)) <= how_many is_command (taken d')) by (rewrite Z1, taken_app, how_many_app; lia).
    assert (Y2 : how_many is_command (taken d') <= how_many is_command (taken (d m))) by (rewrite Z2, taken_app, how_many_app; lia).
    assert (Y3 : how_many is_command (taken (d m)) <= commands_sent (until calls results m)) by (unfold commands_sent; rewrite O4, how_many_app; lia).
    lia. }
  assert (Q' : how_many is_reply (sent_by d') = how_many is_command (taken d')).
  { pose proof (replies_bound F _ D') as X. assert (Y1 : how_many is_reply (sent_by (d n3)) <= how_many is_reply (sent_by d')) by (rewrite Z1, sent_by_app, how_many_app; lia). lia. }
  rewrite Z1 in D'. pose proof (allowed_later F _ _ D') as A'. rewrite <- Z1 in A', D'.
  pose proof (allowed_exact F _ D' Q') as X'. rewrite E' in X'.
  destruct (fair_packets F d' D') as [_ P']. rewrite E' in P'.
  assert (U' : Forall (fun p => reserved_address_commands p = false) (events_in ws)).
  { rewrite <- E'. unfold events_in. apply Forall_forall. intros p I. apply in_map_iff in I. destruct I as (w & <- & I).
    apply filter_In in I. refine (proj1 (Forall_forall _ _) (device_usual _ _ _ _ go m) w _).
    rewrite Z2, sent_by_app. apply in_or_app. left. apply I. }
  unfold may_send, answers_read, last_number. rewrite Same.
  assert (Ev : events_got (until calls results m) = flat_map (one F V) (events_in ws)) by (unfold events_got; rewrite G4; apply events_are).
  rewrite Ev. fold (answers_in V (flat_map (one F V) (events_in ws))). rewrite (proj2 (answers_all F V _ P') U').
  rewrite <- E' at 1. rewrite <- how_many_replies, Q', C', N.sub_diag.
  rewrite (room_steps F V _ P').
  replace (filter (fun p => negb (reserved_address_commands p)) (events_in ws)) with (events_in ws).
  - rewrite <- X'. lia.
  - clear - U'. induction U' as [|p ps Hp _ IH]; [reflexivity|]. cbn [filter]. rewrite Hp. cbn [negb]. now rewrite <- IH.
Qed.
End Turn.
Lemma turn_comes F V {St E} (C : controller St E) h calls states results d : buffering C h ->
  endless (data_perform F V C) calls states results -> (forall n, typed_data_operation F V (calls n)) -> possible h (states 0%nat) ->
  goes_on F h states d ->
  (forall n, patient (until calls results n)) -> again_and_again (fun n => calls n = Fetch) ->
  again_and_again (fun n => may_send (until calls results n)).
Proof.
  intros HB R T S G. exact (turn_comes_connected F V C h HB calls states results R T S d (answers_connected _ _ _ _ G) G).
Qed.

(** ** A buffer comes *)
Section Buffer.
Context (F : features) (V : vendor) {St E : Type} (C : controller St E) (h : history St) (HB : buffering C h).
Context (calls : nat -> data_operation V) (states : nat -> St) (results : nat -> @data_report V E).
Context (run : endless (data_perform F V C) calls states results) (typed : forall n, typed_data_operation F V (calls n)) (start : possible h (states 0%nat)).
Context (size number : N) (d : nat -> list device_step) (go : frees F size number h states d).
Let con := buffers_connected _ _ _ _ _ _ go.

(** Either data are sent, or no more are sent. *)
Lemma transmits n m : (n <= m)%nat ->
  (exists k w, (n <= k < m)%nat /\ calls k = Transmit w /\ is_data w = true)
  \/ how_many is_data (put_out V (until calls results m)) = how_many is_data (put_out V (until calls results n)).
Proof.
  induction 1 as [|m L [(k & c & Hk & Hc)|IH]]; [now right|left; exists k, c; split; [lia|exact Hc]|].
  assert (Done : how_many is_data (put_out V [(calls m, results m)]) = 0 ->
    how_many is_data (put_out V (until calls results (S m))) = how_many is_data (put_out V (until calls results n))).
  { intros Z. rewrite <- IH, until_S. unfold put_out in *. rewrite flat_map_app, how_many_app, Z. apply N.add_0_r. }
  destruct (calls m) as [c|w|] eqn:Ec.
  - right. apply Done. unfold put_out. cbn [flat_map]. destruct (results m); try reflexivity. now destruct (succeeded r).
  - destruct (is_data w) eqn:Hw; [left; exists m, w; split; [lia|split; [exact Ec|exact Hw]]|].
    right. apply Done. unfold put_out, how_many. cbn [flat_map]. destruct (results m) as [r|[u|e|]|r]; try reflexivity.
    cbn [app filter]. now rewrite Hw.
  - right. apply Done. unfold put_out. cbn [flat_map]. now destruct (results m).
Qed.

Lemma limits_stay n m : (n <= m)%nat -> limits (until calls results n) <> None -> limits (until calls results m) <> None.
Proof.
  intros L H. destruct (until_le calls results n m L) as [l ->]. unfold limits in *. rewrite events_got_app, flat_map_app, fold_left_app.
  revert H. generalize (fold_left (fun o f => match f with Buffers a b => Some (a, b) | _ => o end) (flat_map noted (events_got (until calls results n))) None).
  induction (flat_map noted (events_got l)) as [|f fs IH]; intros o Ho; cbn [fold_left]; [exact Ho|]. apply IH. now destruct f.
Qed.

Lemma buffer_comes_back : (forall n, careful (until calls results n)) -> again_and_again (fun n => calls n = Fetch) ->
  (exists n, limits (until calls results n) <> None) -> again_and_again (fun n => may_transmit (until calls results n)).
Proof.
  intros Hcare Hreads [n0 Hlim] n'. set (n := Nat.max n' n0).
  destruct (commands_get_there _ _ _ con n) as (n1 & more1 & L1 & W1).
  destruct (buffer_comes _ _ _ _ _ _ go n1) as (n2 & L2 & A2).
  destruct (events_get_there _ _ _ con n2) as (n3 & more3 & L3 & P3).
  pose proof (device_honest _ _ _ _ _ _ go) as Hd.
  destruct (data_some_day F V C h HB calls states results run typed start n3 (sent_by (d n2)) more3 Hreads
    (proj1 (device_packets F size number _ (Hd n2))) P3) as (m & more4 & L4 & G4).
  destruct (transmits n m) as [(k & w & Hk & Hc & Hw)|Same]; [lia| |].
  { exists k. split; [lia|]. destruct (Hcare (S k) (until calls results k) w (results k) []) as (out & a & b & H1 & H2 & H3 & _);
      [now rewrite until_S, Hc|exact Hw|]. now exists out, a, b. }
  exists m. split; [lia|].
  assert (D : forall k, Forall outgoing_packet (taken (d k)) /\ Forall incoming_packet (sent_by (d k))).
  { intros k. split; [apply Hd|apply (device_packets F size number _ (Hd k))]. }
  pose proof (there_by F V C h HB calls states results run typed start d con is_data n n1 more1 L1 D W1) as B1.
  destruct (streams_at F V C h HB calls states results run typed start d con m (proj1 (D m)) (proj2 (D m))) as (_ & (o4 & O4) & ws & later & S4 & Gm).
  destruct (later_history h states d con n1 n2 L2) as [x2 H2].
  destruct (later_history h states d con n2 m) as [x4 H4]; [lia|].
  assert (B4 : how_many is_data (taken (d n2)) + how_many is_data (taken x4) <= how_many is_data (put_out V (until calls results n))).
  { rewrite <- Same, O4, H4, taken_app, !how_many_app. lia. }
  assert (Room : N.of_nat (length (held (memory_after (d n2)))) < number).
  { destruct A2 as [A2|A2]; [lia|exact A2]. }
  assert (S2 : exists y, ws = sent_by (d n2) ++ y).
  { rewrite H4, sent_by_app in S4. destruct (two_starts _ _ _ _ S4) as [Y|(w & y & Y)]; [exact Y|].
    exfalso. rewrite Gm in G4. apply (f_equal (@length _)) in G4. rewrite app_length, !map_length, Y, app_length in G4.
    cbn [length] in G4. lia. }
  destruct S2 as [y S2].
  assert (Ev : events_got (until calls results m) = flat_map (one F V) (events_in ws)) by (unfold events_got; rewrite Gm; apply events_are).
  destruct (device_packets F size number _ (Hd m)) as (_ & D2 & D3). rewrite S4, events_in_app in D2, D3.
  apply Forall_app in D2. destruct D2 as [D2 _].
  destruct (pairs_exist F V _ D2) as [ls Hls]. rewrite <- Ev in Hls.
  assert (HO : outstanding (until calls results m) _) by (exists ls; split; [exact Hls|reflexivity]).
  match type of HO with outstanding _ ?o => set (out := o) in * end.
  destruct (limits (until calls results m)) as [[a b]|] eqn:El.
  2:{ exfalso. refine (limits_stay n m _ (limits_stay n0 n _ Hlim) El); lia. }
  assert (b = number) as ->.
  { refine (proj2 (limits_are size number _ a b _ El)). intros x z I.
    rewrite Ev, (facts_steps F V _ D2) in I. apply D3. rewrite flat_map_app. apply in_or_app. now left. }
  exists out, a, number. split; [exact HO|]. split; [exact El|].
  enough (Le : (length out <= length (held (memory_after (d n2))))%nat) by lia.
  (* no data are on the way *)
  assert (Same_data : handles_in (put_out V (until calls results m)) = handles_in (taken (d n2))).
  { unfold handles_in. f_equal. rewrite O4, H4, taken_app, !filter_app. 
    assert (Z : how_many is_data (taken x4) + how_many is_data o4 = 0).
    { assert (T : how_many is_data (taken (d n1)) <= how_many is_data (taken (d n2))) by (rewrite H2, taken_app, how_many_app; lia).
      rewrite O4, H4, taken_app, !how_many_app in Same. lia. }
    unfold how_many in Z. destruct (filter is_data (taken x4)); [|cbn [length] in Z; lia].
    destruct (filter is_data o4); [|cbn [length] in Z; lia]. now rewrite !app_nil_r. }
  destruct (outstanding_counts _ _ HO) as (ls' & K2 & Hc). rewrite Ev in K2.
  apply length_counts. intros c. rewrite Hc, Ev, (facts_steps F V _ D2), gone_all, (pairs_completed F V _ D2 ls' K2 c).
  unfold data_sent. fold (handles_in (put_out V (until calls results m))). rewrite Same_data.
  destruct (device_counts F size number (d n2) (Hd n2) c) as (E1 & E2 & E3).
  rewrite S2, events_in_app, existsb_app, <- E1, map_app, total_app.
  destruct (existsb (N.eqb c) (ended (memory_after (d n2)))); cbn [orb]; [lia|].
  specialize (E3 eq_refl). destruct (existsb (says_gone c) (events_in y)); lia.
Qed.
End Buffer.

(** ** Examples *)
Lemma endless_of {St O R} (call : O -> St -> St * R) calls s :
  endless call calls (states_of call calls s) (results_of call calls s).
Proof. intros n. cbn [states_of]. unfold results_of. now destruct (call (calls n) _). Qed.
Lemma stays {St O R} (call : O -> St -> St * R) calls s k v o r :
  states_of call calls s k = v -> (forall n, (k <= n)%nat -> calls n = o) -> call o v = (v, r) ->
  forall n, (k <= n)%nat -> states_of call calls s n = v /\ results_of call calls s n = r.
Proof.
  intros Hk Ho Hc n L. assert (Hs : states_of call calls s n = v).
  { induction L as [|n L IH]; [exact Hk|]. cbn [states_of]. rewrite IH, (Ho n L), Hc. reflexivity. }
  split; [exact Hs|]. unfold results_of. now rewrite Hs, (Ho n L), Hc.
Qed.
Lemma buffering_prompt {St E} (C : controller St E) h : buffering C h -> prompt C h.
Proof.
  intros HB. split; [exact (buffering_contract _ _ HB)|..].
  - intros s n Hs. pose proof (peek_ready _ _ HB s n Hs) as K. destruct (ctl_peek C s n) as [s' r].
    intros L. rewrite (proj2 (Nat.ltb_lt _ _) L) in K. destruct K as [b ->]. discriminate.
  - intros s buf Hs. pose proof (read_ready _ _ HB s buf Hs) as K. destruct (ctl_read_into C s buf) as [s' r].
    intros L. rewrite (proj2 (Nat.leb_le _ _) L) in K. destruct K as [b ->]. discriminate.
Qed.
Lemma shaky_prompt : prompt shaky_controller shaky_history.
Proof.
  pose proof (buffering_prompt _ _ queue_buffering) as HQ. pose proof (prompt_contract _ _ HQ) as HC.
  split; [split|..].
  - intros [f s] Hs. exact (received_bytes _ _ HC s Hs).
  - intros [f s] Hs. exact (consumed_received _ _ HC s Hs).
  - intros [f s] n Hs. pose proof (peek_contract _ _ HC s n Hs) as K. cbn [ctl_peek shaky_controller]. unfold shaken.
    destruct f as [|[] f]; try (destruct (ctl_peek queue_controller s n) as [s' r]; exact K).
    repeat split; try exact (arrives_refl queue_history s); apply Hs.
  - intros [f s] buf Hs. pose proof (read_contract _ _ HC s buf Hs) as K. cbn [ctl_read_into shaky_controller]. unfold shaken.
    destruct f as [|[] f]; try (destruct (ctl_read_into queue_controller s buf) as [s' r]; exact K).
    repeat split; try exact (arrives_refl queue_history s); apply Hs.
  - intros [f s] hd p Hs. pose proof (write_contract _ _ HC s hd p Hs) as K. cbn [ctl_write shaky_controller fst snd].
    destruct (ctl_write queue_controller s hd p) as [s' r]. exact K.
  - intros [f s] n Hs. pose proof (peek_prompt _ _ HQ s n Hs) as K. cbn [ctl_peek shaky_controller]. unfold shaken.
    destruct f as [|[] f]; try (destruct (ctl_peek queue_controller s n) as [s' r]; exact K). discriminate.
  - intros [f s] buf Hs. pose proof (read_prompt _ _ HQ s buf Hs) as K. cbn [ctl_read_into shaky_controller]. unfold shaken.
    destruct f as [|[] f]; try (destruct (ctl_read_into queue_controller s buf) as [s' r]; exact K). discriminate.
Qed.
Lemma answering_buffering answer : (forall l, bytes (answer l)) -> buffering (answering_controller answer) queue_history.
Proof.
  intros HA. destruct queue_buffering as [HC H1 H2]. destruct HC as [C1 C2 C3 C4 C5].
  split; [split|..]; try assumption.
  intros s hd p (P1 & P2 & P3). cbn. repeat split; cbn; try assumption.
  - now apply bytes_app.
  - rewrite app_length. lia.
  - now eexists.
Qed.
Lemma until_at {O R} (calls : nat -> O) (rs : nat -> R) n before x after : until calls rs n = before ++ x :: after ->
  before = until calls rs (length before) /\ x = (calls (length before), rs (length before)).
Proof.
  revert after. induction n as [|n IH]; intros after H; [now destruct before|].
  rewrite until_S in H. destruct (two_starts _ _ _ _ H) as [[m ->]|(y & m & E1)].
  - rewrite <- app_assoc in H. apply app_inv_head in H. destruct m as [|z m]; [|injection H; now destruct m].
    injection H as <- _. rewrite app_nil_r. unfold until. rewrite map_length, seq_length. auto.
  - rewrite E1, <- app_assoc in H. apply app_inv_head in H. injection H as -> _. exact (IH _ E1).
Qed.
Lemma even_double k : Nat.even (k + k) = true.
Proof. replace (k + k)%nat with (2 * k)%nat by lia. rewrite Nat.even_spec. now exists k. Qed.
Lemma even_next k : Nat.even (S (k + k)) = false.
Proof. rewrite Nat.even_succ, <- Nat.negb_even, even_double. reflexivity. Qed.
Lemma half_double k : Nat.div2 (k + k) = k.
Proof. replace (k + k)%nat with (2 * k)%nat by lia. apply Nat.div2_double. Qed.
Lemma half_next k : Nat.div2 (S (k + k)) = k.
Proof. replace (S (k + k)) with (S (2 * k)) by lia. apply Nat.div2_succ_double. Qed.
Lemma half n : exists k, n = (k + k)%nat \/ n = S (k + k).
Proof. induction n as [|n [k [->| ->]]]; [exists 0%nat; auto|exists k; auto|exists (S k); left; lia]. Qed.

Section Answered.
Context (packets : nat -> N * list N) (answers : nat -> list N).
Let dev := answered packets answers.
Lemma answered_S k : sent_by (dev (S k)) = sent_by (dev k) ++ [(0x04, answers k)]
  /\ taken (dev (S k)) = taken (dev k) ++ [packets k].
Proof. unfold dev. cbn [answered]. now rewrite sent_by_app, taken_app. Qed.
Lemma answered_at k : forall before w after, dev k = before ++ Sends w :: after ->
  exists j, (j < k)%nat /\ before = dev j ++ [Takes (packets j)] /\ w = (0x04, answers j).
Proof.
  unfold dev. induction k as [|k IH]; intros before w after H; cbn [answered] in H; [now destruct before|].
  destruct (two_starts _ _ _ _ H) as [[m ->]|(x & m & E1)].
  - exists k. split; [lia|]. rewrite <- app_assoc in H. apply app_inv_head in H.
    destruct m as [|x m]; [discriminate H|]. injection H as <- H. destruct m as [|y m]; [injection H as <- _; auto|].
    injection H as _ H. now destruct m.
  - rewrite E1, <- app_assoc in H. apply app_inv_head in H. injection H as -> _. destruct (IH _ _ _ E1) as (j & L & K). exists j. split; [lia|exact K].
Qed.
Lemma answered_taken k : (forall j, outgoing_packet (packets j)) -> Forall outgoing_packet (taken (dev k)).
Proof.
  intros H. induction k as [|k IH]; [constructor|]. rewrite (proj2 (answered_S k)). apply Forall_app. split; [exact IH|]. constructor; [apply H|constructor].
Qed.
End Answered.

Section InTurn.
Context (V : vendor) (answer : list N -> list N) (writes : nat -> data_operation V) (reports : nat -> @data_report V N)
  (packets : nat -> N * list N) (answers : nat -> list N).
Let C := answering_controller answer.
Definition with_answer (p : list N) (l : list N) (used : nat) (w : list N) : queue :=
  {| q_received := l ++ uart_frame p; q_consumed := length l + used; q_arrivals := []; q_written := w; q_ready := [] |}.
Context (write_step : forall k s, data_perform F41 V C (writes k) s
  = ({| q_received := q_received s ++ uart_frame (answers k); q_consumed := q_consumed s; q_arrivals := q_arrivals s;
        q_written := q_written s ++ wire_bytes (packets k); q_ready := q_ready s |}, reports k))
  (read_step : forall k l w, read_any F41 V C (with_answer (answers k) l 0 w)
    = (with_answer (answers k) l (length (uart_frame (answers k))) w, Some (arrives_as F41 V (0x04, answers k)))).
Let calls := in_turn writes.
Let states := states_of (data_perform F41 V C) calls empty_queue.
Let results := results_of (data_perform F41 V C) calls empty_queue.
Let dev := answered packets answers.
Definition after_answers (k : nat) : queue :=
  {| q_received := flat_map wire_bytes (sent_by (dev k)); q_consumed := length (flat_map wire_bytes (sent_by (dev k))); q_arrivals := [];
     q_written := flat_map wire_bytes (taken (dev k)); q_ready := [] |}.
Lemma calls_are k : calls (k + k)%nat = writes k /\ calls (S (k + k)) = Fetch.
Proof. unfold calls, in_turn. now rewrite even_double, even_next, half_double. Qed.
Lemma fetch_step k : data_perform F41 V C Fetch
    {| q_received := q_received (after_answers k) ++ uart_frame (answers k); q_consumed := q_consumed (after_answers k); q_arrivals := q_arrivals (after_answers k);
       q_written := q_written (after_answers k) ++ wire_bytes (packets k); q_ready := q_ready (after_answers k) |}
    = (after_answers (S k), Fetched (Some (arrives_as F41 V (0x04, answers k)))).
Proof.
  cbn [data_perform]. pose proof (read_step k (flat_map wire_bytes (sent_by (dev k))) (flat_map wire_bytes (taken (dev k)) ++ wire_bytes (packets k))) as X.
  unfold with_answer in X. rewrite Nat.add_0_r in X. unfold after_answers at 1 2 3 4 5. cbn [q_received q_consumed q_arrivals q_written q_ready].
  rewrite X. unfold after_answers. destruct (answered_S packets answers k) as [E1 E2]; fold dev in E1, E2; rewrite E1, E2; clear E1 E2. rewrite !flat_map_app, app_length. cbn [flat_map]. now rewrite !app_nil_r.
Qed.
Lemma states_even k : states (k + k)%nat = after_answers k.
Proof.
  induction k as [|k IH]; [reflexivity|]. replace (S k + S k)%nat with (S (S (k + k))) by lia.
  unfold states in *. cbn [states_of]. rewrite IH. destruct (calls_are k) as [-> ->]. rewrite write_step. cbn [fst]. now rewrite fetch_step.
Qed.
Lemma states_odd k : exists c, states (S (k + k)) =
  {| q_received := q_received (after_answers (S k)); q_consumed := c; q_arrivals := []; q_written := q_written (after_answers (S k)); q_ready := [] |}.
Proof.
  pose proof (states_even k) as IH. unfold states in *. cbn [states_of]. rewrite IH, (proj1 (calls_are k)), write_step.
  cbn [fst]. eexists. unfold after_answers. cbn [q_received q_consumed q_arrivals q_written q_ready]. destruct (answered_S packets answers k) as [E1 E2]; fold dev in E1, E2; rewrite E1, E2; clear E1 E2.
  rewrite !flat_map_app. cbn [flat_map]. now rewrite !app_nil_r.
Qed.
Lemma results_are k : results (k + k)%nat = reports k /\ results (S (k + k)) = Fetched (Some (arrives_as F41 V (0x04, answers k))).
Proof.
  pose proof (states_even k) as IH. unfold states, results, results_of in *. cbn [states_of]. rewrite IH.
  destruct (calls_are k) as [-> ->]. rewrite write_step. cbn [fst snd]. now rewrite fetch_step.
Qed.
Lemma log_S k : until calls results (S k + S k)
  = until calls results (k + k) ++ [(writes k, reports k); (Fetch, Fetched (Some (arrives_as F41 V (0x04, answers k))))].
Proof.
  replace (S k + S k)%nat with (S (S (k + k))) by lia. rewrite !until_S, <- app_assoc.
  destruct (calls_are k) as [-> ->], (results_are k) as [-> ->]. reflexivity.
Qed.
Lemma device_there n : written queue_history (states n) = flat_map wire_bytes (taken (dev (Nat.div2 (S n))))
  /\ received queue_history (states n) = flat_map wire_bytes (sent_by (dev (Nat.div2 (S n)))).
Proof.
  destruct (half n) as [k [->| ->]].
  - rewrite half_next, states_even. split; reflexivity.
  - replace (S (S (k + k))) with (S k + S k)%nat by lia. rewrite half_double. destruct (states_odd k) as [c ->]. split; reflexivity.
Qed.
Lemma in_turn_connected : connected queue_history states (fun n => dev (Nat.div2 (S n))).
Proof.
  split.
  - intros n. destruct (half n) as [k [->| ->]].
    + rewrite half_next. replace (S (S (k + k))) with (S k + S k)%nat by lia. rewrite half_double. now eexists.
    + replace (S (S (S (k + k)))) with (S (S k + S k)) by lia. replace (S (S (k + k))) with (S k + S k)%nat by lia.
      rewrite half_next, half_double. exists []. now rewrite app_nil_r.
  - intros n. exists []. rewrite (proj1 (device_there n)). rewrite app_nil_r. reflexivity.
  - intros n. exists []. unfold pending. rewrite (proj2 (device_there n)), app_nil_r. reflexivity.
  - intros n. exists n, []. split; [lia|]. now rewrite (proj1 (device_there n)), app_nil_r.
  - intros n. exists n, []. split; [lia|]. unfold pending. now rewrite (proj2 (device_there n)), app_nil_r.
Qed.
Lemma in_turn_reads : again_and_again (fun n => calls n = Fetch).
Proof. intros n. exists (S (n + n)). split; [lia|apply calls_are]. Qed.
Lemma write_at n before o r after : until calls results n = before ++ (o, r) :: after -> o <> Fetch ->
  exists k, o = writes k /\ before = until calls results (k + k).
Proof.
  intros H Ho. destruct (until_at _ _ _ _ _ _ H) as [E1 E2]. injection E2 as E2 _.
  destruct (half (length before)) as [k [Hk|Hk]]; rewrite Hk in E1, E2.
  - exists k. rewrite (proj1 (calls_are k)) in E2. auto.
  - rewrite (proj2 (calls_are k)) in E2. contradiction.
Qed.
End InTurn.

(** Reads of a given answer. *)
Lemma read_answer V answer p l w : event_packet p ->
  read_any F41 V (answering_controller answer) (with_answer p l 0 w)
  = (with_answer p l (length (uart_frame p)) w, Some (arrives_as F41 V (0x04, p))).
Proof.
  intros (code & params & -> & _ & _ & L). set (p := framed code params). set (s := with_answer p l 0 w).
  set (C := answering_controller answer).
  assert (P : q_pending s = uart_frame p).
  { unfold q_pending, s, with_answer. cbn [q_consumed q_received]. rewrite Nat.add_0_r. now apply skipn_all_app. }
  assert (K : forall n, ctl_peek C s n = (s, match nth_error (uart_frame p) n with Some b => Ok b | None => Err WouldBlock end))
    by (intros n; rewrite <- P; reflexivity).
  assert (LP : length (uart_frame p) = (3 + length params)%nat) by reflexivity.
  assert (R : forall buf, length buf = length (uart_frame p) -> ctl_read_into C s buf = (q_take (length (uart_frame p)) s, Ok (uart_frame p))).
  { intros buf Lb. cbn [ctl_read_into C answering_controller queue_controller]. change (q_arrive s) with s.
    rewrite Lb, P, Nat.leb_refl, firstn_all. reflexivity. }
  assert (T : q_take (length (uart_frame p)) s = with_answer p l (length (uart_frame p)) w).
  { unfold q_take, s, with_answer. cbn [q_received q_consumed q_arrivals q_written q_ready]. now rewrite Nat.add_0_r. }
  rewrite <- T. unfold read_any, uart_read, uart_read_event, read_into_prefix, abind, amap_err, pure.
  rewrite (K 0%nat). cbn [nth_error uart_frame map_err]. change (4 =? 4) with true. cbv beta iota.
  rewrite (K 2%nat). unfold p at 1. cbn [nth_error uart_frame framed map_err]. rewrite Nat2N.id.
  assert (Z : @slice (nb_error N) (zeros (255 + 3)) 0 (3 + length params) = Ok (zeros (3 + length params))).
  { unfold slice, zeros. rewrite repeat_length.
    replace (Nat.leb 0 (3 + length params) && Nat.leb (3 + length params) (255 + 3))%bool with true
      by (symmetry; apply andb_true_intro; split; apply Nat.leb_le; lia).
    cbn [skipn]. rewrite Nat.sub_0_r. f_equal. replace (255 + 3)%nat with ((3 + length params) + (255 - length params))%nat by lia.
    rewrite repeat_app, firstn_app, repeat_length, Nat.sub_diag, firstn_all2 by (rewrite repeat_length; lia). cbn [firstn]. apply app_nil_r. }
  rewrite Z. cbv beta iota. rewrite (R (zeros (3 + length params))) by (unfold zeros; now rewrite repeat_length). cbn [map_err].
  change (uart_frame p ++ _) with ([4] ++ p ++ skipn (3 + length params) (zeros (255 + 3))). rewrite (slice_mid [4] p _ 1 (3 + length params)) by reflexivity. cbv beta iota.
  unfold arrives_as. cbn [fst snd]. change (4 =? 4) with true. cbv iota. unfold uart_result.
  destruct (event_new F41 V p); reflexivity.
Qed.

(** *** Resets *)
Section Resets.
Context (V : vendor).
Let results := results_of (data_perform F41 V reset_controller) reset_calls empty_queue.
Let dev := answered (fun _ => reset_packet) (fun _ => reset_answer).
Lemma reset_answer_ok : conforming_packet F41 reset_answer.
Proof. apply (return_checked F41 1 (hci_opcode 0x03 0x003) [0]); vm_compute; reflexivity. Qed.
Lemma reset_write (k : nat) s : data_perform F41 V reset_controller (Order CReset) s
  = ({| q_received := q_received s ++ uart_frame reset_answer; q_consumed := q_consumed s; q_arrivals := q_arrivals s;
        q_written := q_written s ++ wire_bytes reset_packet; q_ready := q_ready s |}, Ordered (Plain (Ok tt))).
Proof. vm_compute. reflexivity. Qed.
Lemma reset_read (k : nat) l w : read_any F41 V reset_controller (with_answer reset_answer l 0 w)
  = (with_answer reset_answer l (length (uart_frame reset_answer)) w, Some (arrives_as F41 V (0x04, reset_answer))).
Proof. apply read_answer. exact (conforming_event_packet F41 _ reset_answer_ok). Qed.
Lemma resets_count k : how_many is_reply (sent_by (dev k)) = N.of_nat k /\ how_many is_command (taken (dev k)) = N.of_nat k
  /\ allowed (dev k) = 1.
Proof.
  induction k as [|k (I1 & I2 & I3)]; [repeat split|]. destruct (answered_S (fun _ => reset_packet) (fun _ => reset_answer) k) as [E1 E2].
  unfold dev in *. rewrite E1, E2, !how_many_app, I1, I2.
  split; [change (how_many is_reply _) with 1; lia|]. split; [change (how_many is_command _) with 1; lia|].
  cbn [answered]. unfold allowed in *. rewrite fold_left_app, I3. reflexivity.
Qed.
Lemma resets_fair k : fair F41 (dev k).
Proof.
  split.
  - apply answered_taken. intros _. right. exists 0x03, 0x0C, []. split; reflexivity.
  - intros before w after H. destruct (answered_at _ _ _ _ _ _ H) as (j & _ & -> & ->).
    destruct (resets_count j) as (J1 & J2 & J3). unfold dev in *.
    split; [left; split; [reflexivity|exact (conforming_event_packet F41 _ reset_answer_ok)]|]. split; [intros _; exact reset_answer_ok|]. split.
    + intros _. rewrite sent_by_app, taken_app, !how_many_app, J1, J2. change (how_many is_command _) with 1. change (how_many is_reply _) with 0. lia.
    + unfold allowed in *. rewrite !fold_left_app, J3. vm_compute. discriminate.
Qed.
Lemma resets_go_on : goes_on F41 queue_history (states_of (data_perform F41 V reset_controller) reset_calls empty_queue) reset_device.
Proof.
  split.
  - exact (in_turn_connected V _ _ _ _ _ reset_write reset_read).
  - intros n. apply resets_fair.
  - intros n. unfold reset_device. induction (Nat.div2 (S n)) as [|k IH]; [constructor|]. rewrite (proj1 (answered_S _ _ k)).
    apply Forall_app. split; [exact IH|]. repeat constructor.
  - intros n. exists n. split; [lia|]. unfold reset_device. destruct (resets_count (Nat.div2 (S n))) as (E1 & E2 & _). unfold dev in *. lia.
  - intros n. exists n. split; [lia|]. right. unfold reset_device. destruct (resets_count (Nat.div2 (S n))) as (_ & _ & E3). unfold dev in *. lia.
Qed.
Lemma reset_log k : commands_sent (until (@reset_calls V) results (k + k)) = N.of_nat k
  /\ answers_read (until (@reset_calls V) results (k + k)) = N.of_nat k
  /\ last_number (until (@reset_calls V) results (k + k)) = 1.
Proof.
  induction k as [|k (I1 & I2 & I3)]; [repeat split|].
  pose proof (log_S V _ _ _ _ _ reset_write reset_read k) as X.
  change (until (@reset_calls V) results (S k + S k) = until (@reset_calls V) results (k + k)
    ++ [(Order CReset, Ordered (Plain (Ok tt))); (Fetch, Fetched (Some (arrives_as F41 V (0x04, reset_answer))))]) in X.
  rewrite X. set (log := until (@reset_calls V) results (k + k)) in *.
  unfold commands_sent, answers_read, last_number in *. rewrite events_got_app. unfold put_out in *. rewrite flat_map_app, how_many_app, I1.
  rewrite filter_app, app_length, fold_left_app, I3. split; [change (how_many is_command _) with 1; lia|]. split.
  - rewrite Nat2N.inj_add, I2. change (N.of_nat k + 1 = N.of_nat (S k)). lia.
  - reflexivity.
Qed.
Lemma reset_patient n : patient (until (@reset_calls V) results n).
Proof.
  intros before c r after H.
  destruct (write_at V (fun _ => uart_frame reset_answer) (fun _ => Order CReset) n before _ r after H) as (k & _ & ->); [discriminate|].
  change (commands_sent (until (@reset_calls V) results (k + k)) - answers_read (until (@reset_calls V) results (k + k)) < last_number (until (@reset_calls V) results (k + k))).
  destruct (reset_log k) as (-> & -> & ->). lia.
Qed.
End Resets.

(** *** One buffer *)
Section OneBuffer.
Context (V : vendor).
Let results := results_of (data_perform F41 V one_buffer_controller) one_buffer_calls empty_queue.
Let dev := answered one_buffer_packet one_buffer_answer.
Definition one_buffer_reports (k : nat) : @data_report V N :=
  match k with O => Ordered (Plain (Ok tt)) | S _ => Transmitted (Ok tt) end.
Lemma one_buffer_ok k : conforming_packet F41 (one_buffer_answer k).
Proof.
  destruct k as [|k].
  - apply (return_checked F41 1 (hci_opcode 0x08 0x002) [0; 27; 0; 1]); vm_compute; reflexivity.
  - exists 0x13, [1; 0x40; 0; 1; 0]. split; [reflexivity|].
    apply (conforming_completed F41 [Build_completed_packets_pair 0x40 1]);
      [cbn; lia|repeat (constructor; [split; [cbn; lia|reflexivity]|]); constructor].
Qed.
Lemma one_buffer_write k s : data_perform F41 V one_buffer_controller (match k with O => Order CLeReadBufferSize | S _ => Transmit (one_buffer_packet k) end) s
  = ({| q_received := q_received s ++ uart_frame (one_buffer_answer k); q_consumed := q_consumed s; q_arrivals := q_arrivals s;
        q_written := q_written s ++ wire_bytes (one_buffer_packet k); q_ready := q_ready s |}, one_buffer_reports k).
Proof. destruct k as [|k]; vm_compute; reflexivity. Qed.
Lemma one_buffer_read k l w : read_any F41 V one_buffer_controller (with_answer (one_buffer_answer k) l 0 w)
  = (with_answer (one_buffer_answer k) l (length (uart_frame (one_buffer_answer k))) w, Some (arrives_as F41 V (0x04, one_buffer_answer k))).
Proof. apply read_answer. exact (conforming_event_packet F41 _ (one_buffer_ok k)). Qed.
Lemma one_buffer_memory k : memory_after (dev k) = {| held := []; ended := [] |}.
Proof.
  induction k as [|k IH]; [reflexivity|]. unfold dev, memory_after in *. cbn [answered]. rewrite fold_left_app, IH.
  destruct k; vm_compute; reflexivity.
Qed.
Lemma one_buffer_honest k : honest F41 27 1 (dev k).
Proof.
  split.
  - apply answered_taken. intros [|j]; [right; exists 0x02, 0x20, []; split; reflexivity|left].
    exists 0x40, 0, [7]. repeat split; [repeat constructor..|]. left. split; reflexivity.
  - intros before w after H. destruct (answered_at _ _ _ _ _ _ H) as (j & _ & -> & ->).
    split; [left; split; [reflexivity|exact (conforming_event_packet F41 _ (one_buffer_ok j))]|]. intros _. split; [exact (one_buffer_ok j)|].
    unfold memory_after. rewrite fold_left_app. pose proof (one_buffer_memory j) as M. unfold dev, memory_after in M. rewrite M.
    destruct j as [|j]; split.
    + intros c. vm_compute. discriminate.
    + intros a b I. vm_compute in I. destruct I as [I|[]]. injection I as <- <-. auto.
    + intros c. change (held _) with [0x40]. unfold one_buffer_answer. unfold packets_of. cbn [count_occ].
      rewrite completed_all. change (pairs_in _) with [(0x40, 1)]. unfold all_of. cbn. destruct (N.eq_dec 64 c) as [<-|Hc]; [vm_compute; discriminate|].
      rewrite (proj2 (N.eqb_neq 64 c)) by exact Hc. cbn. lia.
    + intros a b I. vm_compute in I. contradiction.
Qed.
Lemma one_buffer_frees : frees F41 27 1 queue_history (states_of (data_perform F41 V one_buffer_controller) one_buffer_calls empty_queue) one_buffer_device.
Proof.
  split.
  - exact (in_turn_connected V _ _ _ _ _ one_buffer_write one_buffer_read).
  - intros n. apply one_buffer_honest.
  - intros n. exists n. split; [lia|]. right. unfold one_buffer_device. pose proof (one_buffer_memory (Nat.div2 (S n))) as M. unfold dev in M. rewrite M. reflexivity.
Qed.
Lemma one_buffer_log k : exists ls, Forall2 pairs_read (events_got (until (@one_buffer_calls V) results (S k + S k))) ls
  /\ pairs_total 0x40 (concat ls) = N.of_nat k /\ data_sent (until (@one_buffer_calls V) results (S k + S k)) = repeat 0x40 k
  /\ flat_map noted (events_got (until (@one_buffer_calls V) results (S k + S k))) = [Buffers 27 1].
Proof.
  induction k as [|k (ls & I1 & I2 & I3 & I4)].
  - exists [[]]. set (x := until (@one_buffer_calls V) results (1 + 1)). let v := eval vm_compute in x in assert (R : x = v) by (vm_compute; reflexivity).
    rewrite R. repeat split. repeat constructor.
  - pose proof (log_S V _ _ _ _ _ one_buffer_write one_buffer_read (S k)) as X.
    change (until (@one_buffer_calls V) results (S (S k) + S (S k)) = until (@one_buffer_calls V) results (S k + S k)
      ++ [(Transmit (one_buffer_packet (S k)), Transmitted (Ok tt)); (Fetch, Fetched (Some (arrives_as F41 V (0x04, one_buffer_answer (S k)))))]) in X.
    rewrite X. set (log := until (@one_buffer_calls V) results (S k + S k)) in *.
    rewrite events_got_app, data_sent_app, I3, flat_map_app, I4.
    exists (ls ++ [[Build_completed_packets_pair 0x40 1]]). split; [|split; [|split]].
    + apply Forall2_app; [exact I1|]. cbn [events_got]. repeat constructor.
      repeat ((apply iterates_end; reflexivity) || (eapply iterates_next; [reflexivity|])).
    + rewrite concat_app, pairs_total_app, I2. change (N.of_nat k + 1 = N.of_nat (S k)). lia.
    + change (repeat 0x40 k ++ [0x40] = repeat 0x40 (S k)). symmetry. apply repeat_cons.
    + reflexivity.
Qed.
Lemma one_buffer_careful n : careful (until (@one_buffer_calls V) results n).
Proof.
  intros before w r after H Hw.
  destruct (write_at V (fun l => uart_frame (one_buffer_answer (if nth 0 l 0 =? 0x01 then O else 1%nat))) (fun k => match k with O => Order CLeReadBufferSize | S _ => Transmit (one_buffer_packet k) end) n before _ r after H) as (k & E1 & E2); [discriminate|].
  destruct k as [|k]; [discriminate E1|]. injection E1 as ->.
  change (before = until (@one_buffer_calls V) results (S k + S k)) in E2. subst before.
  destruct (one_buffer_log k) as (ls & L1 & L2 & L3 & L4). set (log := until (@one_buffer_calls V) results (S k + S k)) in *.
  assert (HO : outstanding log _) by (exists ls; split; [exact L1|reflexivity]).
  eexists _, 27, 1. split; [exact HO|]. split; [unfold limits; rewrite L4; reflexivity|]. split; [|vm_compute; discriminate].
  rewrite L4. cbn [fold_left].
  assert (Z : (length (fold_left (fun o p => without (N.to_nat (cpp_num_completed_packets p)) (cpp_conn_handle p) o) (concat ls) (data_sent log)) <= length (@nil N))%nat).
  { apply length_counts. intros c. rewrite settled, L3. destruct (N.eq_dec c 0x40) as [->|Hc].
    - rewrite L2. unfold packets_of. rewrite count_occ_repeat_eq by reflexivity. cbn. lia.
    - unfold packets_of. rewrite count_occ_repeat_neq by congruence. cbn. lia. }
  cbn [length] in Z. lia.
Qed.
End OneBuffer.
