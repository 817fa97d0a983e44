(** * What is read from any bytes, however they arrive (proofs). *)
From Verif Require Import Base Model_Types Model_EventBase Model_Event Model_Host
  Spec_Wire Spec_Errors Spec_Host Spec_Link Spec_Split Spec_Reading
  Proofs_Base Proofs_Link Proofs_Split.
Open Scope list_scope.
Open Scope N_scope.

(** ** Cutting *)
Lemma uart_front_frame p more : event_packet p -> uart_front (uart_frame p ++ more) = Whole p.
Proof. intros (code & params & -> & _). unfold uart_frame. cbn [app uart_front N.eqb Pos.eqb]. apply link_front_whole. Qed.
Lemma link_front_frame p more : event_packet p -> link_front (p ++ more) = Whole p.
Proof. intros (code & params & -> & _). apply link_front_whole. Qed.
Lemma packet_length p : event_packet p -> (2 <= length p)%nat.
Proof. intros (code & params & -> & _). unfold framed. cbn [length]. lia. Qed.

(** Whole fronts shorten the stream, so the length is fuel enough. *)
Lemma link_front_length l p : link_front l = Whole p -> (0 < length p <= length l)%nat /\ firstn (length p) l = p.
Proof.
  destruct l as [|c [|n l]]; try discriminate. cbn [link_front].
  destruct (Nat.leb_spec (N.to_nat n) (length l)) as [K|K]; [|discriminate].
  intros H. assert (Hp : p = c :: n :: firstn (N.to_nat n) l) by congruence. subst p. cbn [length].
  rewrite firstn_length_le by exact K. split; [lia|]. reflexivity.
Qed.
Lemma uart_front_length l p : uart_front l = Whole p -> (0 < length p /\ 1 + length p <= length l)%nat.
Proof.
  destruct l as [|t l]; [discriminate|]. cbn [uart_front]. destruct (t =? 4); [|discriminate].
  intros H. apply link_front_length in H. cbn [length]. lia.
Qed.
Lemma fuel_enough front_of extra :
  (forall l p, front_of l = Whole p -> (0 < length p /\ extra + length p <= length l)%nat) ->
  forall f1 f2 l, (length l <= f1)%nat -> (length l <= f2)%nat ->
  packets_from front_of extra f1 l = packets_from front_of extra f2 l.
Proof.
  intros HF. induction f1 as [|f1 IH]; intros f2 l H1 H2.
  - destruct f2 as [|f2]; [reflexivity|]. cbn [packets_from]. destruct (front_of l) as [| |p] eqn:E; try reflexivity.
    apply HF in E. lia.
  - destruct f2 as [|f2].
    + cbn [packets_from]. destruct (front_of l) as [| |p] eqn:E; try reflexivity. apply HF in E. lia.
    + cbn [packets_from]. destruct (front_of l) as [| |p] eqn:E; try reflexivity. apply HF in E. f_equal.
      apply IH; rewrite skipn_length; lia.
Qed.
Lemma uart_fuel f l : (length l <= f)%nat -> packets_from uart_front 1 f l = uart_packets_in l.
Proof. intros H. apply fuel_enough; [apply uart_front_length|exact H|lia]. Qed.
Lemma link_fuel f l : (length l <= f)%nat -> packets_from link_front 0 f l = link_packets_in l.
Proof.
  intros H. apply fuel_enough; [|exact H|lia]. intros l' p Hp. apply link_front_length in Hp. lia.
Qed.
Lemma uart_packets_step l : uart_packets_in l
  = match uart_front l with Whole p => p :: uart_packets_in (skipn (1 + length p) l) | _ => [] end.
Proof.
  unfold uart_packets_in at 1. destruct (length l) as [|f] eqn:El.
  - now destruct l.
  - cbn [packets_from]. destruct (uart_front l) as [| |p] eqn:E; try reflexivity. f_equal.
    apply uart_fuel. rewrite skipn_length. lia.
Qed.
Lemma link_packets_step l : link_packets_in l
  = match link_front l with Whole p => p :: link_packets_in (skipn (length p) l) | _ => [] end.
Proof.
  unfold link_packets_in at 1. destruct (length l) as [|f] eqn:El.
  - now destruct l.
  - cbn [packets_from]. destruct (link_front l) as [| |p] eqn:E; try reflexivity. f_equal.
    cbn [Nat.add]. apply link_fuel. apply link_front_length in E. rewrite skipn_length. lia.
Qed.
Lemma uart_packets_app ps more : Forall event_packet ps ->
  uart_packets_in (flat_map uart_frame ps ++ more) = ps ++ uart_packets_in more.
Proof.
  induction 1 as [|p ps Hp _ IH]; [reflexivity|]. cbn [flat_map]. rewrite <- app_assoc, uart_packets_step.
  rewrite uart_front_frame by exact Hp. cbn [app]. f_equal. rewrite <- IH. f_equal.
  change (1 + length p)%nat with (length (uart_frame p)). now apply skipn_all_app.
Qed.
Lemma link_packets_app ps more : Forall event_packet ps ->
  link_packets_in (concat ps ++ more) = ps ++ link_packets_in more.
Proof.
  induction 1 as [|p ps Hp _ IH]; [reflexivity|]. cbn [concat]. rewrite <- app_assoc, link_packets_step.
  rewrite link_front_frame by exact Hp. cbn [app]. f_equal. rewrite <- IH. f_equal. now apply skipn_all_app.
Qed.

(** The packets cut are packets, in their places. *)
Lemma link_front_packet l p : bytes l -> link_front l = Whole p -> event_packet p /\ l = p ++ skipn (length p) l.
Proof.
  intros Hb H. pose proof (link_front_length l p H) as [_ H2].
  split; [|rewrite <- H2 at 1; symmetry; apply firstn_skipn].
  destruct l as [|c [|n l]]; try discriminate. cbn [link_front] in H.
  destruct (Nat.leb_spec (N.to_nat n) (length l)) as [K|K]; [|discriminate].
  inversion Hb as [|? ? Bc Hb']; subst. inversion Hb' as [|? ? Bn Hl]; subst.
  exists c, (firstn (N.to_nat n) l). rewrite firstn_length_le by exact K.
  split; [unfold framed; rewrite firstn_length_le by exact K; rewrite N2Nat.id; congruence|].
  split; [exact Bc|]. split; [now apply bytes_firstn|]. unfold byte in Bn. lia.
Qed.
Lemma uart_front_packet l p : bytes l -> uart_front l = Whole p ->
  event_packet p /\ l = uart_frame p ++ skipn (1 + length p) l.
Proof.
  destruct l as [|t l]; [discriminate|]. cbn [uart_front]. destruct (N.eqb_spec t 4) as [->|]; [|discriminate].
  intros Hb H. inversion Hb as [|? ? _ Hb']; subst. destruct (link_front_packet l p Hb' H) as [H1 H2].
  split; [exact H1|]. cbn [uart_frame app Nat.add skipn]. unfold uart_frame. cbn [app]. f_equal. exact H2.
Qed.
Lemma uart_cut l : bytes l -> Forall event_packet (uart_packets_in l)
  /\ exists rest, l = flat_map uart_frame (uart_packets_in l) ++ rest.
Proof.
  remember (length l) as n eqn:En. revert l En. induction n as [n IH] using lt_wf_ind. intros l -> Hb.
  rewrite uart_packets_step. destruct (uart_front l) as [|t|p] eqn:E; try (split; [constructor|now exists l]).
  destruct (uart_front_packet l p Hb E) as [Hp Hl]. pose proof (uart_front_length l p E) as L.
  destruct (IH (length (skipn (1 + length p) l))) with (l := skipn (1 + length p) l) as (A & rest & B);
    [rewrite skipn_length; lia|reflexivity|now apply bytes_skipn|].
  split; [now constructor|]. exists rest. cbn [flat_map]. rewrite <- app_assoc, <- B. exact Hl.
Qed.
Lemma link_cut l : bytes l -> Forall event_packet (link_packets_in l)
  /\ exists rest, l = concat (link_packets_in l) ++ rest.
Proof.
  remember (length l) as n eqn:En. revert l En. induction n as [n IH] using lt_wf_ind. intros l -> Hb.
  rewrite link_packets_step. destruct (link_front l) as [|t|p] eqn:E; try (split; [constructor|now exists l]).
  destruct (link_front_packet l p Hb E) as [Hp Hl]. pose proof (link_front_length l p E) as [L _].
  destruct (IH (length (skipn (length p) l))) with (l := skipn (length p) l) as (A & rest & B);
    [rewrite skipn_length; lia|reflexivity|now apply bytes_skipn|].
  split; [now constructor|]. exists rest. cbn [concat]. rewrite <- app_assoc, <- B. exact Hl.
Qed.
Lemma uart_packets_begin l more : bytes l -> begins (uart_packets_in l) (uart_packets_in (l ++ more)).
Proof.
  intros Hb. destruct (uart_cut l Hb) as (A & rest & B). rewrite B at 2. rewrite <- app_assoc, uart_packets_app by exact A.
  now eexists.
Qed.
Lemma link_packets_begin l more : bytes l -> begins (link_packets_in l) (link_packets_in (l ++ more)).
Proof.
  intros Hb. destruct (link_cut l Hb) as (A & rest & B). rewrite B at 2. rewrite <- app_assoc, link_packets_app by exact A.
  now eexists.
Qed.

(** ** Sessions *)
Section Sessions.
Context (F : features) (V : vendor) {St E : Type} (C : controller St E) (h : history St).

Lemma read_of_results log ps : received_packets log = map (@uart_result F V E) ps ->
  read_of log = map (event_new F V) ps.
Proof.
  revert ps. induction log as [|[o r] log IH]; intros ps H.
  - now destruct ps.
  - unfold received_packets, read_of in *. cbn [flat_map] in *. destruct r as [r|r].
    + apply IH. exact H.
    + destruct (uart_reports V r) eqn:R.
      * cbn [app] in H. destruct ps as [|p ps]; [discriminate H|]. cbn [map] in *.
        assert (H1 : r = uart_result F V p) by congruence.
        assert (H2 : flat_map (fun x : operation V * report V E => match x with
             | (_, Received r0) => if uart_reports V r0 then [r0] else [] | _ => [] end) log = map (uart_result F V) ps)
          by congruence.
        rewrite (IH ps H2). subst r. unfold uart_result. destruct (event_new F V p); reflexivity.
      * cbn [app] in H. rewrite (IH ps H). destruct r as [[ev]|[[]|]|]; try discriminate R; reflexivity.
Qed.
Lemma split_read_of_results log ps : split_received log = map (@link_result F V E) ps ->
  split_read_of log = map (event_new F V) ps.
Proof.
  revert ps. induction log as [|[o r] log IH]; intros ps H.
  - now destruct ps.
  - unfold split_received, split_read_of in *. cbn [flat_map] in *. destruct r as [r|r].
    + apply IH. exact H.
    + destruct (link_reports V r) eqn:R.
      * cbn [app] in H. destruct ps as [|p ps]; [discriminate H|]. cbn [map] in *.
        assert (H1 : r = link_result F V p) by congruence.
        assert (H2 : flat_map (fun x : operation V * split_report V E => match x with
             | (_, SplitReceived r0) => if link_reports V r0 then [r0] else [] | _ => [] end) log = map (link_result F V) ps)
          by congruence.
        rewrite (IH ps H2). subst r. unfold link_result. destruct (event_new F V p); reflexivity.
      * cbn [app] in H. rewrite (IH ps H). destruct r as [ev|[[]|]|]; try discriminate R; reflexivity.
Qed.

Lemma session_goes os : contract C h -> Forall (typed_operation F) os -> forall s, possible h s ->
  let (s', log) := session F V C os s in possible h s' /\ arrives h s s'.
Proof.
  intros HC. induction 1 as [|o os Ho _ IH]; intros s Hs; cbn [session]; [split; [exact Hs|apply arrives_refl]|].
  assert (K : let (s1, r) := perform F V C o s in possible h s1 /\ arrives h s s1).
  { destruct o as [c|]; cbn [perform].
    - pose proof (call_contract F V C h HC c s Ho Hs) as K. destruct (run_command _ _ _ _ _ _). tauto.
    - destruct (uart_read_cases F V C h HC s Hs) as (s1 & r & -> & [(_ & K & _)|(p & _ & K & _)]); split; apply K. }
  destruct (perform F V C o s) as [s1 r]. destruct K as [K1 K2]. specialize (IH s1 K1).
  destruct (session F V C os s1) as [s2 log]. split; [apply IH|]. eapply arrives_trans; [exact K2|apply IH].
Qed.
Lemma split_session_goes os : contract C h -> Forall (typed_operation F) os -> forall s, possible h s ->
  let (s', log) := split_session F V C os s in possible h s' /\ arrives h s s'.
Proof.
  intros HC. induction 1 as [|o os Ho _ IH]; intros s Hs; cbn [split_session]; [split; [exact Hs|apply arrives_refl]|].
  assert (K : let (s1, r) := split_perform F V C o s in possible h s1 /\ arrives h s s1).
  { destruct o as [c|]; cbn [split_perform].
    - pose proof (link_call F V C h HC c s Ho Hs) as K. destruct (run_command _ _ _ _ _ _). destruct K as [K _].
      split; apply K.
    - destruct (link_read_cases F V C h HC s Hs) as (s1 & r & -> & [(_ & K)|(p & _ & K & _)]); split; apply K. }
  destruct (split_perform F V C o s) as [s1 r]. destruct K as [K1 K2]. specialize (IH s1 K1).
  destruct (split_session F V C os s1) as [s2 log]. split; [apply IH|]. eapply arrives_trans; [exact K2|apply IH].
Qed.

Lemma uart_reads os s : contract C h -> Forall (typed_operation F) os -> possible h s ->
  let (s', log) := session F V C os s in
  begins (read_of log) (map (event_new F V) (uart_packets_in (pending h s s'))).
Proof.
  intros HC Ho Hs. pose proof (session_spec F V C h HC os s Ho Hs) as S.
  destruct (session F V C os s) as [s' log]. destruct S as (_ & _ & ps & Hp & (more & P) & _ & R).
  rewrite (read_of_results log ps R), P, uart_packets_app, map_app by exact Hp. now eexists.
Qed.
Lemma split_reads os s : contract C h -> Forall (typed_operation F) os -> possible h s ->
  let (s', log) := split_session F V C os s in
  begins (split_read_of log) (map (event_new F V) (link_packets_in (pending h s s'))).
Proof.
  intros HC Ho Hs. pose proof (split_session_spec F V C h HC os s Ho Hs) as S.
  destruct (split_session F V C os s) as [s' log]. destruct S as (_ & _ & _ & ps & Hp & (more & P) & _ & R).
  rewrite (split_read_of_results log ps R), P, link_packets_app, map_app by exact Hp. now eexists.
Qed.

(** *** Up to a read that found nothing *)
Lemma session_last os s : session F V C (os ++ [Receive]) s
  = (let (s1, log) := session F V C os s in let (s2, r) := uart_read F V C s1 in (s2, log ++ [(Receive, Received r)])).
Proof.
  revert s. induction os as [|o os IH]; intros s; cbn [app session].
  - cbn [perform]. now destruct (uart_read F V C s).
  - destruct (perform F V C o s) as [s1 r]. rewrite IH. destruct (session F V C os s1) as [s2 log].
    now destruct (uart_read F V C s2).
Qed.
Lemma split_session_last os s : split_session F V C (os ++ [Receive]) s
  = (let (s1, log) := split_session F V C os s in
     let (s2, r) := link_read F V C s1 in (s2, log ++ [(Receive, SplitReceived r)])).
Proof.
  revert s. induction os as [|o os IH]; intros s; cbn [app split_session].
  - cbn [split_perform]. now destruct (link_read F V C s).
  - destruct (split_perform F V C o s) as [s1 r]. rewrite IH. destruct (split_session F V C os s1) as [s2 log].
    now destruct (link_read F V C s2).
Qed.
Lemma pending_after s s1 s2 l : contract C h -> possible h s1 -> arrives h s1 s2 ->
  (exists more, pending h s s1 = l ++ more) -> consumed h s1 = (consumed h s + length l)%nat ->
  pending h s s2 = l ++ pending h s1 s2.
Proof.
  intros HC Hs1 Ha [more P] N1. destruct (pending_grows h s s1 s2) as [z Z]; [|exact Ha|].
  { apply (consumed_received _ _ HC) in Hs1. lia. }
  rewrite Z, P, <- app_assoc. f_equal. unfold pending at 1. rewrite N1, skipn_add. fold (pending h s s2).
  rewrite Z, P, <- app_assoc. symmetry. now apply skipn_all_app.
Qed.
Lemma uart_reads_all os s s' log r : buffering C h -> Forall (typed_operation F) os -> possible h s ->
  session F V C (os ++ [Receive]) s = (s', log ++ [(Receive, Received r)]) -> uart_reports V r = false ->
  read_of log = map (event_new F V) (uart_packets_in (pending h s s'))
  /\ r = match uart_end (pending h s s') with
         | Foreign t => Err (Other (UBadPacketType t))
         | _ => Err WouldBlock
         end.
Proof.
  intros HB Ho Hs H R. pose proof (buffering_contract _ _ HB) as HC.
  pose proof (session_spec F V C h HC os s Ho Hs) as S. pose proof (session_goes os HC Ho s Hs) as G.
  rewrite session_last in H. destruct (session F V C os s) as [s1 log1].
  destruct S as (_ & _ & ps & Hp & P & N1 & Rp). destruct G as [G1 G2].
  pose proof (uart_read_front F V C h HB s1 G1) as K.
  destruct (uart_read F V C s1) as [s2 r2]. assert (s2 = s') by congruence. subst s2.
  assert (L : log1 ++ [(Receive, Received r2)] = log ++ [(Receive, Received r)]) by congruence.
  apply app_inj_tail in L. destruct L as [-> L]. assert (r2 = r) by congruence. subst r2. clear L H.
  assert (A : arrives h s1 s') by (destruct (uart_front _); apply K).
  pose proof (pending_after s s1 s' _ HC G1 A P N1) as Q.
  assert (U : uart_packets_in (pending h s s') = ps).
  { rewrite Q, uart_packets_app by exact Hp. rewrite uart_packets_step.
    destruct (uart_front (pending h s1 s')) as [|t|p]; try apply app_nil_r.
    destruct K as [-> _]. rewrite uart_result_reports in R. discriminate R. }
  unfold uart_end. rewrite U. split; [now apply read_of_results|].
  rewrite Q, skipn_all_app by reflexivity.
  destruct (uart_front (pending h s1 s')) as [|t|p]; try apply K.
  destruct K as [-> _]. rewrite uart_result_reports in R. discriminate R.
Qed.
Lemma split_reads_all os s s' log r : buffering C h -> Forall (typed_operation F) os -> possible h s ->
  split_session F V C (os ++ [Receive]) s = (s', log ++ [(Receive, SplitReceived r)]) -> link_reports V r = false ->
  split_read_of log = map (event_new F V) (link_packets_in (pending h s s')) /\ r = Err WouldBlock.
Proof.
  intros HB Ho Hs H R. pose proof (buffering_contract _ _ HB) as HC.
  pose proof (split_session_spec F V C h HC os s Ho Hs) as S. pose proof (split_session_goes os HC Ho s Hs) as G.
  rewrite split_session_last in H. destruct (split_session F V C os s) as [s1 log1].
  destruct S as (_ & _ & _ & ps & Hp & P & N1 & Rp). destruct G as [G1 G2].
  pose proof (link_read_front F V C h HB s1 G1) as K.
  destruct (link_read F V C s1) as [s2 r2]. assert (s2 = s') by congruence. subst s2.
  assert (L : log1 ++ [(Receive, SplitReceived r2)] = log ++ [(Receive, SplitReceived r)]) by congruence.
  apply app_inj_tail in L. destruct L as [-> L]. assert (r2 = r) by congruence. subst r2. clear L H.
  assert (A : arrives h s1 s') by (destruct (link_front _); apply K).
  pose proof (pending_after s s1 s' _ HC G1 A P N1) as Q.
  assert (U : link_packets_in (pending h s s') = ps).
  { rewrite Q, link_packets_app by exact Hp. rewrite link_packets_step.
    destruct (link_front (pending h s1 s')) as [|t|p]; try apply app_nil_r.
    destruct K as [-> _]. rewrite link_result_reports in R. discriminate R. }
  rewrite U. split; [now apply split_read_of_results|].
  destruct (link_front (pending h s1 s')) as [|t|p]; try apply K.
  destruct K as [-> _]. rewrite link_result_reports in R. discriminate R.
Qed.
End Sessions.

(** ** Two sessions *)
Lemma begins_both {A} (a b c : list A) : begins a c -> begins b c -> begins a b \/ begins b a.
Proof.
  intros [x ->] [y H]. revert b H. induction a as [|v a IH]; intros b H; [left; now exists b|].
  destruct b as [|w b]; [right; now exists (v :: a)|]. cbn [app] in H. assert (v = w) by congruence. subst w.
  destruct (IH b) as [[z ->]|[z ->]]; [congruence|left; now exists z|right; now exists z].
Qed.
Lemma begins_trans {A} (a b c : list A) : begins a b -> begins b c -> begins a c.
Proof. intros [x ->] [y ->]. exists (x ++ y). now rewrite app_assoc. Qed.
Lemma begins_map {A B} (f : A -> B) a b : begins a b -> begins (map f a) (map f b).
Proof. intros [x ->]. exists (map f x). apply map_app. Qed.

Lemma uart_reads_same F V {St1 E1 St2 E2} (C1 : controller St1 E1) h1 (C2 : controller St2 E2) h2 os1 os2 s1 s2 :
  contract C1 h1 -> contract C2 h2 -> Forall (typed_operation F) os1 -> Forall (typed_operation F) os2 ->
  possible h1 s1 -> possible h2 s2 ->
  let (s1', log1) := session F V C1 os1 s1 in
  let (s2', log2) := session F V C2 os2 s2 in
  begins (pending h1 s1 s1') (pending h2 s2 s2') ->
  begins (read_of log1) (read_of log2) \/ begins (read_of log2) (read_of log1).
Proof.
  intros K1 K2 O1 O2 P1 P2.
  pose proof (uart_reads F V C1 h1 os1 s1 K1 O1 P1) as R1. pose proof (uart_reads F V C2 h2 os2 s2 K2 O2 P2) as R2.
  pose proof (session_goes F V C1 h1 os1 K1 O1 s1 P1) as G1.
  destruct (session F V C1 os1 s1) as [s1' log1]. destruct (session F V C2 os2 s2) as [s2' log2].
  destruct G1 as [G1 _]. intros [more B].
  eapply begins_both; [|exact R2]. eapply begins_trans; [exact R1|]. apply begins_map. rewrite B.
  apply uart_packets_begin. unfold pending. apply bytes_skipn. now apply (received_bytes _ _ K1).
Qed.
Lemma split_reads_same F V {St1 E1 St2 E2} (C1 : controller St1 E1) h1 (C2 : controller St2 E2) h2 os1 os2 s1 s2 :
  contract C1 h1 -> contract C2 h2 -> Forall (typed_operation F) os1 -> Forall (typed_operation F) os2 ->
  possible h1 s1 -> possible h2 s2 ->
  let (s1', log1) := split_session F V C1 os1 s1 in
  let (s2', log2) := split_session F V C2 os2 s2 in
  begins (pending h1 s1 s1') (pending h2 s2 s2') ->
  begins (split_read_of log1) (split_read_of log2) \/ begins (split_read_of log2) (split_read_of log1).
Proof.
  intros K1 K2 O1 O2 P1 P2.
  pose proof (split_reads F V C1 h1 os1 s1 K1 O1 P1) as R1. pose proof (split_reads F V C2 h2 os2 s2 K2 O2 P2) as R2.
  pose proof (split_session_goes F V C1 h1 os1 K1 O1 s1 P1) as G1.
  destruct (split_session F V C1 os1 s1) as [s1' log1]. destruct (split_session F V C2 os2 s2) as [s2' log2].
  destruct G1 as [G1 _]. intros [more B].
  eapply begins_both; [|exact R2]. eapply begins_trans; [exact R1|]. apply begins_map. rewrite B.
  apply link_packets_begin. unfold pending. apply bytes_skipn. now apply (received_bytes _ _ K1).
Qed.
Lemma packets_exactly l : bytes l ->
  (Forall event_packet (uart_packets_in l)
   /\ exists rest, l = flat_map uart_frame (uart_packets_in l) ++ rest)
  /\ (Forall event_packet (link_packets_in l) /\ exists rest, l = concat (link_packets_in l) ++ rest)
  /\ (forall ps more, Forall event_packet ps -> l = flat_map uart_frame ps ++ more -> begins ps (uart_packets_in l))
  /\ (forall ps more, Forall event_packet ps -> l = concat ps ++ more -> begins ps (link_packets_in l)).
Proof.
  intros Hb. split; [now apply uart_cut|]. split; [now apply link_cut|]. split.
  - intros ps more Hp ->. rewrite uart_packets_app by exact Hp. now eexists.
  - intros ps more Hp ->. rewrite link_packets_app by exact Hp. now eexists.
Qed.
