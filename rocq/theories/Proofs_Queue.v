(** * Everything arrives over the event link. *)
From Verif Require Import Base Model_Types Model_EventBase Model_Event Model_Host
  Spec_Wire Spec_Errors Spec_Host Spec_Link Proofs_Base Proofs_Streams Proofs_Link.

Lemma link_read_keeps F V {St E} (C : controller St E) (P : St -> Prop) s :
  P (fst (ctl_peek C s 1)) -> (forall s buf, P s -> P (fst (ctl_read_into C s buf))) ->
  P (fst (link_read F V C s)).
Proof.
  intros H0 Hr. unfold link_read, abind, amap_err.
  destruct (ctl_peek C s 1) as [s1 [n|e|]]; try exact H0. cbn [map_err fst] in *.
  unfold read_into_prefix, pure, abind.
  destruct (slice _ _ _) as [sub|e|]; try exact H0.
  specialize (Hr s1 sub H0). destruct (ctl_read_into C s1 sub) as [s3 [d|e|]]; try exact Hr.
  cbn [map_err fst] in *. destruct (slice _ _ _) as [pkt|e|]; try exact Hr.
Qed.

Lemma queue_link_flow F V s :
  let s' := fst (link_read F V queue_controller s) in
  q_total s' = q_total s /\ (length (q_arrivals s') <= pred (length (q_arrivals s)))%nat.
Proof.
  cbv zeta. apply (link_read_keeps F V queue_controller
    (fun x => q_total x = q_total s /\ (length (q_arrivals x) <= pred (length (q_arrivals s)))%nat)).
  - cbn. destruct (q_arrive_total s) as [-> ->]. auto.
  - intros x buf [H1 H2]. cbn. destruct (q_arrive_total x) as [A B].
    destruct (Nat.leb _ _); cbn [fst]; [|rewrite A, B; split; [exact H1|lia]].
    change (q_total (q_take (length buf) (q_arrive x))) with (q_total (q_arrive x)).
    change (q_arrivals (q_take (length buf) (q_arrive x))) with (q_arrivals (q_arrive x)).
    rewrite A, B. split; [exact H1|lia].
Qed.

Lemma queue_link_delivers F V n : forall ps s, possible queue_history s -> Forall event_packet ps ->
  q_pending s ++ concat (q_arrivals s) = concat ps ->
  (length ps + length (q_arrivals s) <= n)%nat ->
  filter (link_reports V) (snd (repeated (link_read F V queue_controller) n s))
  = map (link_result F V) ps.
Proof.
  pose proof queue_buffering as HB. pose proof (buffering_contract _ _ HB) as HC.
  induction n as [|n IH]; intros ps s Hs Hps Htot Hn.
  - destruct ps; [reflexivity|cbn in Hn; lia].
  - cbn [repeated]. pose proof (link_read_front F V _ _ HB s Hs) as K.
    pose proof (queue_link_flow F V s) as [Q1 Q2].
    destruct (link_read F V queue_controller s) as [s1 r]. cbn [fst] in Q1, Q2.
    destruct (repeated (link_read F V queue_controller) n s1) as [s2 rs] eqn:Er. cbn [snd].
    assert (IH' : forall qs, Forall event_packet qs ->
      q_pending s1 ++ concat (q_arrivals s1) = concat qs ->
      (length qs + length (q_arrivals s1) <= n)%nat ->
      filter (link_reports V) rs = map (link_result F V) qs).
    { intros qs Hq1 Hq2 Hq3.
      assert (Hs1 : possible queue_history s1) by (destruct (link_front _); destruct K as [_ K]; apply K).
      specialize (IH qs s1 Hs1 Hq1 Hq2 Hq3). rewrite Er in IH. exact IH. }
    assert (T : pending queue_history s s1 ++ concat (q_arrivals s1) = concat ps).
    { rewrite <- Htot. unfold q_pending, pending. cbn [received consumed queue_history].
      assert (L1 : (q_consumed s <= length (q_received s))%nat) by apply Hs.
      assert (L2 : (q_consumed s <= length (q_received s1))%nat).
      { assert (Ha : arrives queue_history s s1) by (destruct (link_front _); destruct K as [_ K]; apply K).
        destruct Ha as [m Hm]. cbn in Hm. rewrite Hm, app_length. lia. }
      unfold q_total in Q1. apply (f_equal (skipn (q_consumed s))) in Q1.
      rewrite !skipn_app in Q1. replace (q_consumed s - length (q_received s))%nat with 0%nat in Q1 by lia.
      replace (q_consumed s - length (q_received s1))%nat with 0%nat in Q1 by lia. exact Q1. }
    assert (Blocked : r = Err WouldBlock /\ nothing queue_history s s1 ->
      (forall p, link_front (pending queue_history s s1) <> Whole p) ->
      filter (link_reports V) (r :: rs) = map (link_result F V) ps).
    { intros [-> (_ & _ & C1 & _)] Ef. cbn [filter link_reports].
      apply IH'; [exact Hps| |].
      * unfold q_pending. cbn in C1. rewrite C1. exact T.
      * destruct (q_arrivals s) as [|c l] eqn:Ea; [|cbn [length pred] in *; lia].
        destruct (q_arrivals s1) as [|? ?]; [|cbn in Q2; lia]. rewrite app_nil_r in T.
        destruct ps as [|p ps]; [cbn; lia|]. exfalso. inversion Hps as [|? ? Hp _]; subst.
        destruct Hp as (code & params & -> & _). rewrite T in Ef. cbn [concat] in Ef.
        apply (Ef (framed code params)). apply link_front_whole. }
    destruct (link_front (pending queue_history s s1)) as [|t|p] eqn:Ef;
      [apply Blocked; [exact K|discriminate]|apply Blocked; [exact K|discriminate]|].
    destruct K as [-> HT]. pose proof HT as (_ & _ & [more M] & C1 & _).
    assert (X : exists c q, p = framed c q).
    { unfold link_front in Ef. destruct (pending queue_history s s1) as [|c [|k rest]]; try discriminate Ef.
      destruct (Nat.leb_spec (N.to_nat k) (length rest)) as [Hk|]; [|discriminate Ef].
      injection Ef as <-. exists c, (firstn (N.to_nat k) rest). unfold framed.
      rewrite firstn_length, Nat.min_l, N2Nat.id by exact Hk. reflexivity. }
    destruct X as (c & q & ->).
    destruct ps as [|p' ps]; [rewrite M in T; discriminate T|].
    inversion Hps as [|? ? Hp Hps']; subst.
    assert (framed c q = p') as <-.
    { destruct Hp as (code & params & -> & _). rewrite M in T. cbn [concat] in T.
      rewrite <- !app_assoc in T. apply (f_equal link_front) in T. rewrite !link_front_whole in T. congruence. }
    cbn [filter map]. rewrite link_result_reports. f_equal.
    apply IH'; [exact Hps'| |cbn [length] in Hn; lia].
    rewrite M in T. cbn [concat] in T. rewrite <- !app_assoc in T. apply app_inv_head in T.
    rewrite <- T. f_equal. unfold q_pending. cbn in C1. rewrite C1.
    change (S (S (length q))) with (length (framed c q)). rewrite skipn_add.
    change (skipn (q_consumed s) (q_received s1) = framed c q ++ more) in M. rewrite M. now rewrite skipn_all_app.
Qed.
