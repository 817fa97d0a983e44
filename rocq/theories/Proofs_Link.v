(** * Reads on a controller that keeps its contract. *)
From Verif Require Import Base Model_Types Model_EventBase Model_Event Model_Host
  Spec_Wire Spec_Errors Spec_Host Spec_Link Proofs_Base Proofs_Event Proofs_Host Proofs_Calls
  Proofs_Streams.

(** ** The queue keeps the contract *)
Lemma q_arrive_spec s : possible queue_history s ->
  possible queue_history (q_arrive s) /\ arrives queue_history s (q_arrive s)
  /\ q_consumed (q_arrive s) = q_consumed s /\ q_written (q_arrive s) = q_written s.
Proof.
  intros (H1 & H2 & H3). unfold q_arrive. destruct (q_arrivals s) as [|c l] eqn:E.
  - repeat split; try assumption; [now rewrite E|]. exists []. now rewrite app_nil_r.
  - inversion H3 as [|? ? Hc Hl]; subst. repeat split; cbn.
    + apply bytes_app; auto.
    + rewrite app_length. lia.
    + exact Hl.
    + now exists c.
Qed.

Lemma queue_buffering : buffering queue_controller queue_history.
Proof.
  split; [split|..].
  - now intros s (H & _).
  - now intros s (_ & H & _).
  - intros s n Hs. destruct (q_arrive_spec s Hs) as (A & B & C & D). cbn [ctl_peek queue_controller].
    split; [exact A|]. split; [exact B|]. split; [exact C|]. split; [exact D|].
    unfold q_pending, pending. cbn [consumed received queue_history]. rewrite C.
    now destruct (nth_error _ _).
  - intros s buf Hs. destruct (q_arrive_spec s Hs) as (A & B & C & D).
    cbn [ctl_read_into queue_controller].
    destruct (Nat.leb_spec (length buf) (length (q_pending (q_arrive s)))) as [HL|HL].
    + unfold q_pending in *. rewrite C in *. split; [|split; [exact B|split; [exact D|]]].
      * destruct A as (A1 & A2 & A3). split; [exact A1|]. split; [|exact A3]. cbn.
        rewrite skipn_length in HL. lia.
      * cbn. unfold pending. cbn. rewrite C. auto.
    + split; [exact A|]. split; [exact B|]. split; [exact D|]. exact C.
  - intros s hd p Hs. destruct (q_arrive_spec s Hs) as (A & B & C & D).
    cbn [ctl_write queue_controller]. destruct (q_ready (q_arrive s)) as [|[| |code] later];
      (split; [exact A|]; split; [exact B|]; split; [exact C|]; cbn; rewrite ?D, ?app_nil_r; reflexivity).
  - intros s n Hs. destruct (q_arrive_spec s Hs) as (A & B & C & D). cbn [ctl_peek queue_controller].
    unfold q_pending, pending. cbn [consumed received queue_history]. rewrite C.
    destruct (Nat.ltb_spec n (length (skipn (q_consumed s) (q_received (q_arrive s))))) as [HL|HL].
    + destruct (nth_error _ n) eqn:En; [eauto|]. apply nth_error_None in En. lia.
    + now rewrite (proj2 (nth_error_None _ _) HL).
  - intros s buf Hs. destruct (q_arrive_spec s Hs) as (A & B & C & D).
    cbn [ctl_read_into queue_controller].
    destruct (Nat.leb_spec (length buf) (length (q_pending (q_arrive s)))) as [HL|HL];
      unfold q_pending, pending in *; cbn [consumed received queue_history q_take q_received]; rewrite C in *.
    + rewrite (proj2 (Nat.leb_le _ _) HL). eauto.
    + rewrite (proj2 (Nat.leb_gt _ _) HL). reflexivity.
Qed.

Section Contract.
Context {St E : Type} (C : controller St E) (h : history St) (HC : contract C h).

Lemma arrives_refl s : arrives h s s.
Proof. exists []. now rewrite app_nil_r. Qed.
Lemma arrives_trans a b c : arrives h a b -> arrives h b c -> arrives h a c.
Proof. intros [x X] [y Y]. exists (x ++ y). now rewrite Y, X, app_assoc. Qed.

Lemma pending_grows s a b : (consumed h s <= length (received h a))%nat -> arrives h a b ->
  exists more, pending h s b = pending h s a ++ more.
Proof.
  intros Hc [more Hm]. exists more. unfold pending. rewrite Hm, skipn_app.
  replace (consumed h s - length (received h a))%nat with 0%nat by lia. reflexivity.
Qed.
Lemma pending_nth s a b n x : (consumed h s <= length (received h a))%nat -> arrives h a b ->
  nth_error (pending h s a) n = Some x -> nth_error (pending h s b) n = Some x.
Proof.
  intros Hc Ha Hn. destruct (pending_grows s a b Hc Ha) as [more ->].
  rewrite nth_error_app1; [exact Hn|]. apply nth_error_Some. congruence.
Qed.
Lemma pending_same s a b : consumed h a = consumed h s -> pending h a b = pending h s b.
Proof. unfold pending. now intros ->. Qed.
Lemma bytes_skipn n l : bytes l -> bytes (skipn n l).
Proof. intros H. rewrite <- (firstn_skipn n l) in H. now apply bytes_app in H. Qed.
Lemma bytes_firstn n l : bytes l -> bytes (firstn n l).
Proof. intros H. rewrite <- (firstn_skipn n l) in H. now apply bytes_app in H. Qed.
Lemma bytes_nth l n b : bytes l -> nth_error l n = Some b -> byte b.
Proof. intros H Hn. apply nth_error_In in Hn. exact (proj1 (Forall_forall _ _) H b Hn). Qed.
Lemma pending_bytes s s' : possible h s' -> bytes (pending h s s').
Proof. intros H. apply bytes_skipn. exact (received_bytes _ _ HC s' H). Qed.


Lemma nothing_trans a b c : nothing h a b -> nothing h b c -> nothing h a c.
Proof.
  intros (A1 & A2 & A3 & A4) (B1 & B2 & B3 & B4). split; [exact B1|].
  split; [eapply arrives_trans; eassumption|]. split; congruence.
Qed.
Lemma nothing_took a b c l : nothing h a b -> took h b c l -> took h a c l.
Proof.
  intros (A1 & A2 & A3 & A4) (B1 & B2 & B3 & B4 & B5). split; [exact B1|].
  split; [eapply arrives_trans; eassumption|]. rewrite <- (pending_same a b c A3).
  split; [exact B3|]. split; congruence.
Qed.

Lemma peek_cases s n : possible h s ->
  exists s' r, ctl_peek C s n = (s', r) /\ nothing h s s'
  /\ match r with Ok b => nth_error (pending h s s') n = Some b /\ byte b | Err _ => True | Panic => False end.
Proof.
  intros Hs. pose proof (peek_contract _ _ HC s n Hs) as H. destruct (ctl_peek C s n) as [s' r].
  exists s', r. split; [reflexivity|]. destruct H as (A1 & A2 & A3 & A4 & A5).
  split; [repeat split; assumption|]. destruct r as [b| |]; auto. split; [exact A5|].
  eapply bytes_nth; [|exact A5]. now apply pending_bytes.
Qed.

Lemma read_cases s buf : possible h s ->
  exists s' r, ctl_read_into C s buf = (s', r)
  /\ match r with
     | Ok data => length data = length buf /\ bytes data /\ took h s s' data
     | Err _ => nothing h s s'
     | Panic => False
     end.
Proof.
  intros Hs. pose proof (read_contract _ _ HC s buf Hs) as H. destruct (ctl_read_into C s buf) as [s' r].
  exists s', r. split; [reflexivity|]. destruct H as (A1 & A2 & A3 & A4). destruct r as [data|e|]; auto.
  - destruct A4 as (A4 & A5 & A6).
    assert (Hl : length data = length buf) by (rewrite A5, firstn_length; lia).
    split; [exact Hl|]. split; [rewrite A5; apply bytes_firstn; now apply pending_bytes|].
    split; [exact A1|]. split; [exact A2|]. rewrite Hl. split; [|now split].
    exists (skipn (length buf) (pending h s s')). rewrite A5 at 1. symmetry. apply firstn_skipn.
  - repeat split; assumption.
Qed.

Lemma nth_of_prefix (l m more : list N) n x : nth_error l n = Some x -> l ++ more = m ->
  nth_error m n = Some x.
Proof. intros H <-. rewrite nth_error_app1; [exact H|]. apply nth_error_Some. congruence. Qed.

(** A length at [k], then [k + 1] and that many bytes. *)
Lemma frame_cases {G} (f : nb_error E -> G) k s : possible h s ->
  exists s' r,
    (do! pl := amap_err f (fun st => ctl_peek C st k) in
     do! buf := amap_err f (read_into_prefix C (zeros (255 + S k)) (S k + N.to_nat pl)) in
     pure (Ok (buf, N.to_nat pl))) s = (s', r)
  /\ match r with
     | Ok (buf, n) => exists data, buf = data ++ zeros (255 - n) /\ (n <= 255)%nat
         /\ length data = (S k + n)%nat /\ nth_error data k = Some (N.of_nat n)
         /\ bytes data /\ took h s s' data
     | Err g => nothing h s s' /\ exists e, g = f e
     | Panic => False
     end.
Proof.
  intros Hs. unfold abind, amap_err.
  destruct (peek_cases s k Hs) as (s1 & r1 & -> & N1 & P1).
  destruct r1 as [b|e|]; cbn [map_err]; [|exists s1, (Err (f e)); eauto|contradiction].
  destruct P1 as [P1 Hb].
  assert (Hs1 : possible h s1) by apply N1.
  unfold read_into_prefix, abind, pure. unfold slice.
  assert (Hn : (N.to_nat b <= 255)%nat) by (unfold byte in Hb; lia).
  assert (Hz : length (zeros (255 + S k)) = (255 + S k)%nat) by apply repeat_length.
  rewrite Hz. replace (Nat.leb 0 (S k + N.to_nat b) && Nat.leb (S k + N.to_nat b) (255 + S k))%bool with true
    by (symmetry; apply andb_true_intro; split; apply Nat.leb_le; lia).
  cbn [skipn]. rewrite Nat.sub_0_r.
  set (sub := firstn (S k + N.to_nat b) (zeros (255 + S k))).
  assert (Hsub : length sub = (S k + N.to_nat b)%nat) by (unfold sub; rewrite firstn_length, Hz; lia).
  destruct (read_cases s1 sub Hs1) as (s2 & r2 & -> & R2).
  destruct r2 as [data|e|]; cbn [map_err]; [| |contradiction].
  - destruct R2 as (L2 & B2 & T2).
    exists s2. eexists. split; [reflexivity|]. exists data. split.
    + f_equal. unfold zeros. replace (255 + S k)%nat with ((S k + N.to_nat b) + (255 - N.to_nat b))%nat by lia.
      rewrite repeat_app, skipn_app, repeat_length, Nat.sub_diag, skipn_all2 by (rewrite repeat_length; lia).
      reflexivity.
    + split; [exact Hn|]. split; [congruence|]. rewrite N2Nat.id.
      assert (HT : took h s s2 data) by (eapply nothing_took; eassumption).
      split; [|split; assumption].
      destruct N1 as (_ & A1 & C1 & _). destruct T2 as (_ & A2 & [more M2] & _).
      rewrite (pending_same s s1 s2 C1) in M2.
      assert (Hc : (consumed h s <= length (received h s1))%nat)
        by (rewrite <- C1; now apply (consumed_received _ _ HC)).
      pose proof (pending_nth s s1 s2 k b Hc A2 P1) as Q. rewrite M2 in Q.
      rewrite nth_error_app1 in Q by lia. exact Q.
  - exists s2, (Err (f e)). split; [reflexivity|]. split; [eapply nothing_trans; eassumption|eauto].
Qed.

Lemma frame_data k (data : list N) n : length data = (S k + n)%nat -> nth_error data k = Some (N.of_nat n) ->
  exists pre params, data = pre ++ N.of_nat n :: params /\ length pre = k /\ length params = n.
Proof.
  intros Hl Hn. apply nth_error_split in Hn. destruct Hn as (pre & params & -> & Hp).
  exists pre, params. rewrite app_length in Hl. cbn [length] in Hl. repeat split; lia.
Qed.
End Contract.

Section Reads.
Context (F : features) (V : vendor) {St E : Type} (C : controller St E) (h : history St)
  (HC : contract C h).

Definition frame {G} (f : nb_error E -> G) (k : nat) : act St G (list N * nat) :=
  do! pl := amap_err f (fun st => ctl_peek C st k) in
  do! buf := amap_err f (read_into_prefix C (zeros (255 + S k)) (S k + N.to_nat pl)) in
  pure (Ok (buf, N.to_nat pl)).

Lemma link_read_frame s :
  link_read F V C s =
  (do! bn := frame link_rewrap_error 1 in
   do! packet := pure (slice (fst bn) 0 (2 + snd bn)) in
   pure (map_err (fun e => Other (LBLE e)) (event_new F V packet))) s.
Proof.
  unfold link_read, frame, abind, amap_err, pure.
  destruct (ctl_peek C s 1) as [s1 [b|e|]]; cbn [map_err]; try reflexivity.
  change (255 + 2)%nat with 257%nat. change (1 + 1)%nat with 2%nat.
  destruct (read_into_prefix C _ _ s1) as [s2 [buf|e|]]; cbn [map_err]; reflexivity.
Qed.

Lemma event_read_frame s :
  uart_read_event F V C s =
  (do! bn := frame uart_rewrap_error 2 in
   do! packet := pure (slice (fst bn) 1 (3 + snd bn)) in
   pure (map_err (fun e => Other (UBLE e)) (event_new F V packet))) s.
Proof.
  unfold uart_read_event, frame, abind, amap_err, pure.
  destruct (ctl_peek C s 2) as [s1 [b|e|]]; cbn [map_err]; try reflexivity.
  destruct (read_into_prefix C _ _ s1) as [s2 [buf|e|]]; cbn [map_err]; reflexivity.
Qed.

Lemma slice_mid {G} (a b c : list N) i j : length a = i -> (j = i + length b)%nat ->
  @slice G (a ++ b ++ c) i j = Ok b.
Proof.
  intros <- ->. unfold slice. rewrite !app_length.
  replace (Nat.leb _ _ && Nat.leb _ _)%bool with true
    by (symmetry; apply andb_true_intro; split; apply Nat.leb_le; lia).
  replace (length a + length b - length a)%nat with (length b) by lia.
  now rewrite skipn_all_app, firstn_all_app.
Qed.

Lemma link_read_cases s : possible h s ->
  exists s' r, link_read F V C s = (s', r)
  /\ ((link_reports V r = false /\ nothing h s s')
      \/ exists p, event_packet p /\ took h s s' p /\ r = link_result F V p).
Proof.
  intros Hs. rewrite link_read_frame. unfold abind.
  destruct (frame_cases C h HC (@link_rewrap_error E (VError V)) 1 s Hs) as (s' & r & Hr & K).
  fold (frame (G := nb_error (link_error E (VError V))) link_rewrap_error 1) in Hr. rewrite Hr. clear Hr.
  destruct r as [[buf n]|g|]; [| |contradiction].
  - destruct K as (data & -> & Hn & Hl & Hk & HB & HT).
    destruct (frame_data 1 data n Hl Hk) as (pre & params & -> & Hp & Hq).
    destruct pre as [|code [|]]; try discriminate Hp. cbn [app] in *.
    assert (Hf : code :: N.of_nat n :: params = framed code params) by (unfold framed; now rewrite Hq).
    cbn [fst snd]. unfold pure at 1.
    change (code :: N.of_nat n :: params ++ zeros (255 - n))
      with ([] ++ (code :: N.of_nat n :: params) ++ zeros (255 - n)).
    rewrite slice_mid by (reflexivity || (cbn [length]; lia)).
    exists s'. eexists. split; [reflexivity|]. right. exists (framed code params).
    rewrite Hf in *. split; [|split].
    + unfold framed in HB. bytes_inv. exists code, params. repeat split; try assumption. lia.
    + exact HT.
    + unfold link_result. now destruct (event_new F V _).
  - exists s'. eexists. split; [reflexivity|]. destruct K as [K [e ->]]. left. split; [|exact K].
    now destruct e.
Qed.

Lemma event_read_cases s : possible h s ->
  exists s' r, uart_read_event F V C s = (s', r)
  /\ ((match r with Err WouldBlock | Err (Other (UComm _)) => True | _ => False end /\ nothing h s s')
      \/ exists t p, event_packet p /\ took h s s' (t :: p)
           /\ r = map_err (fun e => Other (UBLE e)) (event_new F V p)).
Proof.
  intros Hs. rewrite event_read_frame. unfold abind.
  destruct (frame_cases C h HC (@uart_rewrap_error E (VError V)) 2 s Hs) as (s' & r & Hr & K).
  fold (frame (G := nb_error (uart_error E (VError V))) uart_rewrap_error 2) in Hr. rewrite Hr. clear Hr.
  destruct r as [[buf n]|g|]; [| |contradiction].
  - destruct K as (data & -> & Hn & Hl & Hk & HB & HT).
    destruct (frame_data 2 data n Hl Hk) as (pre & params & -> & Hp & Hq).
    destruct pre as [|t [|code [|]]]; try discriminate Hp. cbn [app] in *.
    assert (Hf : code :: N.of_nat n :: params = framed code params) by (unfold framed; now rewrite Hq).
    cbn [fst snd]. unfold pure at 1.
    change (t :: code :: N.of_nat n :: params ++ zeros (255 - n))
      with ([t] ++ (code :: N.of_nat n :: params) ++ zeros (255 - n)).
    rewrite slice_mid by (reflexivity || (cbn [length]; lia)).
    exists s'. eexists. split; [reflexivity|]. right. exists t, (framed code params).
    rewrite Hf in *. split; [|split].
    + unfold framed in HB. bytes_inv. exists code, params. repeat split; try assumption. lia.
    + exact HT.
    + reflexivity.
  - exists s'. eexists. split; [reflexivity|]. destruct K as [K [e ->]]. left. split; [|exact K].
    now destruct e.
Qed.

Lemma uart_read_cases s : possible h s ->
  exists s' r, uart_read F V C s = (s', r)
  /\ ((uart_reports V r = false /\ nothing h s s'
       /\ forall t, r = Err (Other (UBadPacketType t)) ->
            t <> 0x04 /\ nth_error (pending h s s') 0 = Some t)
      \/ exists p, event_packet p /\ took h s s' (uart_frame p) /\ r = uart_result F V p).
Proof.
  intros Hs. unfold uart_read, abind, amap_err.
  destruct (peek_cases C h HC s 0 Hs) as (s1 & r1 & -> & N1 & P1).
  destruct r1 as [t|e|]; cbn [map_err]; [| |contradiction].
  2: { exists s1. eexists. split; [reflexivity|]. left. split; [now destruct e|]. split; [exact N1|].
       intros t. destruct e; discriminate. }
  destruct (N.eqb_spec t 4) as [->|Ht].
  - assert (Hs1 : possible h s1) by apply N1.
    destruct (event_read_cases s1 Hs1) as (s2 & r2 & -> & [[R2 N2]|(t & p & Hp & HT & ->)]).
    + exists s2. pose proof (nothing_trans h s s1 s2 N1 N2) as N3.
      destruct r2 as [|[[| |]|]|]; try contradiction; eexists; (split; [reflexivity|]); left;
        (split; [reflexivity|]; split; [exact N3|]; discriminate).
    + pose proof (nothing_took h s s1 s2 _ N1 HT) as T3.
      assert (Ht : t = 4).
      { destruct P1 as [P1 _]. destruct N1 as (_ & _ & C1 & _). destruct HT as (_ & A2 & _).
        assert (Hc : (consumed h s <= length (received h s1))%nat)
          by (rewrite <- C1; now apply (consumed_received _ _ HC)).
        pose proof (pending_nth h s s1 s2 0 4 Hc A2 P1) as Q. destruct T3 as (_ & _ & [more M] & _).
        rewrite M in Q. cbn in Q. congruence. }
      subst t. exists s2.
      unfold uart_result. destruct (event_new F V p) as [ev|e|] eqn:Ee; cbn [map_err];
        eexists; (split; [reflexivity|]); right; exists p; rewrite Ee; auto.
  - exists s1. eexists. split; [reflexivity|]. left. split; [reflexivity|]. split; [exact N1|].
    intros t' Et. injection Et as <-. split; [exact Ht|]. apply P1.
Qed.

Lemma uart_result_reports p : uart_reports V (uart_result (E := E) F V p) = true.
Proof. unfold uart_result. now destruct (event_new F V p). Qed.
Lemma link_result_reports p : link_reports V (link_result (E := E) F V p) = true.
Proof. unfold link_result. now destruct (event_new F V p). Qed.

(** ** Any number of reads *)
Lemma skipn_add {A} n m (l : list A) : skipn (n + m) l = skipn m (skipn n l).
Proof.
  revert l. induction n as [|n IH]; intros l; [reflexivity|].
  destruct l; [now rewrite !skipn_nil|]. apply IH.
Qed.

Lemma took_then a b c l m : took h a b l -> took h b c m -> took h a c (l ++ m).
Proof.
  intros (A1 & A2 & [x X] & A4 & A5) (B1 & B2 & [y Y] & B4 & B5).
  split; [exact B1|]. split; [eapply arrives_trans; eassumption|]. split; [|rewrite app_length; split; [lia|congruence]].
  exists y. destruct (pending_grows h a b c) as [z Z]; [|exact B2|].
  - apply (consumed_received _ _ HC) in A1. lia.
  - rewrite Z, X, <- app_assoc. rewrite <- app_assoc. f_equal.
    unfold pending in Y. rewrite A4, skipn_add in Y. fold (pending h a c) in Y.
    rewrite Z, X, <- app_assoc, skipn_all_app in Y by reflexivity. exact Y.
Qed.
Lemma took_nothing a b c l : took h a b l -> nothing h b c -> took h a c l.
Proof.
  intros HT (B1 & B2 & B3 & B4). rewrite <- (app_nil_r l). eapply took_then; [exact HT|].
  split; [exact B1|]. split; [exact B2|]. split; [now exists (pending h b c)|]. cbn. split; [lia|exact B4].
Qed.
Lemma nothing_took_nil a b : nothing h a b -> took h a b [].
Proof.
  intros (A1 & A2 & A3 & A4). split; [exact A1|]. split; [exact A2|].
  split; [now exists (pending h a b)|]. cbn. split; [lia|exact A4].
Qed.
Lemma took_refl s : possible h s -> took h s s [].
Proof. intros Hs. apply nothing_took_nil. split; [exact Hs|]. split; [apply arrives_refl|]. auto. Qed.

Lemma uart_reads n s : possible h s ->
  let (s', rs) := repeated (uart_read F V C) n s in
  exists ps, Forall event_packet ps /\ took h s s' (flat_map uart_frame ps)
    /\ filter (uart_reports V) rs = map (uart_result F V) ps.
Proof.
  revert s. induction n as [|n IH]; intros s Hs; cbn [repeated].
  - exists []. split; [constructor|]. split; [now apply took_refl|reflexivity].
  - destruct (uart_read_cases s Hs) as (s1 & r & -> & K).
    assert (Hs1 : possible h s1) by (destruct K as [(_ & K & _)|(p & _ & K & _)]; apply K).
    specialize (IH s1 Hs1). destruct (repeated _ n s1) as [s2 rs].
    destruct IH as (ps & Hps & HT & Hr). destruct K as [(Hf & HN & _)|(p & Hp & HT1 & ->)].
    + exists ps. split; [exact Hps|]. split; [eapply nothing_took; eassumption|].
      cbn [filter]. now rewrite Hf.
    + exists (p :: ps). split; [now constructor|]. split; [eapply took_then; eassumption|].
      cbn [filter map]. rewrite uart_result_reports. now rewrite Hr.
Qed.

Lemma link_reads n s : possible h s ->
  let (s', rs) := repeated (link_read F V C) n s in
  exists ps, Forall event_packet ps /\ took h s s' (concat ps)
    /\ filter (link_reports V) rs = map (link_result F V) ps.
Proof.
  revert s. induction n as [|n IH]; intros s Hs; cbn [repeated].
  - exists []. split; [constructor|]. split; [now apply took_refl|reflexivity].
  - destruct (link_read_cases s Hs) as (s1 & r & -> & K).
    assert (Hs1 : possible h s1) by (destruct K as [(_ & K)|(p & _ & K & _)]; apply K).
    specialize (IH s1 Hs1). destruct (repeated _ n s1) as [s2 rs].
    destruct IH as (ps & Hps & HT & Hr). destruct K as [(Hf & HN)|(p & Hp & HT1 & ->)].
    + exists ps. split; [exact Hps|]. split; [eapply nothing_took; eassumption|].
      cbn [filter]. now rewrite Hf.
    + exists (p :: ps). split; [now constructor|]. split; [eapply took_then; eassumption|].
      cbn [filter map]. rewrite link_result_reports. now rewrite Hr.
Qed.
End Reads.

Section Buffering.
Context (F : features) (V : vendor) {St E : Type} (C : controller St E) (h : history St)
  (HB : buffering C h).
Let HC : contract C h := buffering_contract C h HB.

Lemma nth_cases {A} (l : list A) k : (length l <= k)%nat
  \/ exists pre x rest, l = pre ++ x :: rest /\ length pre = k.
Proof.
  destruct (nth_error l k) as [x|] eqn:En.
  - right. apply nth_error_split in En. destruct En as (pre & rest & -> & Hl). eauto.
  - left. now apply nth_error_None.
Qed.

Lemma frame_blocks {G} (f : nb_error E -> G) k s s' g : possible h s ->
  frame C f k s = (s', Err g) ->
  g = f WouldBlock
  /\ ((length (pending h s s') <= k)%nat
      \/ exists pre n rest, pending h s s' = pre ++ n :: rest /\ length pre = k
           /\ (length rest < N.to_nat n)%nat).
Proof.
  intros Hs. unfold frame, abind, amap_err.
  destruct (peek_cases C h HC s k Hs) as (s1 & r1 & Hp & N1 & P1).
  pose proof (peek_ready _ _ HB s k Hs) as R1. rewrite Hp in *.
  destruct (Nat.ltb_spec k (length (pending h s s1))) as [Hk|Hk].
  2: { subst r1. cbn [map_err]. intros X. injection X as <- <-. auto. }
  destruct R1 as [b ->]. destruct P1 as [P1 Hb]. cbn [map_err].
  assert (Hs1 : possible h s1) by apply N1.
  unfold read_into_prefix, abind, pure. unfold slice.
  assert (Hn : (N.to_nat b <= 255)%nat) by (unfold byte in Hb; lia).
  assert (Hz : length (zeros (255 + S k)) = (255 + S k)%nat) by apply repeat_length.
  rewrite Hz. replace (Nat.leb 0 (S k + N.to_nat b) && Nat.leb (S k + N.to_nat b) (255 + S k))%bool with true
    by (symmetry; apply andb_true_intro; split; apply Nat.leb_le; lia).
  cbn [skipn]. rewrite Nat.sub_0_r.
  set (sub := firstn (S k + N.to_nat b) (zeros (255 + S k))).
  assert (Hsub : length sub = (S k + N.to_nat b)%nat) by (unfold sub; rewrite firstn_length, Hz; lia).
  destruct (read_cases C h HC s1 sub Hs1) as (s2 & r2 & Hr & R2).
  pose proof (read_ready _ _ HB s1 sub Hs1) as R3. rewrite Hr in *.
  destruct (Nat.leb_spec (length sub) (length (pending h s1 s2))) as [HL|HL].
  1: { destruct R3 as [data ->]. cbn [map_err]. discriminate. }
  subst r2. cbn [map_err]. intros X. injection X as <- <-. split; [reflexivity|]. right.
  destruct N1 as (_ & A1 & C1 & _). destruct R2 as (_ & A2 & _).
  rewrite (pending_same h s s1 s2 C1) in HL.
  assert (Hc : (consumed h s <= length (received h s1))%nat)
    by (rewrite <- C1; now apply (consumed_received _ _ HC)).
  pose proof (pending_nth h s s1 s2 k b Hc A2 P1) as Q.
  apply nth_error_split in Q. destruct Q as (pre & rest & Q & Hpre). exists pre, b, rest.
  split; [exact Q|]. split; [exact Hpre|]. rewrite Q, app_length in HL. cbn [length] in HL. lia.
Qed.

Lemma link_front_whole code params more :
  link_front (framed code params ++ more) = Whole (framed code params).
Proof.
  unfold framed. cbn [app link_front]. rewrite Nat2N.id, firstn_all_app by reflexivity.
  replace (Nat.leb _ _) with true by (symmetry; apply Nat.leb_le; rewrite app_length; lia). reflexivity.
Qed.
Lemma link_front_incomplete l : (length l <= 1)%nat
      \/ (exists pre n rest, l = pre ++ n :: rest /\ length pre = 1%nat
           /\ (length rest < N.to_nat n)%nat) ->
  link_front l = Incomplete.
Proof.
  intros [H|(pre & n & rest & -> & Hp & Hr)].
  - destruct l as [|? [|]]; try reflexivity. cbn in H. lia.
  - destruct pre as [|c [|]]; try discriminate Hp. cbn [app link_front].
    now replace (Nat.leb _ _) with false by (symmetry; apply Nat.leb_gt; lia).
Qed.

Lemma link_read_front s : possible h s ->
  let (s', r) := link_read F V C s in
  match link_front (pending h s s') with
  | Whole p => r = link_result F V p /\ took h s s' p
  | _ => r = Err WouldBlock /\ nothing h s s'
  end.
Proof.
  intros Hs. destruct (link_read_cases F V C h HC s Hs) as (s' & r & Hr & K). rewrite Hr.
  destruct K as [(Hf & HN)|(p & (code & params & -> & _) & HT & ->)].
  - rewrite link_read_frame in Hr. unfold abind in Hr.
    destruct (frame C link_rewrap_error 1 s) as [s1 [[buf n]|g|]] eqn:Ef.
    + unfold pure in Hr. destruct (slice _ _ _) as [packet|e|] eqn:Es.
      * injection Hr as <- <-. destruct (event_new F V packet); discriminate Hf.
      * unfold slice in Es. destruct (_ && _)%bool; discriminate Es.
      * injection Hr as <- <-. discriminate Hf.
    + injection Hr as <- <-. destruct (frame_blocks _ _ _ _ _ Hs Ef) as [-> Hi].
      rewrite link_front_incomplete by exact Hi. auto.
    + injection Hr as <- <-. discriminate Hf.
  - destruct HT as (T1 & T2 & [more M] & T3). rewrite M, link_front_whole. split; [reflexivity|].
    split; [exact T1|]. split; [exact T2|]. split; [now exists more|exact T3].
Qed.

Lemma uart_front_incomplete l : nth_error l 0 = Some 4 -> (length l <= 2)%nat
      \/ (exists pre n rest, l = pre ++ n :: rest /\ length pre = 2%nat
           /\ (length rest < N.to_nat n)%nat) ->
  uart_front l = Incomplete.
Proof.
  destruct l as [|t l]; [discriminate|]. intros X. cbn in X. injection X as ->.
  intros H. cbn [uart_front]. change (4 =? 4) with true. cbv iota. apply link_front_incomplete.
  destruct H as [H|(pre & n & rest & E1 & Hp & Hr)].
  - left. cbn in H. lia.
  - right. destruct pre as [|t pre]; [discriminate|]. apply cons_inv in E1. destruct E1 as [_ E1]. injection Hp as Hp. eauto 6.
Qed.

Lemma uart_read_front s : possible h s ->
  let (s', r) := uart_read F V C s in
  match uart_front (pending h s s') with
  | Whole p => r = uart_result F V p /\ took h s s' (uart_frame p)
  | Foreign t => r = Err (Other (UBadPacketType t)) /\ nothing h s s'
  | Incomplete => r = Err WouldBlock /\ nothing h s s'
  end.
Proof.
  intros Hs. destruct (uart_read_cases F V C h HC s Hs) as (s' & r & Hr & K). rewrite Hr.
  destruct K as [(Hf & HN & Hbad)|(p & (code & params & -> & _) & HT & ->)].
  - unfold uart_read, abind, amap_err in Hr.
    destruct (peek_cases C h HC s 0 Hs) as (s1 & r1 & Hp & N1 & P1).
    pose proof (peek_ready _ _ HB s 0 Hs) as R1. rewrite Hp in *.
    destruct (Nat.ltb_spec 0 (length (pending h s s1))) as [Hk|Hk].
    2: { subst r1. cbn [map_err] in Hr. injection Hr as <- <-.
         destruct (pending h s s1); [|cbn in Hk; lia]. cbn [uart_front]. auto. }
    destruct R1 as [b ->]. destruct P1 as [P1 Hb]. cbn [map_err] in Hr.
    destruct (N.eqb_spec b 4) as [Et|Ht]; [subst b|].
    + assert (Hs1 : possible h s1) by apply N1.
      rewrite event_read_frame in Hr. unfold abind in Hr.
      destruct (frame C uart_rewrap_error 2 s1) as [s2 [[buf n]|g|]] eqn:Ef.
      * unfold pure in Hr. destruct (slice _ _ _) as [packet|e|] eqn:Es.
        -- destruct (event_new F V packet); cbn [map_err] in Hr; injection Hr as <- <-; discriminate Hf.
        -- unfold slice in Es. destruct (_ && _)%bool; discriminate Es.
        -- injection Hr as <- <-. discriminate Hf.
      * injection Hr as <- <-. destruct (frame_blocks _ _ _ _ _ Hs1 Ef) as [-> Hi].
        assert (A2 : arrives h s1 s2).
        { destruct (frame_cases C h HC (@uart_rewrap_error E (VError V)) 2 s1 Hs1) as (x & y & Q & K).
          fold (frame C (G := nb_error (uart_error E (VError V))) uart_rewrap_error 2) in Q.
          rewrite Ef in Q. injection Q as <- <-. apply K. }
        destruct N1 as (_ & A1 & C1 & _).
        rewrite (pending_same h s s1 s2 C1) in Hi.
        assert (Hc : (consumed h s <= length (received h s1))%nat)
          by (rewrite <- C1; now apply (consumed_received _ _ HC)).
        rewrite uart_front_incomplete; [auto| |exact Hi].
        exact (pending_nth h s s1 s2 0 4 Hc A2 P1).
      * injection Hr as <- <-. discriminate Hf.
    + unfold pure in Hr. injection Hr as <- <-. destruct (pending h s s1) as [|t l] eqn:Ep; [discriminate P1|].
      cbn in P1. apply Some_inj in P1. subst t. cbn [uart_front]. rewrite (proj2 (N.eqb_neq b 4) Ht). auto.
  - pose proof HT as (T1 & T2 & [more M] & T3). rewrite M. unfold uart_frame. cbn [app uart_front].
    change (4 =? 4) with true. cbv iota. rewrite link_front_whole. split; [reflexivity|exact HT].
Qed.

(** Packets that are there are delivered. *)
Lemma pending_start s s' : possible h s -> arrives h s s' ->
  exists more, pending h s s' = pending h s s ++ more.
Proof. intros Hs Ha. apply pending_grows; [|exact Ha]. now apply (consumed_received _ _ HC). Qed.

Lemma uart_deliver ps : Forall event_packet ps -> forall rest s, possible h s ->
  pending h s s = flat_map uart_frame ps ++ rest ->
  let (s', rs) := repeated (uart_read F V C) (length ps) s in
  rs = map (uart_result F V) ps /\ took h s s' (flat_map uart_frame ps).
Proof.
  induction 1 as [|p ps Hp _ IH]; intros rest s Hs Hl; cbn [length repeated].
  - split; [reflexivity|]. now apply took_refl.
  - pose proof (uart_read_front s Hs) as K. destruct (uart_read F V C s) as [s1 r] eqn:Er.
    assert (Ha : arrives h s s1 /\ possible h s1)
      by (destruct (uart_front _); destruct K as [_ K]; split; apply K).
    destruct Ha as [Ha Hs1].
    destruct (pending_start s s1 Hs Ha) as [more M]. rewrite Hl in M.
    destruct Hp as (code & params & -> & Hp).
    assert (M' : pending h s s1 = 4 :: framed code params ++ (flat_map uart_frame ps ++ rest ++ more))
      by (rewrite M; cbn [flat_map uart_frame app]; now rewrite <- !app_assoc).
    rewrite M' in K. cbn [uart_front] in K. rewrite N.eqb_refl, link_front_whole in K. destruct K as [-> HT].
    pose proof HT as (_ & _ & _ & T4 & _).
    assert (Hl1 : pending h s1 s1 = flat_map uart_frame ps ++ (rest ++ more)).
    { unfold pending at 1. rewrite T4, skipn_add. fold (pending h s s1). rewrite M'.
      change (4 :: framed code params ++ ?x) with (uart_frame (framed code params) ++ x).
      now rewrite skipn_all_app. }
    specialize (IH _ s1 Hs1 Hl1). destruct (repeated _ _ s1) as [s2 rs]. destruct IH as [-> HT2].
    split; [reflexivity|]. cbn [flat_map]. eapply took_then; eassumption.
Qed.

Lemma link_deliver ps : Forall event_packet ps -> forall rest s, possible h s ->
  pending h s s = concat ps ++ rest ->
  let (s', rs) := repeated (link_read F V C) (length ps) s in
  rs = map (link_result F V) ps /\ took h s s' (concat ps).
Proof.
  induction 1 as [|p ps Hp _ IH]; intros rest s Hs Hl; cbn [length repeated].
  - split; [reflexivity|]. now apply took_refl.
  - pose proof (link_read_front s Hs) as K. destruct (link_read F V C s) as [s1 r] eqn:Er.
    assert (Ha : arrives h s s1 /\ possible h s1)
      by (destruct (link_front _); destruct K as [_ K]; split; apply K).
    destruct Ha as [Ha Hs1].
    destruct (pending_start s s1 Hs Ha) as [more M]. rewrite Hl in M.
    destruct Hp as (code & params & -> & Hp).
    assert (M' : pending h s s1 = framed code params ++ (concat ps ++ rest ++ more))
      by (rewrite M; cbn [concat]; now rewrite <- !app_assoc).
    rewrite M', link_front_whole in K. destruct K as [-> HT].
    pose proof HT as (_ & _ & _ & T4 & _).
    assert (Hl1 : pending h s1 s1 = concat ps ++ (rest ++ more)).
    { unfold pending at 1. rewrite T4, skipn_add. fold (pending h s s1). rewrite M'.
      now rewrite skipn_all_app. }
    specialize (IH _ s1 Hs1 Hl1). destruct (repeated _ _ s1) as [s2 rs]. destruct IH as [-> HT2].
    split; [reflexivity|]. cbn [concat]. eapply took_then; eassumption.
Qed.

(** A foreign packet type stays in front. *)
Lemma foreign_buffered n s t : possible h s -> nth_error (pending h s s) 0 = Some t -> t <> 0x04 ->
  let (s', rs) := repeated (uart_read F V C) n s in
  rs = repeat (Err (Other (UBadPacketType t))) n /\ nothing h s s'.
Proof.
  intros Hs Ht Hne. revert s Hs Ht. induction n as [|n IH]; intros s Hs Ht; cbn [repeated].
  - split; [reflexivity|]. split; [exact Hs|]. split; [apply arrives_refl|auto].
  - pose proof (uart_read_front s Hs) as K. destruct (uart_read F V C s) as [s1 r] eqn:Er.
    assert (Ha : arrives h s s1 /\ possible h s1)
      by (destruct (uart_front _); destruct K as [_ K]; split; apply K).
    destruct Ha as [Ha Hs1].
    assert (Hc : (consumed h s <= length (received h s))%nat) by now apply (consumed_received _ _ HC).
    pose proof (pending_nth h s s s1 0 t Hc Ha Ht) as Q.
    destruct (pending h s s1) as [|x l] eqn:Ep; [discriminate Q|]. cbn in Q. injection Q as ->.
    cbn [uart_front] in K. rewrite (proj2 (N.eqb_neq t 4) Hne) in K. destruct K as [-> HN].
    assert (Q1 : nth_error (pending h s1 s1) 0 = Some t)
      by (destruct HN as (_ & _ & C1 & _); rewrite (pending_same h s s1 s1 C1), Ep; reflexivity).
    specialize (IH s1 Hs1 Q1). destruct (repeated _ n s1) as [s2 rs]. destruct IH as [-> HN2].
    split; [reflexivity|]. eapply nothing_trans; eassumption.
Qed.
End Buffering.

Section Sessions.
Context (F : features) (V : vendor) {St E : Type} (C : controller St E) (h : history St)
  (HC : contract C h).

(** With any controller a foreign packet type is never consumed. *)
Lemma foreign_stuck n s t : possible h s -> nth_error (pending h s s) 0 = Some t -> t <> 0x04 ->
  let (s', rs) := repeated (uart_read F V C) n s in
  nothing h s s'
  /\ Forall (fun r => r = Err (Other (UBadPacketType t)) \/ r = Err WouldBlock
                      \/ exists e, r = Err (Other (UComm e))) rs.
Proof.
  intros Hs Ht Hne. revert s Hs Ht. induction n as [|n IH]; intros s Hs Ht; cbn [repeated].
  - split; [|constructor]. split; [exact Hs|]. split; [apply arrives_refl|auto].
  - destruct (uart_read_cases F V C h HC s Hs) as (s1 & r & -> & K).
    assert (Ha : arrives h s s1 /\ possible h s1)
      by (destruct K as [(_ & K & _)|(p & _ & K & _)]; split; apply K).
    destruct Ha as [Ha Hs1].
    assert (Hc : (consumed h s <= length (received h s))%nat) by now apply (consumed_received _ _ HC).
    pose proof (pending_nth h s s s1 0 t Hc Ha Ht) as Q.
    destruct K as [(Hf & HN & Hbad)|(p & Hp & HT & ->)].
    + assert (Q1 : nth_error (pending h s1 s1) 0 = Some t)
        by (destruct HN as (_ & _ & C1 & _); now rewrite (pending_same h s s1 s1 C1)).
      specialize (IH s1 Hs1 Q1). destruct (repeated _ n s1) as [s2 rs]. destruct IH as [HN2 Hrs].
      split; [eapply nothing_trans; eassumption|]. constructor; [|exact Hrs].
      destruct r as [|[[t'| |]|]|]; try discriminate Hf; eauto.
      left. destruct (Hbad t' eq_refl) as [_ Q2]. congruence.
    + exfalso. destruct HT as (_ & _ & [more M] & _). rewrite M in Q. cbn in Q. congruence.
Qed.

(** ** Sessions *)
Lemma call_contract c s : arguments_typed F c -> possible h s ->
  let (s', r) := run_command F V uart_header C c s in
  possible h s' /\ arrives h s s' /\ consumed h s' = consumed h s
  /\ written h s' = written h s ++ (if succeeded r then command_bytes c else []).
Proof.
  intros HA Hs. assert (HH : In (uart_header, uart_header_bytes) header_formats) by (left; reflexivity).
  destruct (@rejection V E c) as [e|] eqn:HR.
  - rewrite (call_rejected F V uart_header uart_header_bytes C HH c s e) by assumption. cbn [succeeded].
    rewrite app_nil_r. split; [exact Hs|]. split; [apply arrives_refl|auto].
  - rewrite (call_written F V uart_header uart_header_bytes C HH) by assumption.
    pose proof (write_contract _ _ HC s (uart_header_bytes (command_opcode c) (length (command_params c)))
      (command_params c) Hs) as W.
    destruct (ctl_write _ _ _ _) as [s' r]. destruct W as (W1 & W2 & W3 & W4).
    split; [exact W1|]. split; [exact W2|]. split; [exact W3|].
    unfold reported. destruct r as [[]|e|]; [|rewrite W4|contradiction].
    + destruct (has_own_errors c); exact W4.
    + destruct (has_own_errors c), e; cbn [succeeded]; now rewrite app_nil_r.
Qed.

Lemma session_spec os s : Forall (typed_operation F) os -> possible h s ->
  let (s', log) := session F V C os s in
  map fst log = os
  /\ written h s' = written h s ++ flat_map command_bytes (sent_commands log)
  /\ exists ps, Forall event_packet ps
      /\ (exists more, pending h s s' = flat_map uart_frame ps ++ more)
      /\ consumed h s' = (consumed h s + length (flat_map uart_frame ps))%nat
      /\ received_packets log = map (uart_result F V) ps.
Proof.
  intros H. revert s.
  assert (G : forall s, possible h s ->
    let (s', log) := session F V C os s in
    possible h s' /\ arrives h s s' /\
    map fst log = os
    /\ written h s' = written h s ++ flat_map command_bytes (sent_commands log)
    /\ exists ps, Forall event_packet ps
        /\ (exists more, pending h s s' = flat_map uart_frame ps ++ more)
        /\ consumed h s' = (consumed h s + length (flat_map uart_frame ps))%nat
        /\ received_packets log = map (uart_result F V) ps).
  2: { intros s Hs. specialize (G s Hs). destruct (session F V C os s). tauto. }
  induction H as [|o os Ho _ IH]; intros s Hs; cbn [session].
  - split; [exact Hs|]. split; [apply arrives_refl|]. split; [reflexivity|]. split; [now rewrite app_nil_r|].
    exists []. split; [constructor|]. split; [now eexists|]. cbn. split; [lia|reflexivity].
  - destruct o as [c|]; cbn [perform].
    + pose proof (call_contract c s Ho Hs) as K. destruct (run_command _ _ _ _ _ _) as [s1 r].
      destruct K as (K1 & K2 & K3 & K4). specialize (IH s1 K1). destruct (session F V C os s1) as [s2 log].
      destruct IH as (I1 & I2 & I3 & I4 & ps & I5 & I6 & I7 & I8).
      split; [exact I1|]. split; [eapply arrives_trans; eassumption|]. split; [cbn; now rewrite I3|].
      split.
      * rewrite I4, K4, <- app_assoc. unfold sent_commands. cbn [flat_map].
        destruct (succeeded r); reflexivity.
      * exists ps. split; [exact I5|]. rewrite <- (pending_same h s s1 s2 K3). split; [exact I6|].
        split; [lia|]. exact I8.
    + destruct (uart_read_cases F V C h HC s Hs) as (s1 & r & -> & K).
      destruct K as [(Hf & HN & _)|(p & Hp & HT & ->)].
      * destruct HN as (K1 & K2 & K3 & K4).
        specialize (IH s1 K1). destruct (session F V C os s1) as [s2 log].
        destruct IH as (I1 & I2 & I3 & I4 & ps & I5 & I6 & I7 & I8).
        split; [exact I1|]. split; [eapply arrives_trans; eassumption|]. split; [cbn; now rewrite I3|].
        split; [rewrite I4, K4; reflexivity|].
        exists ps. split; [exact I5|]. rewrite <- (pending_same h s s1 s2 K3). split; [exact I6|].
        split; [lia|]. unfold received_packets. cbn [flat_map]. rewrite Hf. exact I8.
      * pose proof HT as (K1 & K2 & _ & K3 & K4).
        specialize (IH s1 K1). destruct (session F V C os s1) as [s2 log].
        destruct IH as (I1 & I2 & I3 & I4 & ps & I5 & I6 & I7 & I8).
        split; [exact I1|]. split; [eapply arrives_trans; eassumption|]. split; [cbn; now rewrite I3|].
        split; [rewrite I4, K4; reflexivity|].
        exists (p :: ps). split; [now constructor|].
        destruct HT as (_ & _ & [x X] & _). destruct I6 as [y Y].
        destruct (pending_grows h s s1 s2) as [z Z]; [|exact I2|].
        { apply (consumed_received _ _ HC) in K1. lia. }
        assert (W : x ++ z = flat_map uart_frame ps ++ y).
        { unfold pending in Y. rewrite K3, skipn_add in Y. fold (pending h s s2) in Y.
          now rewrite Z, X, <- app_assoc, skipn_all_app in Y by reflexivity. }
        split; [exists y; cbn [flat_map]; rewrite Z, X, <- !app_assoc; f_equal; exact W|].
        split; [cbn [flat_map]; rewrite app_length; lia|].
        unfold received_packets. cbn [flat_map map]. rewrite uart_result_reports. cbn [app]. f_equal. exact I8.
Qed.
End Sessions.

Lemma uart_nothing_lost F V {St E} (C : controller St E) h s : contract C h -> possible h s ->
  let (s', r) := uart_read F V C s in
  uart_reports V r = false -> nothing h s s'.
Proof.
  intros HC Hs. destruct (uart_read_cases F V C h HC s Hs) as (s' & r & -> & [(_ & H & _)|(p & _ & _ & ->)]).
  - auto.
  - now rewrite uart_result_reports.
Qed.
Lemma link_nothing_lost F V {St E} (C : controller St E) h s : contract C h -> possible h s ->
  let (s', r) := link_read F V C s in
  link_reports V r = false -> nothing h s s'.
Proof.
  intros HC Hs. destruct (link_read_cases F V C h HC s Hs) as (s' & r & -> & [(_ & H)|(p & _ & _ & ->)]).
  - auto.
  - now rewrite link_result_reports.
Qed.

(** ** Everything arrives *)
Lemma uart_read_keeps F V {St E} (C : controller St E) (P : St -> Prop) s :
  P (fst (ctl_peek C s 0)) -> (forall s n, P s -> P (fst (ctl_peek C s n))) ->
  (forall s buf, P s -> P (fst (ctl_read_into C s buf))) ->
  P (fst (uart_read F V C s)).
Proof.
  intros H0 Hp Hr. unfold uart_read, abind, amap_err.
  destruct (ctl_peek C s 0) as [s1 [t|e|]]; try exact H0. cbn [map_err fst] in *.
  destruct (t =? 4); [|exact H0].
  unfold uart_read_event, abind, amap_err, read_into_prefix, pure, abind.
  specialize (Hp s1 2%nat H0). destruct (ctl_peek C s1 2) as [s2 [n|e|]]; try exact Hp. cbn [map_err fst] in *.
  destruct (slice _ _ _) as [sub|e|]; try exact Hp.
  specialize (Hr s2 sub Hp). destruct (ctl_read_into C s2 sub) as [s3 [d|e|]]; try exact Hr.
  cbn [map_err fst] in *. destruct (slice _ _ _) as [pkt|e|]; try exact Hr.
  destruct (event_new F V pkt); exact Hr.
Qed.

Definition q_total (s : queue) : list N := q_received s ++ concat (q_arrivals s).

Lemma q_arrive_total s : q_total (q_arrive s) = q_total s
  /\ length (q_arrivals (q_arrive s)) = pred (length (q_arrivals s)).
Proof.
  unfold q_arrive, q_total. destruct (q_arrivals s) as [|c l] eqn:E; [rewrite E; auto|]. cbn.
  now rewrite <- app_assoc.
Qed.

Lemma queue_read_flow F V s :
  let s' := fst (uart_read F V queue_controller s) in
  q_total s' = q_total s /\ (length (q_arrivals s') <= pred (length (q_arrivals s)))%nat.
Proof.
  cbv zeta. apply (uart_read_keeps F V queue_controller
    (fun x => q_total x = q_total s /\ (length (q_arrivals x) <= pred (length (q_arrivals s)))%nat)).
  - cbn. destruct (q_arrive_total s) as [-> ->]. auto.
  - intros x n [H1 H2]. cbn. destruct (q_arrive_total x) as [-> ->]. split; [exact H1|]. lia.
  - intros x buf [H1 H2]. cbn. destruct (q_arrive_total x) as [A B].
    destruct (Nat.leb _ _); cbn [fst]; [|rewrite A, B; split; [exact H1|lia]].
    change (q_total (q_take (length buf) (q_arrive x))) with (q_total (q_arrive x)).
    change (q_arrivals (q_take (length buf) (q_arrive x))) with (q_arrivals (q_arrive x)).
    rewrite A, B. split; [exact H1|lia].
Qed.

Lemma queue_delivers F V n : forall ps s, possible queue_history s -> Forall event_packet ps ->
  q_pending s ++ concat (q_arrivals s) = flat_map uart_frame ps ->
  (length ps + length (q_arrivals s) <= n)%nat ->
  filter (uart_reports V) (snd (repeated (uart_read F V queue_controller) n s))
  = map (uart_result F V) ps.
Proof.
  pose proof queue_buffering as HB. pose proof (buffering_contract _ _ HB) as HC.
  induction n as [|n IH]; intros ps s Hs Hps Htot Hn.
  - destruct ps; [reflexivity|cbn in Hn; lia].
  - cbn [repeated]. pose proof (uart_read_front F V _ _ HB s Hs) as K.
    pose proof (queue_read_flow F V s) as [Q1 Q2].
    destruct (uart_read F V queue_controller s) as [s1 r]. cbn [fst] in Q1, Q2.
    destruct (repeated (uart_read F V queue_controller) n s1) as [s2 rs] eqn:Er. cbn [snd].
    assert (IH' : forall qs, Forall event_packet qs ->
      q_pending s1 ++ concat (q_arrivals s1) = flat_map uart_frame qs ->
      (length qs + length (q_arrivals s1) <= n)%nat ->
      filter (uart_reports V) rs = map (uart_result F V) qs).
    { intros qs Hq1 Hq2 Hq3.
      assert (Hs1 : possible queue_history s1) by (destruct (uart_front _); destruct K as [_ K]; apply K).
      specialize (IH qs s1 Hs1 Hq1 Hq2 Hq3). rewrite Er in IH. exact IH. }
    (* the bytes that are left *)
    assert (T : pending queue_history s s1 ++ concat (q_arrivals s1) = flat_map uart_frame ps).
    { rewrite <- Htot. unfold q_pending, pending. cbn [received consumed queue_history].
      assert (L1 : (q_consumed s <= length (q_received s))%nat) by apply Hs.
      assert (L2 : (q_consumed s <= length (q_received s1))%nat).
      { assert (Ha : arrives queue_history s s1) by (destruct (uart_front _); destruct K as [_ K]; apply K).
        destruct Ha as [m Hm]. cbn in Hm. rewrite Hm, app_length. lia. }
      unfold q_total in Q1. apply (f_equal (skipn (q_consumed s))) in Q1.
      rewrite !skipn_app in Q1. replace (q_consumed s - length (q_received s))%nat with 0%nat in Q1 by lia.
      replace (q_consumed s - length (q_received s1))%nat with 0%nat in Q1 by lia. exact Q1. }
    destruct (uart_front (pending queue_history s s1)) as [|t|p] eqn:Ef.
    + (* blocked *)
      destruct K as [-> (_ & _ & C1 & _)]. cbn [filter uart_reports].
      apply IH'; [exact Hps| |].
      * unfold q_pending. cbn in C1. rewrite C1. exact T.
      * destruct (q_arrivals s) as [|c l] eqn:Ea; [|cbn [length pred] in *; lia].
        (* nothing more to come: then there is no packet either *)
        destruct (q_arrivals s1) as [|? ?]; [|cbn in Q2; lia]. rewrite app_nil_r in T.
        destruct ps as [|p ps]; [cbn; lia|]. exfalso. inversion Hps as [|? ? Hp _]; subst.
        destruct Hp as (code & params & -> & _). rewrite T in Ef. cbn [flat_map uart_frame app uart_front] in Ef.
        rewrite N.eqb_refl in Ef. rewrite link_front_whole in Ef. discriminate Ef.
    + exfalso. destruct (pending queue_history s s1) as [|x l]; [discriminate Ef|].
      cbn [uart_front] in Ef. destruct (N.eqb_spec x 4) as [->|Hx].
      * unfold link_front in Ef. destruct l as [|? [|? ?]]; try discriminate Ef.
        destruct (Nat.leb _ _); discriminate Ef.
      * destruct ps as [|p ps]; [discriminate T|]. cbn [flat_map uart_frame app] in T.
        apply cons_inv in T. destruct T as [T _]. contradiction.
    + destruct K as [-> HT]. pose proof HT as (_ & _ & [more M] & C1 & _).
      destruct ps as [|p' ps]; [rewrite M in T; discriminate T|].
      inversion Hps as [|? ? Hp Hps']; subst.
      assert (p = p').
      { destruct Hp as (code & params & -> & _). rewrite M in Ef, T.
        cbn [flat_map uart_frame app] in T. apply cons_inv in T. destruct T as [_ T].
        rewrite <- !app_assoc in T.
        cbn [uart_frame app uart_front] in Ef. rewrite N.eqb_refl in Ef.
        assert (X : exists c q, p = framed c q).
        { unfold link_front in Ef. destruct (p ++ more) as [|c [|k rest]]; try discriminate Ef.
          destruct (Nat.leb_spec (N.to_nat k) (length rest)) as [Hk|]; [|discriminate Ef].
          injection Ef as <-. exists c, (firstn (N.to_nat k) rest). unfold framed.
          rewrite firstn_length, Nat.min_l, N2Nat.id by exact Hk. reflexivity. }
        destruct X as (c & q & ->).
        apply (f_equal link_front) in T. rewrite !link_front_whole in T. congruence. }
      subst p'. cbn [filter map]. rewrite uart_result_reports. f_equal.
      apply IH'; [exact Hps'| |cbn [length] in Hn; lia].
      rewrite M in T. cbn [flat_map] in T. rewrite <- !app_assoc in T. apply app_inv_head in T.
      rewrite <- T. f_equal. unfold q_pending. cbn in C1. rewrite C1.
      change (S (length p)) with (length (uart_frame p)).
      rewrite skipn_add.
      change (skipn (q_consumed s) (q_received s1) = uart_frame p ++ more) in M. rewrite M. now rewrite skipn_all_app.
Qed.
