(** * Lost and extra bytes (proofs). *)
From Verif Require Import Base Model_Types Model_EventBase Model_Event Model_Host Spec_Wire Spec_Errors Spec_Link
  Spec_Example Spec_Lost Proofs_Base Proofs_Link Proofs_Damage.
Open Scope list_scope.

Lemma lost_length i l : (i < length l)%nat -> S (length (lost i l)) = length l.
Proof. intros H. unfold lost. rewrite app_length, firstn_length, skipn_length. lia. Qed.
Lemma extra_length i b l : (i <= length l)%nat -> length (extra i b l) = S (length l).
Proof. intros H. unfold extra. rewrite app_length, firstn_length. cbn [length]. rewrite skipn_length. lia. Qed.
Lemma lost_bytes i l : bytes l -> bytes (lost i l).
Proof. intros H. unfold lost. apply Forall_app. split; [now apply bytes_firstn|now apply bytes_skipn]. Qed.
Lemma extra_bytes i b l : byte b -> bytes l -> bytes (extra i b l).
Proof.
  intros B H. unfold extra. apply Forall_app. split; [now apply bytes_firstn|].
  constructor; [exact B|now apply bytes_skipn].
Qed.

(** A parameter is lost, and another byte comes after all. *)
Lemma lost_packet i p b : event_packet p -> byte b -> (2 <= i < length p)%nat ->
  event_packet (lost i p ++ [b]).
Proof.
  intros (code & params & -> & Hc & Hb & Hl) B [I Hi]. destruct i as [|[|i]]; [lia|lia|].
  unfold framed in *. cbn [length app] in Hi. exists code, (lost i params ++ [b]).
  assert (L : length (lost i params ++ [b]) = length params).
  { rewrite app_length. cbn [length]. pose proof (lost_length i params ltac:(lia)). lia. }
  split; [unfold framed; rewrite L; reflexivity|]. split; [exact Hc|]. split; [|lia].
  apply Forall_app. split; [now apply lost_bytes|]. constructor; [exact B|constructor].
Qed.
(** An extra byte among the parameters: the last one is left over. *)
Lemma extra_packet i p b : event_packet p -> byte b -> (2 <= i < length p)%nat ->
  event_packet (removelast (extra i b p)) /\ extra i b p = removelast (extra i b p) ++ [last_byte p].
Proof.
  intros (code & params & -> & Hc & Hb & Hl) B [I Hi]. destruct i as [|[|i]]; [lia|lia|].
  unfold framed in *. cbn [length app] in Hi.
  set (len := N.of_nat (length params)).
  assert (X : extra (S (S i)) b ([code; len] ++ params) = [code; len] ++ extra i b params) by reflexivity.
  cbn [app] in X. rewrite X. clear X.
  change (code :: len :: extra i b params) with ([code; len] ++ extra i b params).
  assert (Ne : extra i b params <> []) by (unfold extra; now destruct (firstn i params)).
  rewrite removelast_app by exact Ne.
  assert (La : last (extra i b params) 0 = last_byte ([code; len] ++ params)).
  { unfold last_byte. rewrite <- (firstn_skipn i params) at 2.
    assert (Ns : skipn i params <> []) by (intros K; apply (f_equal (@length N)) in K;
      rewrite skipn_length in K; cbn in K; lia).
    assert (A : forall x y : list N, y <> [] -> last (x ++ y) 0 = last y 0).
    { intros x y Hy. induction x as [|a x IHx]; [reflexivity|]. cbn [app last].
      destruct (x ++ y) eqn:D; [destruct x; [now cbn in D|discriminate]|]. exact IHx. }
    unfold extra. rewrite !app_assoc. rewrite (A _ (skipn i params)) by exact Ns.
    rewrite A by discriminate. change (b :: skipn i params) with ([b] ++ skipn i params).
    now apply A. }
  pose proof (app_removelast_last 0 Ne) as Ap.
  assert (L : length (removelast (extra i b params)) = length params).
  { pose proof (extra_length i b params ltac:(lia)) as X. rewrite Ap in X.
    rewrite app_length in X. cbn [length] in X. lia. }
  split.
  - exists code, (removelast (extra i b params)). unfold framed. rewrite L.
    split; [reflexivity|]. split; [exact Hc|]. split; [|lia].
    pose proof (extra_bytes i b params B Hb) as X. rewrite Ap in X.
    apply Forall_app in X. apply X.
  - change (last_byte (code :: len :: params)) with (last_byte ([code; len] ++ params)).
    rewrite <- La, <- app_assoc, <- Ap. reflexivity.
Qed.

(** What the reader takes for the event code and the length. *)
Lemma header_lost code b p : 
  lost 1 (uart_frame (framed code p)) = [0x04; N.of_nat (length p)] ++ p
  /\ lost 2 (uart_frame (framed code p)) = [0x04; code] ++ p
  /\ extra 1 b (uart_frame (framed code p)) = [0x04; b; code] ++ N.of_nat (length p) :: p
  /\ extra 2 b (uart_frame (framed code p)) = [0x04; code; b] ++ N.of_nat (length p) :: p.
Proof. repeat split. Qed.
Lemma link_header_lost code b p :
  lost 0 (framed code p) = [N.of_nat (length p)] ++ p
  /\ lost 1 (framed code p) = [code] ++ p
  /\ extra 0 b (framed code p) = [b; code] ++ N.of_nat (length p) :: p
  /\ extra 1 b (framed code p) = [code; b] ++ N.of_nat (length p) :: p.
Proof. repeat split. Qed.

Section Lost.
Context (F : features) (V : vendor) {St E : Type} (C : controller St E) (h : history St).
Hypothesis HB : buffering C h.

(** Packets, then a byte that is no packet type. *)
Lemma stuck ps b tail s n : possible h s -> Forall event_packet ps -> b <> 0x04 ->
  pending h s s = flat_map uart_frame ps ++ b :: tail ->
  let (s', rs) := repeated (uart_read F V C) (length ps + n) s in
  rs = map (uart_result F V) ps ++ repeat (Err (Other (UBadPacketType b))) n.
Proof.
  intros Hs H1 Hb P.
  pose proof (uart_before_any F V C h HB ps _ s Hs H1 P) as U. rewrite repeated_add.
  destruct (repeated _ (length ps) s) as [s1 rs]. destruct U as (-> & Hs1 & more & P1).
  pose proof (foreign_buffered F V C h HB n s1 b Hs1) as K. rewrite P1 in K.
  specialize (K eq_refl Hb). destruct (repeated _ n s1) as [s2 qs]. destruct K as [-> _]. reflexivity.
Qed.

Lemma uart_before before broken after rest s : possible h s -> Forall event_packet before ->
  pending h s s = frames_around before broken after ++ rest ->
  let (s', rs) := repeated (uart_read F V C) (length before) s in
  rs = map (uart_result F V) before.
Proof.
  intros Hs H1 P. unfold frames_around in P. rewrite <- app_assoc in P.
  pose proof (uart_before_any F V C h HB before _ s Hs H1 P) as U.
  destruct (repeated _ (length before) s) as [s1 rs]. apply U.
Qed.
Lemma link_before before broken after rest s : possible h s -> Forall event_packet before ->
  pending h s s = packets_around before broken after ++ rest ->
  let (s', rs) := repeated (link_read F V C) (length before) s in
  rs = map (link_result F V) before.
Proof.
  intros Hs H1 P. unfold packets_around in P. rewrite <- app_assoc in P.
  pose proof (link_deliver F V C h HB before H1 _ s Hs P) as U.
  destruct (repeated _ (length before) s) as [s1 rs]. apply U.
Qed.

Lemma lost_parameter before i p q after rest s n : possible h s ->
  Forall event_packet before -> event_packet p -> event_packet q ->
  (3 <= i < length (uart_frame p))%nat -> at_ q 0 <> 0x04 ->
  pending h s s = frames_around before (lost i (uart_frame p)) (q :: after) ++ rest ->
  let (s', rs) := repeated (uart_read F V C) (length before + (1 + n)) s in
  rs = map (uart_result F V) before ++ [uart_result F V (lost (i - 1) p ++ [0x04])]
       ++ repeat (Err (Other (UBadPacketType (at_ q 0)))) n.
Proof.
  intros Hs H1 H2 H3 I Hq P. destruct i as [|i]; [lia|]. cbn [Nat.sub]. rewrite Nat.sub_0_r.
  cbn [uart_frame length] in I.
  assert (D : event_packet (lost i p ++ [4])) by (apply lost_packet; [exact H2|reflexivity|lia]).
  destruct H3 as (code & params & -> & H3). cbn [framed app at_ nth] in Hq.
  change (at_ (framed code params) 0) with code.
  pose proof (stuck (before ++ [lost i p ++ [4]]) code
    ((N.of_nat (length params) :: params) ++ flat_map uart_frame after ++ rest) s n Hs) as K.
  replace (length before + (1 + n))%nat with (length (before ++ [lost i p ++ [4%N]]) + n)%nat
    by (rewrite app_length, <- Nat.add_assoc; reflexivity).
  destruct (repeated _ _ s) as [s' rs]. rewrite K.
  - rewrite map_app. cbn [map]. now rewrite <- app_assoc.
  - apply Forall_app. split; [exact H1|]. constructor; [exact D|constructor].
  - exact Hq.
  - rewrite P. unfold frames_around. rewrite flat_map_app. cbn [flat_map].
    unfold uart_frame, framed, lost. cbn [firstn skipn app]. rewrite <- !app_assoc. cbn [app].
    rewrite <- !app_assoc. cbn [app]. now rewrite <- ?app_assoc.
Qed.
Lemma lost_type before p after rest s n : possible h s ->
  Forall event_packet before -> event_packet p -> at_ p 0 <> 0x04 ->
  pending h s s = frames_around before (lost 0 (uart_frame p)) after ++ rest ->
  let (s', rs) := repeated (uart_read F V C) (length before + n) s in
  rs = map (uart_result F V) before ++ repeat (Err (Other (UBadPacketType (at_ p 0)))) n.
Proof.
  intros Hs H1 (code & params & -> & _) Hq P.
  apply (stuck before _ ((N.of_nat (length params) :: params) ++ flat_map uart_frame after ++ rest) s n Hs H1 Hq).
  rewrite P. unfold frames_around, lost, uart_frame, framed, at_. cbn [firstn skipn app nth].
  rewrite <- !app_assoc. cbn [app]. now rewrite <- ?app_assoc.
Qed.
Lemma lost_last i p s : possible h s -> event_packet p -> (3 <= i < length (uart_frame p))%nat ->
  let (s', r) := uart_read F V C s in
  pending h s s' = lost i (uart_frame p) -> r = Err WouldBlock /\ nothing h s s'.
Proof.
  intros Hs (code & params & -> & _ & _ & Hl) I. pose proof (uart_read_front F V C h HB s Hs) as K.
  destruct (uart_read F V C s) as [s' r]. intros P. rewrite P in K.
  destruct i as [|[|[|i]]]; [lia|lia|lia|]. unfold uart_frame, framed in I. cbn [length app] in I.
  assert (Fr : uart_front (lost (S (S (S i))) (uart_frame (framed code params))) = Incomplete).
  { change (uart_front (4 :: code :: N.of_nat (length params) :: lost i params) = Incomplete).
    pose proof (lost_length i params ltac:(lia)) as L.
    unfold uart_front, link_front. change (4 =? 4) with true. cbv iota.
    rewrite Nnat.Nat2N.id. destruct (Nat.leb_spec (length params) (length (lost i params))) as [W|W];
      [lia|reflexivity]. }
  rewrite Fr in K. exact K.
Qed.

Lemma extra_parameter before i b p after rest s n : possible h s ->
  Forall event_packet before -> event_packet p -> byte b ->
  (3 <= i < length (uart_frame p))%nat -> last_byte p <> 0x04 ->
  pending h s s = frames_around before (extra i b (uart_frame p)) after ++ rest ->
  let (s', rs) := repeated (uart_read F V C) (length before + (1 + n)) s in
  rs = map (uart_result F V) before ++ [uart_result F V (removelast (extra (i - 1) b p))]
       ++ repeat (Err (Other (UBadPacketType (last_byte p)))) n.
Proof.
  intros Hs H1 H2 B I Hq P. destruct i as [|i]; [lia|]. cbn [Nat.sub]. rewrite Nat.sub_0_r.
  cbn [uart_frame length] in I.
  destruct (extra_packet i p b H2 B ltac:(lia)) as [D Ex].
  set (m := removelast (extra i b p)) in *.
  pose proof (stuck (before ++ [m]) (last_byte p) (flat_map uart_frame after ++ rest) s n Hs) as K.
  replace (length before + (1 + n))%nat with (length (before ++ [m]) + n)%nat
    by (rewrite app_length, <- Nat.add_assoc; reflexivity).
  destruct (repeated _ _ s) as [s' rs]. rewrite K.
  - rewrite map_app. cbn [map]. now rewrite <- app_assoc.
  - apply Forall_app. split; [exact H1|]. constructor; [exact D|constructor].
  - exact Hq.
  - rewrite P. unfold frames_around. rewrite flat_map_app. cbn [flat_map].
    change (extra (S i) b (uart_frame p)) with (4 :: extra i b p). rewrite Ex.
    unfold uart_frame at 3. cbn [app]. rewrite <- !app_assoc. cbn [app].
    now rewrite <- ?app_assoc.
Qed.
Lemma extra_between before b p after rest s n : possible h s ->
  Forall event_packet before -> b <> 0x04 ->
  pending h s s = frames_around before (extra 0 b (uart_frame p)) after ++ rest ->
  let (s', rs) := repeated (uart_read F V C) (length before + n) s in
  rs = map (uart_result F V) before ++ repeat (Err (Other (UBadPacketType b))) n.
Proof.
  intros Hs H1 Hq P.
  apply (stuck before _ (uart_frame p ++ flat_map uart_frame after ++ rest) s n Hs H1 Hq).
  rewrite P. unfold frames_around, extra. cbn [firstn skipn app].
  rewrite <- !app_assoc. cbn [app]. now rewrite <- ?app_assoc.
Qed.

(** Over an event link the reader goes on, out of step. *)
Lemma link_after ps tail s : possible h s -> Forall event_packet ps ->
  pending h s s = concat ps ++ tail ->
  let (s', rs) := repeated (link_read F V C) (length ps) s in
  rs = map (link_result F V) ps /\ exists more, pending h s' s' = tail ++ more.
Proof.
  intros Hs H P. pose proof (link_deliver F V C h HB ps H tail s Hs P) as U.
  destruct (repeated _ _ s) as [s' rs]. destruct U as [-> T]. split; [reflexivity|].
  destruct T as (Hs' & (more & A) & _ & N0 & _). exists more.
  unfold pending in *. rewrite N0, A.
  pose proof (consumed_received _ _ (buffering_contract _ _ HB) s Hs) as L.
  rewrite skipn_add, skipn_app, P.
  replace (consumed h s - length (received h s))%nat with 0%nat by lia. cbn [skipn].
  rewrite <- app_assoc, skipn_app, skipn_all, Nat.sub_diag. reflexivity.
Qed.
Lemma lost_link before i p q after rest s : possible h s ->
  Forall event_packet before -> event_packet p -> event_packet q -> (2 <= i < length p)%nat ->
  pending h s s = packets_around before (lost i p) (q :: after) ++ rest ->
  let (s', rs) := repeated (link_read F V C) (length before + 1) s in
  rs = map (link_result F V) before ++ [link_result F V (lost i p ++ [at_ q 0])]
  /\ exists more, pending h s' s' = skipn 1 q ++ concat after ++ rest ++ more.
Proof.
  intros Hs H1 H2 H3 I P. destruct H3 as (code & params & -> & Hc & H3).
  change (at_ (framed code params) 0) with code.
  assert (D : event_packet (lost i p ++ [code])) by (apply lost_packet; [exact H2|exact Hc|lia]).
  pose proof (link_after (before ++ [lost i p ++ [code]])
    ((N.of_nat (length params) :: params) ++ concat after ++ rest) s Hs) as K.
  replace (length before + 1)%nat with (length (before ++ [lost i p ++ [code]]))
    by (rewrite app_length; reflexivity).
  destruct (repeated _ _ s) as [s' rs]. destruct K as [-> [more M]].
  - apply Forall_app. split; [exact H1|]. constructor; [exact D|constructor].
  - rewrite P. unfold packets_around. rewrite concat_app. cbn [concat].
    unfold framed. cbn [app]. rewrite <- !app_assoc. cbn [app]. now rewrite <- ?app_assoc.
  - split; [now rewrite map_app|]. exists more. rewrite M. cbn [framed app skipn].
    now rewrite <- !app_assoc.
Qed.
Lemma extra_link before i b p after rest s : possible h s ->
  Forall event_packet before -> event_packet p -> byte b -> (2 <= i < length p)%nat ->
  pending h s s = packets_around before (extra i b p) after ++ rest ->
  let (s', rs) := repeated (link_read F V C) (length before + 1) s in
  rs = map (link_result F V) before ++ [link_result F V (removelast (extra i b p))]
  /\ exists more, pending h s' s' = last_byte p :: concat after ++ rest ++ more.
Proof.
  intros Hs H1 H2 B I P. destruct (extra_packet i p b H2 B ltac:(lia)) as [D Ex].
  set (m := removelast (extra i b p)) in *.
  pose proof (link_after (before ++ [m]) (last_byte p :: concat after ++ rest) s Hs) as K.
  replace (length before + 1)%nat with (length (before ++ [m])) by (rewrite app_length; reflexivity).
  destruct (repeated _ _ s) as [s' rs]. destruct K as [-> [more M]].
  - apply Forall_app. split; [exact H1|]. constructor; [exact D|constructor].
  - rewrite P. unfold packets_around. rewrite concat_app. cbn [concat]. rewrite Ex.
    rewrite <- !app_assoc. cbn [app]. now rewrite <- ?app_assoc.
  - split; [now rewrite map_app|]. exists more. rewrite M. cbn [app]. now rewrite <- !app_assoc.
Qed.

(** Whatever comes after the packets before: the reader takes the second byte for the event code and the
    third for the length. *)
Lemma out_of_step code k left l : bytes l -> l = [code; k] ++ left -> (N.to_nat k <= length left)%nat ->
  event_packet ([code; k] ++ firstn (N.to_nat k) left).
Proof.
  intros B -> L. apply Forall_app in B. destruct B as [B1 B2].
  inversion B1 as [|? ? Hc B3]; subst. inversion B3 as [|? ? Hk _]; subst.
  exists code, (firstn (N.to_nat k) left). unfold framed. rewrite firstn_length, Nat.min_l by exact L.
  rewrite Nnat.N2Nat.id. split; [reflexivity|]. split; [exact Hc|].
  split; [now apply bytes_firstn|]. unfold byte in Hk. lia.
Qed.
Lemma uart_next before broken after rest code k left s : possible h s -> Forall event_packet before ->
  pending h s s = frames_around before broken after ++ rest ->
  broken ++ flat_map uart_frame after ++ rest = [0x04; code; k] ++ left -> (N.to_nat k <= length left)%nat ->
  let (s', rs) := repeated (uart_read F V C) (length before + 1) s in
  rs = map (uart_result F V) before ++ [uart_result F V ([code; k] ++ firstn (N.to_nat k) left)]
  /\ exists more, pending h s' s' = skipn (N.to_nat k) left ++ more.
Proof.
  intros Hs H1 P Q L. unfold frames_around in P. rewrite <- !app_assoc, Q in P.
  pose proof (pending_bytes _ _ (buffering_contract _ _ HB) s s Hs) as B. rewrite P in B.
  apply Forall_app in B. destruct B as [_ B]. inversion B as [|? ? _ B']; subst.
  pose proof (out_of_step code k left _ B' eq_refl L) as D.
  set (m := [code; k] ++ firstn (N.to_nat k) left) in *.
  pose proof (uart_before_any F V C h HB (before ++ [m]) (skipn (N.to_nat k) left) s Hs) as K.
  replace (length before + 1)%nat with (length (before ++ [m])) by (rewrite app_length; reflexivity).
  destruct (repeated _ _ s) as [s' rs]. destruct K as (-> & _ & more & M).
  - apply Forall_app. split; [exact H1|]. constructor; [exact D|constructor].
  - rewrite P, flat_map_app. cbn [flat_map]. rewrite app_nil_r, <- app_assoc. f_equal.
    unfold m, uart_frame. cbn [app]. now rewrite firstn_skipn.
  - split; [now rewrite map_app|]. now exists more.
Qed.
Lemma uart_short code k left s : possible h s -> (length left < N.to_nat k)%nat ->
  let (s', r) := uart_read F V C s in
  pending h s s' = [0x04; code; k] ++ left -> r = Err WouldBlock /\ nothing h s s'.
Proof.
  intros Hs L. pose proof (uart_read_front F V C h HB s Hs) as K.
  destruct (uart_read F V C s) as [s' r]. intros P. rewrite P in K.
  assert (Fr : uart_front ([0x04; code; k] ++ left) = Incomplete).
  { unfold uart_front, link_front. cbn [app]. change (4 =? 4) with true. cbv iota.
    destruct (Nat.leb_spec (N.to_nat k) (length left)) as [W|W]; [lia|reflexivity]. }
  rewrite Fr in K. exact K.
Qed.
Lemma link_next before broken after rest code k left s : possible h s -> Forall event_packet before ->
  pending h s s = packets_around before broken after ++ rest ->
  broken ++ concat after ++ rest = [code; k] ++ left -> (N.to_nat k <= length left)%nat ->
  let (s', rs) := repeated (link_read F V C) (length before + 1) s in
  rs = map (link_result F V) before ++ [link_result F V ([code; k] ++ firstn (N.to_nat k) left)]
  /\ exists more, pending h s' s' = skipn (N.to_nat k) left ++ more.
Proof.
  intros Hs H1 P Q L. unfold packets_around in P. rewrite <- !app_assoc, Q in P.
  pose proof (pending_bytes _ _ (buffering_contract _ _ HB) s s Hs) as B. rewrite P in B.
  apply Forall_app in B. destruct B as [_ B].
  pose proof (out_of_step code k left _ B eq_refl L) as D.
  set (m := [code; k] ++ firstn (N.to_nat k) left) in *.
  pose proof (link_after (before ++ [m]) (skipn (N.to_nat k) left) s Hs) as K.
  replace (length before + 1)%nat with (length (before ++ [m])) by (rewrite app_length; reflexivity).
  destruct (repeated _ _ s) as [s' rs]. destruct K as [-> M].
  - apply Forall_app. split; [exact H1|]. constructor; [exact D|constructor].
  - rewrite P, concat_app. cbn [concat]. rewrite app_nil_r, <- app_assoc. f_equal.
    unfold m. cbn [app]. now rewrite firstn_skipn.
  - split; [now rewrite map_app|exact M].
Qed.
Lemma link_short code k left s : possible h s -> (length left < N.to_nat k)%nat ->
  let (s', r) := link_read F V C s in
  pending h s s' = [code; k] ++ left -> r = Err WouldBlock /\ nothing h s s'.
Proof.
  intros Hs L. pose proof (link_read_front F V C h HB s Hs) as K.
  destruct (link_read F V C s) as [s' r]. intros P. rewrite P in K.
  assert (Fr : link_front ([code; k] ++ left) = Incomplete).
  { unfold link_front. cbn [app].
    destruct (Nat.leb_spec (N.to_nat k) (length left)) as [W|W]; [lia|reflexivity]. }
  rewrite Fr in K. exact K.
Qed.
End Lost.

(** ** One lost byte *)
Lemma lost_neighbour F V : exists p q i s,
  event_packet p /\ event_packet q /\ (i < length (uart_frame p))%nat /\ possible queue_history s
  /\ pending queue_history s s = frames_around [] (lost i (uart_frame p)) [q]
  /\ exists ev, @uart_result F V N q = Ok (PEvent ev)
     /\ forall n, ~ In (Ok (PEvent ev)) (snd (repeated (uart_read F V queue_controller) n s)).
Proof.
  exists first_packet, second_packet, 3%nat,
    (damaged_queue (frames_around [] (lost 3 (uart_frame first_packet)) [second_packet])).
  destruct two_packets as [P Q]. split; [exact P|]. split; [exact Q|]. split; [cbn; lia|].
  split; [apply damaged_possible; repeat constructor|]. split; [reflexivity|].
  eexists. split; [reflexivity|]. intros [|n]; [intros []|].
  pose proof (lost_parameter F V queue_controller queue_history queue_buffering [] 3 first_packet
    second_packet [] [] (damaged_queue (frames_around [] (lost 3 (uart_frame first_packet)) [second_packet])) n) as K.
  cbn [length Nat.add] in K. destruct (repeated _ (S n) _) as [s' rs]. cbn [snd].
  rewrite K; clear K.
  - cbn [map app]. intros [H|H]; [discriminate H|]. apply repeat_spec in H. discriminate H.
  - apply damaged_possible. repeat constructor.
  - constructor.
  - exact P.
  - exact Q.
  - cbn. lia.
  - discriminate.
  - reflexivity.
Qed.
Lemma lost_neighbour_link F V : exists p q i s,
  event_packet p /\ event_packet q /\ (i < length p)%nat /\ possible queue_history s
  /\ pending queue_history s s = packets_around [] (lost i p) [q]
  /\ exists ev, @link_result F V N q = Ok ev
     /\ forall n, ~ In (Ok ev) (snd (repeated (link_read F V queue_controller) n s)).
Proof.
  exists first_packet, second_packet, 2%nat,
    (damaged_queue (packets_around [] (lost 2 first_packet) [second_packet])).
  destruct two_packets as [P Q]. split; [exact P|]. split; [exact Q|]. split; [cbn; lia|].
  split; [apply damaged_possible; repeat constructor|]. split; [reflexivity|].
  eexists. split; [reflexivity|]. intros [|n]; [intros []|]. cbn [repeated].
  destruct (link_read F V queue_controller _) as [s1 r] eqn:R. cbv in R. injection R as <- <-.
  intros H. destruct n as [|n].
  { destruct H as [H|[]]. discriminate H. }
  cbn [repeated] in H.
  destruct (link_read F V queue_controller _) as [s2 r] eqn:R. cbv in R. injection R as <- <-.
  pose proof (empty_link F V [16; 1; 26; 1; 0] n) as K.
  unfold emptied in K. cbn [length] in K. rewrite K in H. cbn [snd] in H.
  destruct H as [H|[H|H]]; [discriminate H|discriminate H|].
  apply repeat_spec in H. discriminate H.
Qed.
