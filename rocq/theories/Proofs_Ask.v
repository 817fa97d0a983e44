(** * Asking first which commands there are (proofs). *)
From Verif Require Import Base Model_Types Model_Bitflags Model_FlagNames Model_EventBase Model_Command Model_Event
  Model_Host Spec_Wire Spec_Errors Spec_Flags Spec_Host Spec_Link Spec_FlagNames Spec_Retry Spec_Dialogue Spec_Ask
  Proofs_Base Proofs_Flags Proofs_FlagNames Proofs_Dialogue.
Open Scope list_scope.
Open Scope N_scope.

Lemma flag_or_not {V} (c : command V) :
  (command_flag c = None /\ supported_bit c = None)
  \/ exists name o b, command_flag c = Some name /\ supported_bit c = Some (o, b).
Proof. destruct c; cbn; try (left; split; reflexivity); right; do 3 eexists; split; reflexivity. Qed.

Lemma listed_has F V commands (c : command V) : length commands = 64%nat -> bytes commands ->
  only_defined (command_bit_defined F) (array_bit commands) ->
  is_listed F commands c = has_command commands c.
Proof.
  intros Hl Hb Hd. unfold is_listed, has_command.
  destruct (flag_or_not c) as [[-> ->]|(name & o & b & Hn & Hs)]; [reflexivity|].
  pose proof (command_declared F V c name o b Hn Hs) as Hc.
  pose proof (supported_bit_range V c o b Hs) as [Ho Hb8].
  rewrite Hn, Hs, Hc. rewrite (is_set_spec F command_table).
  - unfold flag_bit, array_bit. cbn [fst snd]. rewrite N.log2_pow2 by lia.
    replace ((8 * N.of_nat (N.to_nat o) + b) / 8) with o by lia.
    replace ((8 * N.of_nat (N.to_nat o) + b) mod 8) with b by lia.
    rewrite (nth_error_nth' commands 0) by (rewrite Hl; lia). reflexivity.
  - apply command_good.
  - split; [exact Hl|]. split; [exact Hb|exact Hd].
  - unfold constants, ba_flags. apply in_map_iff.
    unfold command_constant in Hc. destruct (declared_in _ _ _ _ _ Hc) as (g & Hin & Hg).
    exists (N.to_nat o, 2 ^ b, g). split; [reflexivity|]. apply filter_In. now split.
Qed.

Lemma told_list F V op p pkt : answered F V op (Completed (RetReadLocalSupportedCommands p)) pkt ->
  length (lsc_commands p) = 64%nat /\ bytes (lsc_commands p)
  /\ only_defined (command_bit_defined F) (array_bit (lsc_commands p)).
Proof.
  intros H. inversion H as [n r ret Hn Hb Hl Hw|]; subst. cbn [wire_return] in Hw.
  destruct Hw as (_ & L & D & sb & _ & ->). split; [exact L|]. split; [|exact D].
  inversion Hb; assumption.
Qed.

Lemma filter_same {A} (f g : A -> bool) l : (forall x, f x = g x) -> filter f l = filter g l.
Proof. intros H. induction l as [|x l IH]; [reflexivity|]. cbn. now rewrite H, IH. Qed.

Lemma careful F V respond wanted commands answers s ps :
  let sent := filter (has_command commands) wanted in
  Forall (fun c => arguments_typed F c /\ @rejection V N c = None) wanted ->
  possible queue_history s -> takes (S (length sent)) (q_ready s) ->
  q_pending s ++ concat (q_arrivals s) = flat_map uart_frame ps -> Forall (unrelated F V) ps ->
  serves F V respond (q_written s) (CReadLocalSupportedCommands :: sent)
    (Completed (RetReadLocalSupportedCommands
       {| lsc_status := Success; lsc_commands := commands |}) :: answers) ->
  exists m, forall n, (m <= n)%nat ->
  exists s', ask_first_which F V (device respond) n wanted s = (s', Some (combine sent (map Some answers)))
    /\ q_written s' = q_written s ++ command_bytes (V := V) CReadLocalSupportedCommands ++ flat_map command_bytes sent.
Proof.
  intros sent Hw Hs HT Hp Hps HS.
  assert (Hc : filter (is_listed F commands) wanted = sent).
  { inversion HS as [|? ? ? a rest before p after HB HC Hb Ha HP HS']; subst.
    apply told_list in HP. cbn [lsc_commands] in HP. destruct HP as (L & B & D).
    apply filter_same. intros c. exact (listed_has F V commands c L B D). }
  assert (HA : Forall (fun c => arguments_typed F c /\ @rejection V N c = None) (CReadLocalSupportedCommands :: sent)).
  { constructor.
    - split; [|reflexivity]. cbn. auto.
    - apply Forall_forall. intros c Hin. apply filter_In in Hin. rewrite Forall_forall in Hw.
      exact (Hw c (proj1 Hin)). }
  destruct (dialogues F V respond _ _ s ps HA Hs HT Hp Hps HS) as [m Hm].
  exists m. intros n Hn. destruct (Hm n Hn) as (s' & E & W). cbn [asks map] in E.
  unfold ask_first_which. destruct (ask F V (device respond) n CReadLocalSupportedCommands s) as [s1 a1].
  destruct (asks F V (device respond) n sent s1) as [s2 l2] eqn:E2. injection E as -> -> ->.
  cbn [lsc_status lsc_commands]. rewrite Hc, E2. exists s'. split; [reflexivity|].
  rewrite W. cbn [flat_map]. reflexivity.
Qed.

Lemma list_given F V p pkt (c : command V) :
  answered F V (command_opcode (V := V) CReadLocalSupportedCommands) (Completed (RetReadLocalSupportedCommands p)) pkt ->
  is_listed F (lsc_commands p) c = has_command (skipn 6 pkt) c.
Proof.
  intros H. destruct (told_list F V _ p pkt H) as (L & B & D). rewrite (listed_has F V _ c L B D).
  inversion H as [n r ret Hn Hb Hl Hw|]; subst. cbn [wire_return] in Hw. destruct Hw as (_ & _ & _ & sb & _ & ->).
  unfold framed. rewrite le_2. reflexivity.
Qed.

From Verif Require Import Spec_Split Proofs_Event Proofs_Complete Proofs_Link Proofs_Retry Proofs_Split.
Lemma link_careful F V respond wanted commands answers s ps :
  let sent := filter (has_command commands) wanted in
  Forall (fun c => arguments_typed F c /\ @rejection V N c = None) wanted ->
  possible queue_history s -> takes (S (length sent)) (q_ready s) ->
  q_pending s ++ concat (q_arrivals s) = concat ps -> Forall (unrelated F V) ps ->
  link_serves F V respond (q_written s) (CReadLocalSupportedCommands :: sent)
    (Completed (RetReadLocalSupportedCommands
       {| lsc_status := Success; lsc_commands := commands |}) :: answers) ->
  exists m, forall n, (m <= n)%nat ->
  exists s', link_ask_first_which F V (device respond) n wanted s = (s', Some (combine sent (map Some answers)))
    /\ q_written s' = q_written s ++ link_bytes (V := V) CReadLocalSupportedCommands ++ flat_map link_bytes sent.
Proof.
  intros sent Hw Hs HT Hp Hps HS.
  assert (Hc : filter (is_listed F commands) wanted = sent).
  { inversion HS as [|? ? ? a rest before p after HB HC Hb Ha HP HS']; subst.
    apply told_list in HP. cbn [lsc_commands] in HP. destruct HP as (L & B & D).
    apply filter_same. intros c. exact (listed_has F V commands c L B D). }
  assert (HA : Forall (fun c => arguments_typed F c /\ @rejection V N c = None) (CReadLocalSupportedCommands :: sent)).
  { constructor.
    - split; [|reflexivity]. cbn. auto.
    - apply Forall_forall. intros c Hin. apply filter_In in Hin. rewrite Forall_forall in Hw.
      exact (Hw c (proj1 Hin)). }
  destruct (link_dialogues F V respond _ _ s ps HA Hs HT Hp Hps HS) as [m Hm].
  exists m. intros n Hn. destruct (Hm n Hn) as (s' & E & W). cbn [link_asks map] in E.
  unfold link_ask_first_which. destruct (link_ask F V (device respond) n CReadLocalSupportedCommands s) as [s1 a1].
  destruct (link_asks F V (device respond) n sent s1) as [s2 l2] eqn:E2. injection E as -> -> ->.
  cbn [lsc_status lsc_commands]. rewrite Hc, E2. exists s'. split; [reflexivity|].
  rewrite W. cbn [flat_map]. reflexivity.
Qed.

Section Any.
Context (F : features) (V : vendor) {St E : Type} (C : controller St E) (h : history St) (HC : contract C h).

Lemma await_writes op m n : forall s s' r, possible h s -> await F V C op m n s = (s', r) ->
  possible h s' /\ arrives h s s' /\ written h s' = written h s.
Proof.
  induction n as [|n IH]; intros s s' r Hs; cbn [await]; [intros [= <- <-]; auto using arrives_refl|].
  pose proof (wait_read F V C h HC m s Hs) as K.
  destruct (waiting blocked (uart_read F V C) m s) as [s1 r1].
  assert (K1 : possible h s1 /\ arrives h s s1 /\ written h s1 = written h s).
  { destruct r1 as [r1|]; [destruct K as [[_ K]|(p & _ & K & _)]|]; (split; [|split]); apply K. }
  destruct K1 as (P1 & A1 & W1).
  assert (Next : await F V C op m n s1 = (s', r) -> possible h s' /\ arrives h s s' /\ written h s' = written h s).
  { intros H. destruct (IH s1 s' r P1 H) as (P & A & W). split; [exact P|].
    split; [eapply arrives_trans; eassumption|congruence]. }
  destruct r1 as [[[ev]|e|]|]; try exact Next; try (intros [= <- <-]; auto).
  destruct (is_answer V op ev); [intros [= <- <-]; auto|exact Next].
Qed.

Lemma ask_writes c n s s' r : arguments_typed F c -> possible h s -> ask F V C n c s = (s', r) ->
  possible h s' /\ arrives h s s'
  /\ (written h s' = written h s ++ command_bytes c \/ (r = None /\ written h s' = written h s)).
Proof.
  intros HA Hs. unfold ask. pose proof (wait_command F V C h HC c n s HA Hs) as W.
  destruct (waiting _ _ n s) as [s1 r1]. destruct W as (P1 & A1 & _ & W1).
  destruct r1 as [r1|]; [|intros [= <- <-]; rewrite app_nil_r in W1; auto].
  destruct (succeeded r1); [|intros [= <- <-]; rewrite app_nil_r in W1; auto].
  intros H. destruct (await_writes _ _ _ _ _ _ P1 H) as (P & A & W). split; [exact P|].
  split; [eapply arrives_trans; eassumption|]. left. congruence.
Qed.

Lemma link_await_writes op m n : forall s s' r, possible h s -> link_await F V C op m n s = (s', r) ->
  possible h s' /\ arrives h s s' /\ written h s' = written h s.
Proof.
  induction n as [|n IH]; intros s s' r Hs; cbn [link_await]; [intros [= <- <-]; auto using arrives_refl|].
  pose proof (wait_link F V C h HC m s Hs) as K.
  destruct (waiting blocked (link_read F V C) m s) as [s1 r1].
  assert (K1 : possible h s1 /\ arrives h s s1 /\ written h s1 = written h s).
  { destruct r1 as [r1|]; [destruct K as [[_ K]|(p & _ & K & _)]|]; (split; [|split]); apply K. }
  destruct K1 as (P1 & A1 & W1).
  assert (Next : link_await F V C op m n s1 = (s', r) -> possible h s' /\ arrives h s s' /\ written h s' = written h s).
  { intros H. destruct (IH s1 s' r P1 H) as (P & A & W). split; [exact P|].
    split; [eapply arrives_trans; eassumption|congruence]. }
  destruct r1 as [[ev|e|]|]; try exact Next; try (intros [= <- <-]; auto).
  destruct (is_answer V op ev); [intros [= <- <-]; auto|exact Next].
Qed.

Lemma link_ask_writes c n s s' r : arguments_typed F c -> possible h s -> link_ask F V C n c s = (s', r) ->
  possible h s' /\ arrives h s s'
  /\ (written h s' = written h s ++ link_bytes c \/ (r = None /\ written h s' = written h s)).
Proof.
  intros HA Hs. unfold link_ask. pose proof (link_wait_command F V C h HC c n s HA Hs) as W.
  destruct (waiting _ _ n s) as [s1 r1]. destruct W as (P1 & A1 & _ & W1).
  destruct r1 as [r1|]; [|intros [= <- <-]; rewrite app_nil_r in W1; auto].
  destruct (succeeded r1); [|intros [= <- <-]; rewrite app_nil_r in W1; auto].
  intros H. destruct (link_await_writes _ _ _ _ _ _ P1 H) as (P & A & W). split; [exact P|].
  split; [eapply arrives_trans; eassumption|]. left. congruence.
Qed.

Lemma success_byte (b : N) : status_byte F V b Success -> b = 0.
Proof.
  unfold status_byte. destruct (nth_error (assigned_statuses F) (N.to_nat b)) as [x|] eqn:Hx.
  - intros <-. enough (N.to_nat b = 0%nat) by lia. revert Hx. generalize (N.to_nat b). intros k.
    destruct k as [|k]; [reflexivity|]. intros Hx. exfalso. revert k Hx. destruct F as [x y].
    assert (G : forall k l, nth_error l k = Some (@Success (VStatus V)) -> In Success l) by (intros k l; apply nth_error_In).
    intros k Hx. cbn [nth_error assigned_statuses] in Hx. destruct x, y; apply G in Hx; cbn in Hx;
      decompose [or] Hx; try discriminate; assumption.
  - intros (v & _ & Hv). discriminate Hv.
Qed.
Lemma list_taken op p pkt : event_packet pkt -> taken_for F V op (Completed (RetReadLocalSupportedCommands p)) pkt ->
  lsc_status p = Success ->
  exists k commands, length commands = 64%nat /\ pkt = framed 0x0E ([k; 0x02; 0x10; 0x00] ++ commands)
    /\ forall c : command V, is_listed F (lsc_commands p) c = has_command commands c.
Proof.
  intros (code & params & -> & B1 & B2 & B3) (ev & H & A) HS.
  assert (B : bytes (framed code params)).
  { unfold framed. constructor; [exact B1|]. constructor; [unfold byte; lia|exact B2]. }
  destruct ev; cbn [is_answer] in A; try discriminate A; [|destruct (_ =? _) in A; discriminate A].
  destruct e as [k r]. cbn [cc_return_params] in A.
  assert (r = RetReadLocalSupportedCommands p) as -> by (destruct r; congruence). clear A.
  apply command_complete_layout in H; [|exact B|discriminate].
  destruct H as (op' & ret & U & Hp & W). rewrite Hp in B |- *.
  cbn [wire_return] in W. destruct W as (Ho & L & D & sb & Hsb & ->).
  rewrite HS in Hsb. apply success_byte in Hsb. subst sb.
  exists k, (lsc_commands p). split; [exact L|]. split.
  - rewrite Ho. reflexivity.
  - intros c. apply (listed_has F V _ c L); [|exact D]. apply bytes_app in B; destruct B as [_ B]; apply bytes_app in B.
    destruct B as [_ B]; inversion B; assumption.
Qed.

Lemma some_incl {A} (l l' : list A) : some_of l l' -> incl l l'.
Proof. induction 1; intros y Hy; [destruct Hy| |destruct Hy as [->|Hy]]; [right|left|right]; auto. Qed.

Lemma map_fst_combine {A B} (l : list A) : forall l' : list B, length l' = length l -> map fst (combine l l') = l.
Proof. induction l as [|x l IH]; intros [|y l'] H; cbn in *; try discriminate; [reflexivity|]. now rewrite IH by lia. Qed.


(** Both transports at once. *)
Context (ask1 : nat -> command V -> St -> St * option (answer V))
  (asks1 : nat -> list (command V) -> St -> St * list (option (answer V)))
  (bytes_of : command V -> list N) (frame : list N -> list N).
Hypothesis (HW : forall c n s s' r, arguments_typed F c -> possible h s -> ask1 n c s = (s', r) ->
    possible h s' /\ arrives h s s'
    /\ (written h s' = written h s ++ bytes_of c \/ (r = None /\ written h s' = written h s)))
  (HF : forall c n s s' a, arguments_typed F c -> possible h s -> ask1 n c s = (s', Some a) ->
    exists ps p, Forall event_packet (ps ++ [p])
      /\ exchanged h s s' (bytes_of c) (flat_map frame (ps ++ [p]))
      /\ Forall (passed_over F V (command_opcode c)) ps /\ taken_for F V (command_opcode c) a p)
  (HN : forall n s, asks1 n [] s = (s, []))
  (HS : forall n c cs s, asks1 n (c :: cs) s
        = let (s, a) := ask1 n c s in let (s, rest) := asks1 n cs s in (s, a :: rest)).

Lemma asks_writes n cs : Forall (arguments_typed F) cs -> forall s s' l, possible h s ->
  asks1 n cs s = (s', l) -> arrives h s s' /\ length l = length cs
  /\ exists sent, some_of sent cs /\ written h s' = written h s ++ flat_map bytes_of sent.
Proof.
  induction 1 as [|c cs HA _ IH]; intros s s' l Hs; rewrite ?HN, ?HS.
  - intros [= <- <-]. split; [apply arrives_refl|]. split; [reflexivity|]. exists []. split; [constructor|]. cbn. now rewrite app_nil_r.
  - destruct (ask1 n c s) as [s1 a] eqn:Ea. destruct (HW _ _ _ _ _ HA Hs Ea) as (P1 & A1 & W1).
    destruct (asks1 n cs s1) as [s2 l2] eqn:El. destruct (IH _ _ _ P1 El) as (A2 & L & sent & S2 & W2).
    intros [= <- <-]. split; [eapply arrives_trans; eassumption|]. split; [cbn; congruence|]. destruct W1 as [W1|[_ W1]].
    + exists (c :: sent). split; [now constructor|]. cbn [flat_map]. now rewrite W2, W1, app_assoc.
    + exists sent. split; [now constructor|]. congruence.
Qed.

Definition which n wanted s : St * option (list (command V * option (answer V))) :=
  let (s, a) := ask1 n CReadLocalSupportedCommands s in
  match a with
  | Some (Completed (RetReadLocalSupportedCommands p)) =>
      match lsc_status p with
      | Success =>
          let cs := filter (is_listed F (lsc_commands p)) wanted in
          let (s, l) := asks1 n cs s in
          (s, Some (combine cs l))
      | _ => (s, None)
      end
  | _ => (s, None)
  end.
Lemma only_which n wanted s s' r : Forall (arguments_typed F) wanted -> possible h s ->
  which n wanted s = (s', r) ->
  match r with
  | None => written h s' = written h s
            \/ written h s' = written h s ++ bytes_of CReadLocalSupportedCommands
  | Some l => exists before k commands later sent,
      let pkt := framed 0x0E ([k; 0x02; 0x10; 0x00] ++ commands) in
      length commands = 64%nat /\ Forall event_packet (before ++ [pkt]) /\ Forall (passed_over F V 0x1002) before
      /\ pending h s s' = flat_map frame (before ++ [pkt]) ++ later
      /\ map fst l = filter (has_command commands) wanted /\ some_of sent (map fst l)
      /\ written h s' = written h s ++ bytes_of CReadLocalSupportedCommands ++ flat_map bytes_of sent
  end.
Proof.
  intros Hw Hs. unfold which.
  destruct (ask1 n CReadLocalSupportedCommands s) as [s1 a] eqn:Ea.
  assert (HQ : arguments_typed F (CReadLocalSupportedCommands (V := V))) by (cbn; auto).
  destruct (HW _ _ _ _ _ HQ Hs Ea) as (P1 & A1 & W1).
  assert (Stop : (s1, @None (list (command V * option (answer V)))) = (s', r) ->
  match r with
  | None => written h s' = written h s
            \/ written h s' = written h s ++ bytes_of CReadLocalSupportedCommands
  | Some l => exists before k commands later sent,
      let pkt := framed 0x0E ([k; 0x02; 0x10; 0x00] ++ commands) in
      length commands = 64%nat /\ Forall event_packet (before ++ [pkt]) /\ Forall (passed_over F V 0x1002) before
      /\ pending h s s' = flat_map frame (before ++ [pkt]) ++ later
      /\ map fst l = filter (has_command commands) wanted /\ some_of sent (map fst l)
      /\ written h s' = written h s ++ bytes_of CReadLocalSupportedCommands ++ flat_map bytes_of sent
  end).
  { intros [= <- <-]. destruct W1 as [W1|[_ W1]]; auto. }
  destruct a as [[r1|st]|]; try exact Stop. destruct r1; try exact Stop.
  destruct (lsc_status p) eqn:Es; try exact Stop. clear Stop.
  set (cs := filter (is_listed F (lsc_commands p)) wanted).
  destruct (asks1 n cs s1) as [s2 l] eqn:El. intros [= <- <-].
  destruct W1 as [W1|[X _]]; [|discriminate X].
  assert (Hcs : Forall (arguments_typed F) cs).
  { apply Forall_forall. intros c Hc. apply filter_In in Hc. rewrite Forall_forall in Hw. exact (Hw c (proj1 Hc)). }
  destruct (asks_writes n cs Hcs _ _ _ P1 El) as (A2 & L & sent & S2 & W2).
  destruct (HF _ _ _ _ _ HQ Hs Ea) as (before & pkt & B1 & (_ & _ & [more M] & _) & B2 & T).
  assert (Hp : event_packet pkt) by (apply Forall_app in B1; destruct B1 as [_ B1]; inversion B1; assumption).
  destruct (list_taken _ _ _ Hp T Es) as (k & commands & Q1 & -> & Q2).
  assert (Hg : exists later, pending h s s2 = pending h s s1 ++ later).
  { apply (pending_grows h s s1 s2); [|exact A2]. destruct A1 as [x X]. rewrite X, app_length.
    pose proof (consumed_received C h HC s Hs). lia. }
  destruct Hg as [later Hg].
  exists before, k, commands, (more ++ later), sent. cbv zeta. split; [exact Q1|]. split; [exact B1|].
  split; [exact B2|]. split; [rewrite Hg, M, app_assoc; reflexivity|].
  rewrite (map_fst_combine cs l L). split; [|split; [exact S2|]].
  - apply filter_same. exact Q2.
  - rewrite W2, W1, app_assoc. reflexivity.
Qed.
End Any.

Lemma only_listed F V St E (C : controller St E) h n wanted s s' r : contract C h ->
  Forall (arguments_typed F) wanted -> possible h s -> ask_first_which F V C n wanted s = (s', r) ->
  match r with
  | None => written h s' = written h s
            \/ written h s' = written h s ++ command_bytes (V := V) CReadLocalSupportedCommands
  | Some l => exists before k commands later sent,
      let pkt := framed 0x0E ([k; 0x02; 0x10; 0x00] ++ commands) in
      length commands = 64%nat /\ Forall event_packet (before ++ [pkt]) /\ Forall (passed_over F V 0x1002) before
      /\ pending h s s' = flat_map uart_frame (before ++ [pkt]) ++ later
      /\ map fst l = filter (has_command commands) wanted /\ some_of sent (map fst l)
      /\ written h s' = written h s ++ command_bytes (V := V) CReadLocalSupportedCommands ++ flat_map command_bytes sent
  end.
Proof.
  intros HC. exact (only_which F V C h HC (ask F V C) (asks F V C) command_bytes uart_frame
    (ask_writes F V C h HC) (ask_first F V C h HC) (fun n s => eq_refl) (fun n c cs s => eq_refl) n wanted s s' r).
Qed.
Lemma link_only_listed F V St E (C : controller St E) h n wanted s s' r : contract C h ->
  Forall (arguments_typed F) wanted -> possible h s -> link_ask_first_which F V C n wanted s = (s', r) ->
  match r with
  | None => written h s' = written h s
            \/ written h s' = written h s ++ link_bytes (V := V) CReadLocalSupportedCommands
  | Some l => exists before k commands later sent,
      let pkt := framed 0x0E ([k; 0x02; 0x10; 0x00] ++ commands) in
      length commands = 64%nat /\ Forall event_packet (before ++ [pkt]) /\ Forall (passed_over F V 0x1002) before
      /\ pending h s s' = concat (before ++ [pkt]) ++ later
      /\ map fst l = filter (has_command commands) wanted /\ some_of sent (map fst l)
      /\ written h s' = written h s ++ link_bytes (V := V) CReadLocalSupportedCommands ++ flat_map link_bytes sent
  end.
Proof.
  intros HC Hw Hs Hr.
  pose proof (only_which F V C h HC (link_ask F V C) (link_asks F V C) link_bytes (fun p => p)
    (link_ask_writes F V C h HC)) as K.
  assert (G : forall l : list (list N), flat_map (fun p => p) l = concat l).
  { induction l as [|x l IH]; [reflexivity|]. cbn. now rewrite IH. }
  specialize (K ltac:(intros c m x x' a HA Hx Ha; rewrite <- ?G;
    destruct (link_ask_first F V C h HC c m x x' a HA Hx Ha) as (ps & q & J); exists ps, q; now rewrite G)
    (fun n s => eq_refl) (fun n c cs s => eq_refl) n wanted s s' r Hw Hs Hr).
  destruct r as [l|]; [|exact K]. destruct K as (before & k & commands & later & sent & K).
  exists before, k, commands, later, sent. cbv zeta in *. now rewrite <- G.
Qed.

From Verif Require Import Spec_Example Proofs_Complete Proofs_Streams.
Lemma careful_case :
  let wanted := [CReset; CLeRand; CReadRssi 0x0201; CLeTestEnd] in
  let sent := [CReset; CReadRssi 0x0201] in
  let got :=
    [Completed (RetReset Success);
     Completed (RetReadRssi {| rssi_status := Success; rssi_conn_handle := 0x0201; rssi_rssi := (-16)%Z |})] in
  filter (has_command (V := test_vendor) example_list) wanted = sent
  /\ Forall (fun c => arguments_typed F41 c /\ @rejection test_vendor N c = None) wanted
  /\ possible queue_history example_device /\ takes 3 (q_ready example_device)
  /\ serves F41 test_vendor example_lister [] (CReadLocalSupportedCommands :: sent)
       (Completed (RetReadLocalSupportedCommands {| lsc_status := Success; lsc_commands := example_list |}) :: got)
  /\ snd (ask_first_which F41 test_vendor (device example_lister) 50 wanted example_device)
     = Some (combine sent (map Some got)).
Proof.
  cbv zeta. split; [vm_compute; reflexivity|].
  split; [repeat (constructor; [split; vm_compute; reflexivity|]); constructor|].
  split; [split; [constructor|split; [cbn; lia|constructor]]|].
  split; [apply (takes_more 2 1), (takes_more 1 0), (takes_more 0 2), takes_none|].
  split; [|vm_compute; reflexivity].
  apply (serves_one F41 test_vendor example_lister [] CReadLocalSupportedCommands _ _ _ []
           (framed 0x0E ([1; 0x02; 0x10; 0] ++ example_list)) []).
  - vm_compute. repeat constructor.
  - vm_compute. reflexivity.
  - constructor.
  - constructor.
  - assert (B : bytes (framed 0x0E ([1; 0x02; 0x10; 0] ++ example_list))) by (vm_compute; repeat constructor).
    destruct (answer_variant F41 test_vendor CReadLocalSupportedCommands _ 1 (0 :: example_list)
                (EvCommandComplete (Build_command_complete 1 (RetReadLocalSupportedCommands
                   {| lsc_status := Success; lsc_commands := example_list |})))
                eq_refl eq_refl B) as (r & E & _ & W); [vm_compute; reflexivity|].
    apply (f_equal (fun e => match e with EvCommandComplete x => cc_return_params x | _ => RetSpontaneous end)) in E.
    cbn [cc_return_params] in E. subst r.
    apply (by_completion F41 test_vendor (command_opcode (V := test_vendor) CReadLocalSupportedCommands) 1
             (RetReadLocalSupportedCommands {| lsc_status := Success; lsc_commands := example_list |})
             (0 :: example_list));
      [reflexivity|vm_compute; repeat constructor|vm_compute; lia|exact W].
  - apply (serves_one F41 test_vendor example_lister _ CReset _ _ _ [] [0x0E; 4; 1; 0x03; 0x0C; 0] []).
    + vm_compute. repeat constructor.
    + vm_compute. reflexivity.
    + constructor.
    + constructor.
    + apply (by_completion F41 test_vendor (command_opcode (V := test_vendor) CReset) 1 (RetReset Success) [0]);
        [reflexivity|repeat constructor|cbn; lia|]. split; [reflexivity|]. exists 0, []. split; reflexivity.
    + apply (serves_one F41 test_vendor example_lister _ (CReadRssi 0x0201) _ _ _ []
             [0x0E; 7; 1; 0x05; 0x14; 0; 0x01; 0x02; 0xF0] []).
      * vm_compute. repeat constructor.
      * vm_compute. reflexivity.
      * constructor.
      * constructor.
      * apply (by_completion F41 test_vendor (command_opcode (V := test_vendor) (CReadRssi 0x0201)) 1
          (RetReadRssi {| rssi_status := Success; rssi_conn_handle := 0x0201; rssi_rssi := (-16)%Z |})
          [0; 0x01; 0x02; 0xF0]); [reflexivity|repeat constructor|cbn; lia|].
        split; [reflexivity|]. split; [reflexivity|]. split; [split; cbn [rssi_rssi]; lia|]. exists 0. split; reflexivity.
      * constructor.
Qed.
Lemma link_careful_case :
  let wanted := [CReset; CLeRand; CReadRssi 0x0201; CLeTestEnd] in
  let sent := [CReset; CReadRssi 0x0201] in
  let got :=
    [Completed (RetReset Success);
     Completed (RetReadRssi {| rssi_status := Success; rssi_conn_handle := 0x0201; rssi_rssi := (-16)%Z |})] in
  link_serves F41 test_vendor example_link_lister [] (CReadLocalSupportedCommands :: sent)
       (Completed (RetReadLocalSupportedCommands {| lsc_status := Success; lsc_commands := example_list |}) :: got)
  /\ snd (link_ask_first_which F41 test_vendor (device example_link_lister) 50 wanted example_device)
     = Some (combine sent (map Some got)).
Proof.
  cbv zeta. split; [|vm_compute; reflexivity].
  apply (link_serves_one F41 test_vendor example_link_lister [] CReadLocalSupportedCommands _ _ _ []
           (framed 0x0E ([1; 0x02; 0x10; 0] ++ example_list)) []).
  - vm_compute. repeat constructor.
  - vm_compute. reflexivity.
  - constructor.
  - constructor.
  - assert (B : bytes (framed 0x0E ([1; 0x02; 0x10; 0] ++ example_list))) by (vm_compute; repeat constructor).
    destruct (answer_variant F41 test_vendor CReadLocalSupportedCommands _ 1 (0 :: example_list)
                (EvCommandComplete (Build_command_complete 1 (RetReadLocalSupportedCommands
                   {| lsc_status := Success; lsc_commands := example_list |})))
                eq_refl eq_refl B) as (r & E & _ & W); [vm_compute; reflexivity|].
    apply (f_equal (fun e => match e with EvCommandComplete x => cc_return_params x | _ => RetSpontaneous end)) in E.
    cbn [cc_return_params] in E. subst r.
    apply (by_completion F41 test_vendor (command_opcode (V := test_vendor) CReadLocalSupportedCommands) 1
             (RetReadLocalSupportedCommands {| lsc_status := Success; lsc_commands := example_list |})
             (0 :: example_list));
      [reflexivity|vm_compute; repeat constructor|vm_compute; lia|exact W].
  - apply (link_serves_one F41 test_vendor example_link_lister _ CReset _ _ _ [] [0x0E; 4; 1; 0x03; 0x0C; 0] []).
    + vm_compute. repeat constructor.
    + vm_compute. reflexivity.
    + constructor.
    + constructor.
    + apply (by_completion F41 test_vendor (command_opcode (V := test_vendor) CReset) 1 (RetReset Success) [0]);
        [reflexivity|repeat constructor|cbn; lia|]. split; [reflexivity|]. exists 0, []. split; reflexivity.
    + apply (link_serves_one F41 test_vendor example_link_lister _ (CReadRssi 0x0201) _ _ _ []
             [0x0E; 7; 1; 0x05; 0x14; 0; 0x01; 0x02; 0xF0] []).
      * vm_compute. repeat constructor.
      * vm_compute. reflexivity.
      * constructor.
      * constructor.
      * apply (by_completion F41 test_vendor (command_opcode (V := test_vendor) (CReadRssi 0x0201)) 1
          (RetReadRssi {| rssi_status := Success; rssi_conn_handle := 0x0201; rssi_rssi := (-16)%Z |})
          [0; 0x01; 0x02; 0xF0]); [reflexivity|repeat constructor|cbn; lia|].
        split; [reflexivity|]. split; [reflexivity|]. split; [split; cbn [rssi_rssi]; lia|]. exists 0. split; reflexivity.
      * constructor.
Qed.
