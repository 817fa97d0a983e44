(** * A controller that refuses some of several commands (proofs). *)
From Coq Require Import Lia.
From Verif Require Import Base Model_Types Model_Intervals Model_EventBase Model_Command Model_Event Model_Host
  Spec_Wire Spec_Errors Spec_Report Spec_Host Spec_Link Spec_Split Spec_Conform Spec_Follow Spec_Credit Spec_Facts Spec_Data Spec_Window Spec_Turns
  Spec_Own Spec_Apart Spec_Device Spec_Dialogue Spec_Refuse Spec_Several
  Proofs_Base Proofs_Event Proofs_Report Proofs_Panic Proofs_Complete Proofs_Command Proofs_Link Proofs_Conform Proofs_Follow Proofs_Credit
  Proofs_Facts Proofs_Data Proofs_Window Proofs_Turns Proofs_Own Proofs_Apart Proofs_Device Proofs_Calls Proofs_Refuse.
Open Scope list_scope.
Open Scope N_scope.

Section Several.
Context (F : features) (V : vendor).
Notation pair_of := (fun c : command V => (command_opcode c, command_params c)).

Lemma event_status op pkt ev : op <> 0 -> bytes pkt -> event_new F V pkt = Ok ev -> answer_to op ev = true ->
  (event_confirms ev = true <-> status_in pkt = 0).
Proof.
  intros Z Hb H A. destruct ev; try discriminate A.
  - destruct e as [k r]. apply (command_complete_dispatch_iff F V pkt k r Hb) in H.
    destruct H as (o & ret & Hop & -> & D). cbn [answer_to cc_return_params] in A. cbn [event_confirms cc_return_params].
    destruct D as [W|(v & _ & _ & ->)]; [|discriminate A].
    assert (NZ : o <> 0).
    { intros ->. destruct r; cbn [wire_return] in W; try discriminate A; decompose [and] W;
        repeat match goal with H : 0 = _ |- _ => discriminate H end. }
    destruct (returned_some F V r o ret W NZ) as [s Q]. destruct (returned_byte F V r o ret s W Q) as (sb & rest & HS & ->).
    unfold confirms. rewrite Q. unfold status_in, at_. cbn [le app nth]. change (0x0E =? 0x0E) with true. cbv iota.
    rewrite (byte_success F V sb s HS). destruct s; split; intros; congruence.
  - destruct e as [st k o]. apply (command_status_packet F V pkt st k o Hb) in H.
    destruct H as (sb & HS & Ho & ->). unfold event_confirms, confirms, status_in, at_. cbn [cst_status le app nth].
    change (0x0F =? 0x0E) with false. cbv iota.
    rewrite (byte_success F V sb st HS). destruct st; split; intros; congruence.
Qed.

(** What the host put out, and what the controller finds in it. *)
Lemma command_read (c : command V) : (u16_le (link_bytes c) 0, skipn 3 (link_bytes c)) = pair_of c.
Proof.
  unfold link_bytes, u16_le, at_. rewrite le_2. cbn [app nth skipn Nat.add]. now rewrite word_back by apply command_opcode_u16.
Qed.
Context {St E : Type} (C : controller St E).
Lemma ordered_taken os s : Forall (typed_data_operation F V) os ->
  let log := snd (data_session F V C os s) in
  map (fun w => (u16_le (snd w) 0, skipn 3 (snd w))) (filter is_command (put_out V log)) = map pair_of (ordered log)
  /\ Forall (fit F) (ordered log).
Proof.
  intros H. revert s. induction H as [|o os Ho _ IH]; intros s; [split; [reflexivity|constructor]|]. cbn [data_session].
  destruct o as [c|w|]; cbn [data_perform typed_data_operation] in *.
  - pose proof (success_fits F V uart_header uart_header_bytes C c s (or_introl eq_refl) Ho) as K.
    destruct (run_command _ _ _ _ _ _) as [s1 r]. specialize (IH s1). destruct (data_session F V C os s1) as [s2 log].
    cbn [snd] in *. unfold put_out, ordered. cbn [flat_map]. destruct (succeeded r); [|exact IH].
    cbn [app]. cbn [filter]. unfold is_command at 1. cbn [fst]. change (0x01 =? 0x01) with true. cbv iota. cbn [map snd].
    destruct IH as [I1 I2]. split; [|constructor; [now apply K|exact I2]].
    rewrite command_read. f_equal. exact I1.
  - destruct (ctl_write C s [fst w] (snd w)) as [s1 r]. specialize (IH s1). destruct (data_session F V C os s1) as [s2 log].
    cbn [snd] in *. unfold put_out, ordered. cbn [flat_map]. destruct r; [|exact IH|exact IH].
    cbn [app filter]. assert (Q : is_command w = false).
    { destruct Ho as (x & y & l & _ & _ & _ & [[-> _]|[-> _]]); reflexivity. }
    rewrite Q. exact IH.
  - destruct (read_any F V C s) as [s1 r]. specialize (IH s1). destruct (data_session F V C os s1) as [s2 log]. exact IH.
Qed.

Lemma with_opcode op ws : filter (command_with op) ws = filter (command_with op) (filter is_command ws).
Proof.
  induction ws as [|w ws IH]; [reflexivity|]. cbn [filter]. destruct (is_command w) eqn:Q.
  - cbn [filter]. destruct (command_with op w); now rewrite IH.
  - assert (K : command_with op w = false) by (unfold command_with, is_command in *; now rewrite Q). now rewrite K.
Qed.
Lemma counted op d : how_many (command_with op) (taken d) = N.of_nat (length (filter (fun c => fst c =? op) (commands_taken d))).
Proof.
  unfold how_many, commands_taken. f_equal. rewrite with_opcode.
  assert (H : Forall (fun w => is_command w = true) (filter is_command (taken d))).
  { apply Forall_forall. intros w I. now apply filter_In in I. }
  induction H as [|w ws Hw _ IH]; [reflexivity|]. cbn [map filter fst]. unfold command_with at 1.
  unfold is_command in Hw. rewrite Hw. cbn [andb]. destruct (u16_le (snd w) 0 =? op); cbn [length]; now rewrite IH.
Qed.
Lemma same_count op (l : list (command V)) :
  length (filter (fun c => fst c =? op) (map pair_of l)) = length (filter (fun b => command_opcode b =? op) l).
Proof. induction l as [|c l IH]; [reflexivity|]. cbn [map filter fst]. destruct (command_opcode c =? op); cbn [length]; now rewrite IH. Qed.

Lemma decided_several accepts evs all : Forall (fit F) all ->
  (forall before (c : command V) after, all = before ++ c :: after ->
     exists ev, nth_error (filter (answer_to (command_opcode c)) evs)
                  (length (filter (fun b => command_opcode b =? command_opcode c) before)) = Some ev
       /\ (event_confirms ev = true <-> accepts (map pair_of before) (pair_of c) = true)) ->
  forall cs before d, all = before ++ cs ->
  decide accepts (map pair_of before) (map pair_of cs) d = fold_left asked (approved evs before cs) d.
Proof.
  intros Hf H. induction cs as [|c cs IH]; intros before d Ha; [reflexivity|].
  cbn [map decide approved]. destruct (H before c cs Ha) as (ev & Q & K). rewrite Q.
  replace (map pair_of before ++ [(command_opcode c, command_params c)]) with (map pair_of (before ++ [c])) by now rewrite map_app.
  rewrite IH by (rewrite Ha, <- app_assoc; reflexivity). rewrite fold_left_app. f_equal.
  rewrite Ha in Hf. apply Forall_app in Hf. destruct Hf as [_ Hf]. inversion Hf as [|? ? [HT HR] _]; subst.
  cbv beta in K. destruct (event_confirms ev), (accepts _ _); try reflexivity; [exact (carried F d c HT HR)|..].
  - now discriminate (proj1 K eq_refl).
  - now discriminate (proj2 K eq_refl).
Qed.

Lemma answers_settle_first accepts d evs cs later more x : orderly F d -> truthful accepts d ->
  map pair_of (cs ++ later) = commands_taken d ++ more -> Forall (fit F) (cs ++ later) -> all_heard evs cs ->
  (forall (c : command V) k ev, nth_error (filter (answer_to (command_opcode c)) evs) k = Some ev ->
      exists pkt, nth_error (filter (reply_with (command_opcode c)) (sent_by d)) k = Some (0x04, pkt) /\ event_new F V pkt = Ok ev) ->
  (length cs <= length (commands_taken d))%nat
  /\ decide accepts [] (firstn (length cs) (commands_taken d)) x = fold_left asked (approved evs [] cs) x.
Proof.
  intros Hd HT T Hf HA A. destruct (orderly_packets F d Hd) as [_ D2]. apply Forall_app in Hf. destruct Hf as [Hf _].
  assert (M : exists rest, commands_taken d = map pair_of cs ++ rest).
  { rewrite map_app in T. apply app_eq_app in T. destruct T as (u & [(T & _)|(T & _)]); [|now exists u].
    destruct u as [|m u]; [exists []; now rewrite T, !List.app_nil_r|exfalso].
    assert (I : In m (map pair_of cs)) by (rewrite T; apply in_or_app; right; now left).
    apply in_map_iff in I. destruct I as (c & <- & I). specialize (HA c I). rewrite <- same_count, T, filter_app, app_length in HA.
    cbn [filter fst] in HA. rewrite N.eqb_refl in HA. cbn [length] in HA.
    destruct (own_opcode c) as [Z _]. pose proof (orderly_bound F (command_opcode c) d Z Hd) as B. rewrite counted in B.
    unfold how_many in B. set (n := length (filter (answer_to (command_opcode c)) evs)) in *.
    destruct (nth_error (filter (answer_to (command_opcode c)) evs) (n - 1)) as [ev|] eqn:Q.
    2:{ apply nth_error_None in Q. unfold n in *. lia. }
    destruct (A c (n - 1)%nat ev Q) as (pkt & N1 & _).
    assert (n - 1 < length (filter (reply_with (command_opcode c)) (sent_by d)))%nat by (apply nth_error_Some; congruence). lia. }
  clear T. destruct M as [rest T]. split.
  { rewrite T, app_length, map_length. lia. }
  replace (firstn (length cs) (commands_taken d)) with (map pair_of cs).
  2:{ rewrite T. rewrite <- (map_length pair_of cs). now rewrite firstn_app, firstn_all, Nat.sub_diag, List.app_nil_r. }
  change (@nil (N * list N)) with (map pair_of []).
  apply (decided_several accepts evs cs Hf); [|reflexivity].
  intros before c after Ha.
  set (k := length (filter (fun b => command_opcode b =? command_opcode c) before)).
  assert (L : (k < length (filter (answer_to (command_opcode c)) evs))%nat).
  { assert (I : In c cs) by (rewrite Ha; apply in_or_app; right; now left). specialize (HA c I).
    rewrite Ha, filter_app, app_length in HA. cbn [filter] in HA. rewrite N.eqb_refl in HA. cbn [length] in HA. unfold k. lia. }
  destruct (nth_error (filter (answer_to (command_opcode c)) evs) k) as [ev|] eqn:Q.
  2:{ apply nth_error_None in Q. lia. }
  exists ev. split; [reflexivity|]. destruct (A c k ev Q) as (pkt & N1 & En).
  rewrite <- (HT (map pair_of before) (command_opcode c) (command_params c) (map pair_of after ++ rest) pkt).
  - assert (I : In ev (filter (answer_to (command_opcode c)) evs)) by (eapply nth_error_In; exact Q).
    apply filter_In in I. destruct I as [_ I]. destruct (own_opcode c) as [Z _].
    apply (event_status (command_opcode c) pkt ev Z); [|exact En|exact I].
    assert (I' : In (0x04, pkt) (sent_by d)).
    { apply nth_error_In in N1. now apply filter_In in N1. }
    apply (packet_bytes F). apply (proj1 (Forall_forall _ _) D2). unfold events_in. apply in_map_iff. exists (0x04, pkt).
    split; [reflexivity|]. apply filter_In. split; [exact I'|reflexivity].
  - rewrite T, Ha, map_app, <- app_assoc. reflexivity.
  - rewrite same_count. exact N1.
Qed.

Context (h : history St) (HC : contract C h).
Lemma several_known accepts os s d x : Forall (typed_data_operation F V) os -> possible h s -> orderly F d ->
  Forall (fun w => reserved_address_commands (snd w) = false) (sent_by d) -> truthful accepts d ->
  let (s', log) := data_session F V C os s in
  (exists on_the_way, written h s' = written h s ++ flat_map wire_bytes (taken d) ++ on_the_way) ->
  (exists on_the_way, flat_map wire_bytes (sent_by d) = pending h s s' ++ on_the_way) ->
  forall cs later, ordered log = cs ++ later -> all_heard (events_got log) cs ->
  (length cs <= length (commands_taken d))%nat
  /\ decide accepts [] (firstn (length cs) (commands_taken d)) x = fold_left asked (approved (events_got log) [] cs) x.
Proof.
  intros Ho Hs Hd Hr HT. destruct (orderly_packets F d Hd) as [D1 D2].
  pose proof (fun c => own_answer F V C h HC os s d c Ho Hs Hd Hr) as A.
  pose proof (both_streams F V C h HC os s d Ho Hs (proj1 Hd) D1) as B.
  pose proof (ordered_taken os s Ho) as O. destruct (data_session F V C os s) as [s' log]. cbn [snd] in O.
  intros W R cs later L HA. destruct (B W R) as (_ & (more & P) & _). destruct O as [O Hf].
  rewrite P, filter_app, map_app, L in O. symmetry in O. rewrite L in Hf.
  apply (answers_settle_first accepts d _ _ _ _ x Hd HT O Hf HA).
  intros c k ev Q. destruct (A c W R) as [A1 _]. destruct (A1 k ev Q) as (pkt & _ & N1 & En & _). now exists pkt.
Qed.
Lemma ordered_bound os s d : Forall (typed_data_operation F V) os -> possible h s -> orderly F d ->
  let (s', log) := data_session F V C os s in
  (exists on_the_way, written h s' = written h s ++ flat_map wire_bytes (taken d) ++ on_the_way) ->
  (exists on_the_way, flat_map wire_bytes (sent_by d) = pending h s s' ++ on_the_way) ->
  (length (commands_taken d) <= length (ordered log))%nat.
Proof.
  intros Ho Hs Hd. destruct (orderly_packets F d Hd) as [D1 _].
  pose proof (both_streams F V C h HC os s d Ho Hs (proj1 Hd) D1) as B.
  pose proof (ordered_taken os s Ho) as O. destruct (data_session F V C os s) as [s' log]. cbn [snd] in O.
  intros W R. destruct (B W R) as (_ & (more & P) & _). destruct O as [O _]. rewrite P, filter_app, map_app in O.
  apply (f_equal (@length _)) in O. rewrite app_length, !map_length in O. unfold commands_taken.
  rewrite map_length. lia.
Qed.
Lemma several_settled accepts os s d x : Forall (typed_data_operation F V) os -> possible h s -> orderly F d ->
  Forall (fun w => reserved_address_commands (snd w) = false) (sent_by d) -> truthful accepts d ->
  let (s', log) := data_session F V C os s in
  (exists on_the_way, written h s' = written h s ++ flat_map wire_bytes (taken d) ++ on_the_way) ->
  (exists on_the_way, flat_map wire_bytes (sent_by d) = pending h s s' ++ on_the_way) ->
  all_heard (events_got log) (ordered log) ->
  decide accepts [] (commands_taken d) x = fold_left asked (approved (events_got log) [] (ordered log)) x.
Proof.
  intros Ho Hs Hd Hr HT. pose proof (several_known accepts os s d x Ho Hs Hd Hr HT) as K.
  pose proof (ordered_bound os s d Ho Hs Hd) as B. destruct (data_session F V C os s) as [s' log].
  intros W R HA. destruct (K W R (ordered log) [] (eq_sym (List.app_nil_r _)) HA) as [_ X].
  now rewrite firstn_all2 in X by exact (B W R).
Qed.

(** Over separate links. *)
Lemma sent_fits os s : Forall (typed_operation F) os -> Forall (fit F) (split_sent (snd (split_session F V C os s))).
Proof.
  intros H. revert s. induction H as [|o os Ho _ IH]; intros s; [constructor|]. cbn [split_session].
  destruct o as [c|]; cbn [split_perform].
  - pose proof (success_fits F V cmd_link_header cmd_link_header_bytes C c s (or_intror (or_introl eq_refl)) Ho) as K.
    destruct (run_command _ _ _ _ _ _) as [s1 r]. specialize (IH s1). destruct (split_session F V C os s1) as [s2 log].
    cbn [snd] in *. unfold split_sent. cbn [flat_map]. destruct (succeeded r); [|exact IH].
    cbn [app]. constructor; [now apply K|exact IH].
  - destruct (link_read F V C s) as [s1 r]. specialize (IH s1). destruct (split_session F V C os s1) as [s2 log]. exact IH.
Qed.
Lemma links_commands (cs : list (command V)) :
  map (fun w => (u16_le (snd w) 0, skipn 3 (snd w))) (filter is_command (map (fun c => (0x01, link_bytes c)) cs)) = map pair_of cs.
Proof.
  induction cs as [|c cs IH]; [reflexivity|]. cbn [map filter]. unfold is_command at 1. cbn [fst].
  change (0x01 =? 0x01) with true. cbv iota. cbn [map snd]. rewrite command_read. f_equal. exact IH.
Qed.
Lemma split_known accepts os s d x : Forall (typed_operation F) os -> possible h s -> orderly F d -> apart d ->
  Forall (fun w => reserved_address_commands (snd w) = false) (sent_by d) -> truthful accepts d ->
  let (s', log) := split_session F V C os s in
  (exists on_the_way, written h s' = written h s ++ flat_map bare_bytes (taken d) ++ on_the_way) ->
  (exists on_the_way, flat_map bare_bytes (sent_by d) = pending h s s' ++ on_the_way) ->
  forall cs later, split_sent log = cs ++ later -> all_heard (split_events_read log) cs ->
  (length cs <= length (commands_taken d))%nat
  /\ decide accepts [] (firstn (length cs) (commands_taken d)) x = fold_left asked (approved (split_events_read log) [] cs) x.
Proof.
  intros Ho Hs Hd Hap Hr HT. destruct (orderly_packets F d Hd) as [D1 D2].
  pose proof (fun c => split_own_answer F V C h HC os s d c Ho Hs Hd Hap Hr) as A.
  pose proof (both_links F V C h HC os s d Ho Hs Hap (proj1 Hd) D1) as B.
  pose proof (sent_fits os s Ho) as Hf. destruct (split_session F V C os s) as [s' log]. cbn [snd] in Hf.
  intros W R cs later L HA. destruct (B W R) as ((more & P) & _).
  pose proof (links_commands (split_sent log)) as O. fold (links_out log) in O. rewrite P, filter_app, map_app, L in O. symmetry in O.
  rewrite L in Hf. apply (answers_settle_first accepts d _ _ _ _ x Hd HT O Hf HA).
  intros c k ev Q. destruct (A c W R) as [A1 _]. destruct (A1 k ev Q) as (pkt & _ & N1 & En & _). now exists pkt.
Qed.
Lemma split_bound os s d : Forall (typed_operation F) os -> possible h s -> orderly F d -> apart d ->
  let (s', log) := split_session F V C os s in
  (exists on_the_way, written h s' = written h s ++ flat_map bare_bytes (taken d) ++ on_the_way) ->
  (exists on_the_way, flat_map bare_bytes (sent_by d) = pending h s s' ++ on_the_way) ->
  (length (commands_taken d) <= length (split_sent log))%nat.
Proof.
  intros Ho Hs Hd Hap. destruct (orderly_packets F d Hd) as [D1 _].
  pose proof (both_links F V C h HC os s d Ho Hs Hap (proj1 Hd) D1) as B. destruct (split_session F V C os s) as [s' log].
  intros W R. destruct (B W R) as ((more & P) & _).
  pose proof (links_commands (split_sent log)) as O. fold (links_out log) in O. rewrite P, filter_app, map_app in O.
  apply (f_equal (@length _)) in O. rewrite app_length, !map_length in O. unfold commands_taken. rewrite map_length. lia.
Qed.
Lemma split_settled accepts os s d x : Forall (typed_operation F) os -> possible h s -> orderly F d -> apart d ->
  Forall (fun w => reserved_address_commands (snd w) = false) (sent_by d) -> truthful accepts d ->
  let (s', log) := split_session F V C os s in
  (exists on_the_way, written h s' = written h s ++ flat_map bare_bytes (taken d) ++ on_the_way) ->
  (exists on_the_way, flat_map bare_bytes (sent_by d) = pending h s s' ++ on_the_way) ->
  all_heard (split_events_read log) (split_sent log) ->
  decide accepts [] (commands_taken d) x = fold_left asked (approved (split_events_read log) [] (split_sent log)) x.
Proof.
  intros Ho Hs Hd Hap Hr HT. pose proof (split_known accepts os s d x Ho Hs Hd Hap Hr HT) as K.
  pose proof (split_bound os s d Ho Hs Hd Hap) as B. destruct (split_session F V C os s) as [s' log].
  intros W R HA. destruct (K W R (split_sent log) [] (eq_sym (List.app_nil_r _)) HA) as [_ X].
  now rewrite firstn_all2 in X by exact (B W R).
Qed.
End Several.
