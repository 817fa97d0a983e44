(** * Hosts connected to each other (proofs). *)
From Verif Require Import Base Model_Types Model_Intervals Model_EventBase Model_Command Model_Event Model_Host
  Spec_Wire Spec_Errors Spec_Host Spec_Link Spec_Split Spec_Conform Spec_Pass Spec_Follow Spec_Network
  Proofs_Base Proofs_Follow.
Open Scope list_scope.
Open Scope N_scope.

Lemma same_ends_spec a b : same_ends a b = true <-> a = b.
Proof.
  unfold same_ends. destruct a, b. cbn. rewrite !andb_true_iff, !N.eqb_eq. split.
  - intros [[[-> ->] ->] ->]. reflexivity.
  - intros H. now injection H as -> -> -> ->.
Qed.

(** ** The open connections *)
Record good (ls : list ends) : Prop := {
  g_two : forall e, In e ls -> e_central e <> e_peripheral e;
  g_handle : forall e, In e ls -> e_central_handle e <= 0x0EFF /\ e_peripheral_handle e <= 0x0EFF;
  g_one : forall e e', In e ls -> In e' ls ->
    (e_central e = e_central e' /\ e_central_handle e = e_central_handle e')
    \/ (e_peripheral e = e_peripheral e' /\ e_peripheral_handle e = e_peripheral_handle e') -> e = e';
  g_cross : forall e e', In e ls -> In e' ls ->
    ~ (e_central e = e_peripheral e' /\ e_central_handle e = e_peripheral_handle e')
}.

Lemma ends_on_link e f ls : (forall l, l_ends l = e -> l_ends (f l) = e) ->
  map l_ends (on_link e f ls) = map l_ends ls.
Proof.
  intros Hf. unfold on_link. rewrite map_map. apply map_ext. intros l.
  destruct (same_ends (l_ends l) e) eqn:Es; [|reflexivity].
  apply same_ends_spec in Es. rewrite Es. now apply Hf.
Qed.
Lemma ends_filter e ls : incl (map l_ends (filter (fun l => negb (same_ends (l_ends l) e)) ls)) (map l_ends ls).
Proof.
  intros x Hx. apply in_map_iff in Hx. destruct Hx as (l & <- & Hl). apply filter_In in Hl.
  apply in_map. apply Hl.
Qed.
Lemma good_incl ls ls' : incl ls ls' -> good ls' -> good ls.
Proof.
  intros I [A B C D]. split; intros; eauto.
Qed.
Lemma good_occur ls o : good (map l_ends ls) -> may_occur ls o -> good (map l_ends (occur ls o)).
Proof.
  intros G H. destruct o as [e i l t a|e i l t|e on|e r r']; cbn [occur may_occur] in *.
  - destruct H as (T & F1 & F2 & R & R' & _). destruct G as [A B C D].
    assert (N1 : forall e', In e' (map l_ends ls) ->
       ~ (e_central e' = e_central e /\ e_central_handle e' = e_central_handle e)
       /\ ~ (e_peripheral e' = e_central e /\ e_peripheral_handle e' = e_central_handle e)
       /\ ~ (e_central e' = e_peripheral e /\ e_central_handle e' = e_peripheral_handle e)
       /\ ~ (e_peripheral e' = e_peripheral e /\ e_peripheral_handle e' = e_peripheral_handle e)).
    { intros e' He. apply in_map_iff in He. destruct He as (x & <- & Hx).
      pose proof (F1 x Hx) as U1. pose proof (F2 x Hx) as U2. unfold uses in U1, U2. tauto. }
    split; cbn [map In l_ends].
    + intros e' [<-|He]; [exact T|now apply A].
    + intros e' [<-|He]; [split; [apply R|exact R']|now apply B].
    + intros e1 e2 [<-|H1] [<-|H2] K; [reflexivity| | |now apply C].
      * exfalso. destruct (N1 e2 H2) as (? & ? & ? & ?). destruct K as [[? ?]|[? ?]]; solve [match goal with Hx : ~ _ |- _ => apply Hx; split; congruence end].
      * exfalso. destruct (N1 e1 H1) as (? & ? & ? & ?). destruct K as [[? ?]|[? ?]]; solve [match goal with Hx : ~ _ |- _ => apply Hx; split; congruence end].
    + intros e1 e2 [<-|H1] [<-|H2] K.
      * tauto.
      * destruct (N1 e2 H2) as (? & ? & ? & ?). destruct K as [? ?]; solve [match goal with Hx : ~ _ |- _ => apply Hx; split; congruence end].
      * destruct (N1 e1 H1) as (? & ? & ? & ?). destruct K as [? ?]; solve [match goal with Hx : ~ _ |- _ => apply Hx; split; congruence end].
      * exact (D e1 e2 H1 H2 K).
  - rewrite ends_on_link; auto.
  - rewrite ends_on_link; auto.
  - eapply good_incl; [apply ends_filter|exact G].
Qed.

(** ** One device *)
Section Device.
Context (address : N -> N * list N) (d : N).

Definition entry (l : link) : list connection := connections_of address d [l].
Lemma connections_entries ls : connections_of address d ls = flat_map entry ls.
Proof.
  unfold entry, connections_of. induction ls as [|l ls IH]; [reflexivity|].
  cbn [flat_map]. rewrite IH, app_nil_r. reflexivity.
Qed.

Definition handle_at (e : ends) : option N :=
  match for_end d e (e_central_handle e) (e_peripheral_handle e) with h :: _ => Some h | [] => None end.
Lemma entry_handle l : (entry l = [] /\ handle_at (l_ends l) = None)
  \/ exists c, entry l = [c] /\ handle_at (l_ends l) = Some (c_handle c).
Proof.
  unfold entry, connections_of, handle_at, for_end. cbn [flat_map app].
  destruct (_ =? _); [right; now eexists|]. destruct (_ =? _); [right; now eexists|]. now left.
Qed.

(** The handle tells the connection. *)
Lemma handle_tells open e e' h : good open -> In e open -> In e' open ->
  handle_at e = Some h -> handle_at e' = Some h -> e = e'.
Proof.
  intros [A B C D] He He'. unfold handle_at, for_end.
  destruct (N.eqb_spec (e_central e) d) as [E1|E1].
  - intros X; injection X as <-. destruct (N.eqb_spec (e_central e') d) as [E2|E2].
    + intros X; injection X as X. apply C; auto. left. split; congruence.
    + destruct (N.eqb_spec (e_peripheral e') d) as [E3|E3]; [|discriminate].
      intros X; injection X as X. exfalso. apply (D e e' He He'). split; congruence.
  - destruct (N.eqb_spec (e_peripheral e) d) as [E0|E0]; [|discriminate].
    intros X; injection X as <-. destruct (N.eqb_spec (e_central e') d) as [E2|E2].
    + intros X; injection X as X. exfalso. apply (D e' e He' He). split; congruence.
    + destruct (N.eqb_spec (e_peripheral e') d) as [E3|E3]; [|discriminate].
      intros X; injection X as X. apply C; auto. right. split; congruence.
Qed.

Lemma other_than_free h ls : (forall l, In l ls -> handle_at (l_ends l) <> Some h) ->
  other_than c_handle h (connections_of address d ls) = connections_of address d ls.
Proof.
  rewrite connections_entries. unfold other_than. induction ls as [|l ls IH]; [reflexivity|]. intros H.
  cbn [flat_map]. rewrite filter_app, IH by (intros; apply H; now right). f_equal.
  destruct (entry_handle l) as [[-> _]|(c & -> & Hc)]; [reflexivity|]. cbn [filter].
  destruct (N.eqb_spec (c_handle c) h) as [E0|]; [|reflexivity].
  exfalso. apply (H l (or_introl eq_refl)). congruence.
Qed.

Lemma other_than_ended open e h ls : good open -> In e open -> incl (map l_ends ls) open ->
  handle_at e = Some h ->
  other_than c_handle h (connections_of address d ls)
  = connections_of address d (filter (fun l => negb (same_ends (l_ends l) e)) ls).
Proof.
  intros G He I Hh. rewrite !connections_entries. unfold other_than.
  induction ls as [|l ls IH]; [reflexivity|].
  cbn [flat_map filter]. rewrite filter_app, IH by (intros x Hx; apply I; now right).
  assert (Hl : In (l_ends l) open) by (apply I; now left).
  destruct (same_ends (l_ends l) e) eqn:Es; cbn [negb].
  - apply same_ends_spec in Es.
    destruct (entry_handle l) as [[_ Hn]|(c & -> & Hc)]; [congruence|]. cbn [filter].
    replace (c_handle c =? h) with true by (symmetry; apply N.eqb_eq; congruence). reflexivity.
  - cbn [flat_map]. f_equal. destruct (entry_handle l) as [[-> _]|(c & -> & Hc)]; [reflexivity|]. cbn [filter].
    destruct (N.eqb_spec (c_handle c) h) as [E0|]; [|reflexivity]. exfalso.
    rewrite (handle_tells open (l_ends l) e h G Hl He) in Es by congruence.
    rewrite (proj2 (same_ends_spec e e) eq_refl) in Es. discriminate.
Qed.

Lemma changed_renewed open e h ls f g : good open -> In e open -> incl (map l_ends ls) open ->
  handle_at e = Some h ->
  (forall l c, l_ends l = e -> entry l = [c] -> entry (f l) = [g c]) ->
  changed c_handle h g (connections_of address d ls) = connections_of address d (on_link e f ls).
Proof.
  intros G He I Hh Hf. rewrite !connections_entries. unfold changed, on_link.
  induction ls as [|l ls IH]; [reflexivity|].
  cbn [flat_map map]. rewrite map_app, IH by (intros x Hx; apply I; now right). f_equal.
  assert (Hl : In (l_ends l) open) by (apply I; now left).
  destruct (same_ends (l_ends l) e) eqn:Es.
  - apply same_ends_spec in Es.
    destruct (entry_handle l) as [[_ Hn]|(c & Hc0 & Hc)]; [congruence|]. rewrite Hc0. cbn [map].
    replace (c_handle c =? h) with true by (symmetry; apply N.eqb_eq; congruence).
    symmetry. now apply Hf.
  - destruct (entry_handle l) as [[-> _]|(c & -> & Hc)]; [reflexivity|]. cbn [map].
    destruct (N.eqb_spec (c_handle c) h) as [E0|]; [|reflexivity]. exfalso.
    rewrite (handle_tells open (l_ends l) e h G Hl He) in Es by congruence.
    rewrite (proj2 (same_ends_spec e e) eq_refl) in Es. discriminate.
Qed.

(** Another device's connection. *)
Lemma entry_away l : handle_at (l_ends l) = None -> entry l = [].
Proof. destruct (entry_handle l) as [[H _]|(c & _ & Hc)]; [auto|congruence]. Qed.
Lemma on_link_away e f ls : handle_at e = None -> (forall l, l_ends l = e -> l_ends (f l) = e) ->
  connections_of address d (on_link e f ls) = connections_of address d ls.
Proof.
  intros Hn Hf. rewrite !connections_entries. unfold on_link. induction ls as [|l ls IH]; [reflexivity|].
  cbn [flat_map map]. rewrite IH. f_equal. destruct (same_ends (l_ends l) e) eqn:Es; [|reflexivity].
  apply same_ends_spec in Es. rewrite !entry_away; auto; [congruence|]. now rewrite Hf.
Qed.
Lemma filter_away e ls : handle_at e = None ->
  connections_of address d (filter (fun l => negb (same_ends (l_ends l) e)) ls) = connections_of address d ls.
Proof.
  intros Hn. rewrite !connections_entries. induction ls as [|l ls IH]; [reflexivity|].
  cbn [flat_map filter]. destruct (same_ends (l_ends l) e) eqn:Es; cbn [negb].
  - apply same_ends_spec in Es. rewrite (entry_away l) by congruence. exact IH.
  - cbn [flat_map]. now rewrite IH.
Qed.

(** ** One occurrence *)
Hypothesis HA : address_book address.
Lemma six p : exists k a0 a1 a2 a3 a4 a5, address p = (k, [a0; a1; a2; a3; a4; a5]).
Proof.
  destruct (HA p) as (_ & L & _). destruct (address p) as [k a]. cbn in L.
  destruct a as [|a0 [|a1 [|a2 [|a3 [|a4 [|a5 [|]]]]]]]; try discriminate L. now do 7 eexists.
Qed.
Lemma small_word v : v <= 0x0EFF -> u16 v.
Proof. unfold u16. change (2 ^ 16) with 65536. lia. Qed.
Lemma range_words h i l t : parameter_ranges h i l t -> u16 h /\ u16 i /\ u16 l /\ u16 t.
Proof. unfold parameter_ranges, u16. change (2 ^ 16) with 65536. lia. Qed.

Lemma made_happened cs h role p i l t a : parameter_ranges h i l t ->
  happened cs (framed 0x3E ([0x01; 0x00] ++ connection_body h role (fst (address p)) i l t a (snd (address p))))
  = {| c_handle := h; c_kind := LowEnergy role (fst (address p) :: snd (address p)) i l t;
       c_encrypted := false |} :: other_than c_handle h cs.
Proof.
  intros R. apply range_words in R. destruct R as (W0 & W1 & W2 & W3).
  destruct (six p) as (k & a0 & a1 & a2 & a3 & a4 & a5 & ->). cbn [fst snd].
  unfold framed, connection_body. rewrite !le_2. cbn [app length N.of_nat].
  unfold happened, le_success, u16_le, at_, slice. cbn [nth Nat.add skipn firstn].
  cbn [N.eqb Pos.eqb andb]. rewrite !word_back by assumption. reflexivity.
Qed.
Lemma renewed_happened cs h i l t : parameter_ranges h i l t ->
  happened cs (framed 0x3E ([0x03; 0x00] ++ update_body h i l t))
  = changed c_handle h (fun c => {| c_handle := c_handle c; c_kind := with_parameters i l t (c_kind c);
                                    c_encrypted := c_encrypted c |}) cs.
Proof.
  intros R. apply range_words in R. destruct R as (W0 & W1 & W2 & W3).
  unfold framed, update_body. rewrite !le_2. cbn [app length N.of_nat].
  unfold happened, le_success, u16_le, at_. cbn [nth Nat.add].
  cbn [N.eqb Pos.eqb andb]. rewrite !word_back by assumption. reflexivity.
Qed.
Lemma secured_happened cs h (on : bool) : h <= 0x0EFF ->
  happened cs (framed 0x08 ([0x00] ++ le 2 h ++ [if on then 1 else 0]))
  = changed c_handle h (fun c => {| c_handle := c_handle c; c_kind := c_kind c; c_encrypted := on |}) cs.
Proof.
  intros W. apply small_word in W. unfold framed. rewrite !le_2. cbn [app length N.of_nat].
  unfold happened, le_success, u16_le, at_. cbn [nth Nat.add].
  cbn [N.eqb Pos.eqb andb]. rewrite !word_back by assumption. now destruct on.
Qed.
Lemma ended_happened cs h r : h <= 0x0EFF ->
  happened cs (framed 0x05 ([0x00] ++ le 2 h ++ [r])) = other_than c_handle h cs.
Proof.
  intros W. apply small_word in W. unfold framed. rewrite !le_2. cbn [app length N.of_nat].
  unfold happened, le_success, u16_le, at_. cbn [nth Nat.add].
  cbn [N.eqb Pos.eqb andb]. rewrite !word_back by assumption. reflexivity.
Qed.

Lemma other_handle h h' i l t : parameter_ranges h i l t -> h' <= 0x0EFF -> parameter_ranges h' i l t.
Proof. unfold parameter_ranges. tauto. Qed.

Lemma free_handle open e : good (map l_ends open) -> e_central e <> e_peripheral e ->
  free open (e_central e) (e_central_handle e) -> free open (e_peripheral e) (e_peripheral_handle e) ->
  forall e' h, In e' (map l_ends open) -> handle_at e = Some h -> handle_at e' <> Some h.
Proof.
  intros _ _ F1 F2 e' h He. apply in_map_iff in He. destruct He as (x & <- & Hx).
  pose proof (F1 x Hx) as U1. pose proof (F2 x Hx) as U2. unfold uses in U1, U2. unfold handle_at, for_end.
  destruct (N.eqb_spec (e_central e) d) as [E1|E1];
    [|destruct (N.eqb_spec (e_peripheral e) d) as [E2|E2]; [|discriminate]];
  intros X; injection X as <-;
  (destruct (N.eqb_spec (e_central (l_ends x)) d) as [E3|E3];
    [|destruct (N.eqb_spec (e_peripheral (l_ends x)) d) as [E4|E4]; [|discriminate]]);
  intros X; injection X as X; 
  first [solve [apply U1; first [left; split; congruence | right; split; congruence]] | solve [apply U2; first [left; split; congruence | right; split; congruence]]].
Qed.

Lemma occurs open ls o : good (map l_ends open) -> incl (map l_ends ls) (map l_ends open) ->
  may_occur open o ->
  fold_left happened (packets_for address d o) (connections_of address d ls)
  = connections_of address d (occur ls o).
Proof.
  intros G I H. destruct o as [e i l t a|e i l t|e on|e r r']; cbn [occur may_occur packets_for] in *.
  - destruct H as (T & F1 & F2 & R & R' & _).
    pose proof (free_handle open e G T F1 F2) as FH. unfold handle_at in FH.
    assert (X : forall h, match for_end d e (e_central_handle e) (e_peripheral_handle e) with
                          | h :: _ => Some h | [] => None end = Some h ->
                other_than c_handle h (connections_of address d ls) = connections_of address d ls).
    { intros h Hh. apply other_than_free. intros x Hx. apply FH; [|exact Hh]. apply I. now apply in_map. }
    rewrite (connections_entries (_ :: ls)). cbn [flat_map]. rewrite <- connections_entries.
    unfold entry, connections_of at 2. cbn [flat_map l_ends l_interval l_latency l_timeout l_encrypted].
    unfold for_end in *. destruct (e_central e =? d).
    + cbn [fold_left]. rewrite made_happened by exact R. rewrite X by reflexivity. reflexivity.
    + destruct (e_peripheral e =? d); [|reflexivity].
      cbn [fold_left]. rewrite made_happened by (eapply other_handle; eassumption).
      rewrite X by reflexivity. reflexivity.
  - destruct H as (O & R). pose proof (g_handle _ G e O) as (_ & R').
    assert (Hn : handle_at e = None -> for_end d e (framed 0x3E ([0x03; 0x00] ++ update_body (e_central_handle e) i l t))
       (framed 0x3E ([0x03; 0x00] ++ update_body (e_peripheral_handle e) i l t)) = []).
    { unfold handle_at, for_end. destruct (_ =? _); [discriminate|]. destruct (_ =? _); [discriminate|]. reflexivity. }
    destruct (handle_at e) as [h|] eqn:Hh.
    + rewrite <- (changed_renewed (map l_ends open) e h ls _
        (fun c => {| c_handle := c_handle c; c_kind := with_parameters i l t (c_kind c);
                     c_encrypted := c_encrypted c |}) G O I Hh).
      * unfold handle_at, for_end in Hh |- *. destruct (e_central e =? d).
        -- injection Hh as <-. cbn [fold_left]. now rewrite renewed_happened.
        -- destruct (e_peripheral e =? d); [|discriminate]. injection Hh as <-. cbn [fold_left].
           rewrite renewed_happened by (eapply other_handle; eassumption). reflexivity.
      * intros x c Ex. unfold entry, connections_of. cbn [flat_map l_ends l_interval l_latency l_timeout l_encrypted].
        rewrite Ex. unfold for_end. rewrite !app_nil_r. destruct (_ =? _).
        -- intros K; injection K as <-. reflexivity.
        -- destruct (_ =? _); [|discriminate]. intros K; injection K as <-. reflexivity.
    + rewrite Hn by reflexivity. cbn [fold_left]. symmetry. apply on_link_away; [exact Hh|reflexivity].
  - pose proof (g_handle _ G e H) as (R & R').
    destruct (handle_at e) as [h|] eqn:Hh.
    + rewrite <- (changed_renewed (map l_ends open) e h ls _
        (fun c => {| c_handle := c_handle c; c_kind := c_kind c; c_encrypted := on |}) G H I Hh).
      * unfold handle_at, for_end in Hh |- *. destruct (e_central e =? d).
        -- injection Hh as <-. cbn [fold_left]. now rewrite secured_happened.
        -- destruct (e_peripheral e =? d); [|discriminate]. injection Hh as <-. cbn [fold_left].
           now rewrite secured_happened.
      * intros x c Ex. unfold entry, connections_of. cbn [flat_map l_ends l_interval l_latency l_timeout l_encrypted].
        rewrite Ex. unfold for_end. rewrite !app_nil_r. destruct (_ =? _).
        -- intros K; injection K as <-. reflexivity.
        -- destruct (_ =? _); [|discriminate]. intros K; injection K as <-. reflexivity.
    + rewrite on_link_away by (exact Hh || reflexivity). unfold handle_at, for_end in Hh |- *.
      destruct (e_central e =? d); [discriminate|]. destruct (e_peripheral e =? d); [discriminate|]. reflexivity.
  - destruct H as (O & _). pose proof (g_handle _ G e O) as (R & R').
    destruct (handle_at e) as [h|] eqn:Hh.
    + rewrite <- (other_than_ended (map l_ends open) e h ls G O I Hh).
      unfold handle_at, for_end in Hh |- *. destruct (e_central e =? d).
      * injection Hh as <-. cbn [fold_left]. now rewrite ended_happened.
      * destruct (e_peripheral e =? d); [|discriminate]. injection Hh as <-. cbn [fold_left].
        now rewrite ended_happened.
    + rewrite filter_away by exact Hh. unfold handle_at, for_end in Hh |- *.
      destruct (e_central e =? d); [discriminate|]. destruct (e_peripheral e =? d); [discriminate|]. reflexivity.
Qed.

(** ** Its packets conform, and those that are hidden are known *)
Lemma packets_conform F open o : good (map l_ends open) -> may_occur open o ->
  Forall (conforming_packet F) (packets_for address d o).
Proof.
  intros G H.
  assert (W : forall e a b, conforming_packet F a -> conforming_packet F b ->
              Forall (conforming_packet F) (for_end d e a b)).
  { intros e a b Ha Hb. unfold for_end. destruct (_ =? _); [auto|]. destruct (_ =? _); auto. }
  assert (S0 : 0 <= last_status F) by lia.
  assert (S1 : forall r, r <= 0x40 -> r <= last_status F).
  { intros r Hr. unfold last_status. destruct (version_5_0 F); lia. }
  destruct o as [e i l t a|e i l t|e on|e r r']; cbn [may_occur packets_for] in *; apply W.
  - destruct H as (_ & _ & _ & R & R' & Ha). destruct (HA (e_peripheral e)) as (K & L & B).
    eexists _, _. split; [reflexivity|]. apply conforming_connection; auto; lia.
  - destruct H as (_ & _ & _ & R & R' & Ha). destruct (HA (e_central e)) as (K & L & B).
    eexists _, _. split; [reflexivity|]. apply conforming_connection; auto; try lia.
    eapply other_handle; eassumption.
  - eexists _, _. split; [reflexivity|]. apply conforming_update. apply H.
  - destruct H as (O & R). pose proof (g_handle _ G e O) as (_ & R').
    eexists _, _. split; [reflexivity|]. apply conforming_update. eapply other_handle; eassumption.
  - pose proof (g_handle _ G e H) as (R & _).
    eexists _, _. split; [reflexivity|]. eapply conforming_event; [cbn; right; right; left; reflexivity|].
    exists [0], (le 2 (e_central_handle e) ++ [if on then 1 else 0]). split; [reflexivity|].
    split; [exists 0; split; [exact S0|reflexivity]|].
    exists (le 2 (e_central_handle e)), [if on then 1 else 0]. split; [reflexivity|].
    split; [eexists; split; [apply N.le_0_l|split; [exact R|reflexivity]]|].
    eexists _, []. split; [symmetry; apply app_nil_r|]. split; [|reflexivity].
    eexists. split; [apply N.le_0_l|]. split; [|reflexivity]. destruct on; lia.
  - pose proof (g_handle _ G e H) as (_ & R).
    eexists _, _. split; [reflexivity|]. eapply conforming_event; [cbn; right; right; left; reflexivity|].
    exists [0], (le 2 (e_peripheral_handle e) ++ [if on then 1 else 0]). split; [reflexivity|].
    split; [exists 0; split; [exact S0|reflexivity]|].
    exists (le 2 (e_peripheral_handle e)), [if on then 1 else 0]. split; [reflexivity|].
    split; [eexists; split; [apply N.le_0_l|split; [exact R|reflexivity]]|].
    eexists _, []. split; [symmetry; apply app_nil_r|]. split; [|reflexivity].
    eexists. split; [apply N.le_0_l|]. split; [|reflexivity]. destruct on; lia.
  - destruct H as (O & Hr & _). pose proof (g_handle _ G e O) as (R & _).
    eexists _, _. split; [reflexivity|]. eapply conforming_event; [cbn; right; left; reflexivity|].
    exists [0], (le 2 (e_central_handle e) ++ [r]). split; [reflexivity|].
    split; [exists 0; split; [exact S0|reflexivity]|].
    exists (le 2 (e_central_handle e)), [r]. split; [reflexivity|].
    split; [eexists; split; [apply N.le_0_l|split; [exact R|reflexivity]]|].
    eexists _, []. split; [symmetry; apply app_nil_r|]. split; [|reflexivity].
    eexists. split; [|reflexivity]. auto.
  - destruct H as (O & _ & Hr). pose proof (g_handle _ G e O) as (_ & R).
    eexists _, _. split; [reflexivity|]. eapply conforming_event; [cbn; right; left; reflexivity|].
    exists [0], (le 2 (e_peripheral_handle e) ++ [r']). split; [reflexivity|].
    split; [exists 0; split; [exact S0|reflexivity]|].
    exists (le 2 (e_peripheral_handle e)), [r']. split; [reflexivity|].
    split; [eexists; split; [apply N.le_0_l|split; [exact R|reflexivity]]|].
    eexists _, []. split; [symmetry; apply app_nil_r|]. split; [|reflexivity].
    eexists. split; [|reflexivity]. auto.
Qed.

Lemma hidden_made h role p i l t a : u16 t ->
  hidden (framed 0x3E ([0x01; 0x00] ++ connection_body h role (fst (address p)) i l t a (snd (address p))))
  = (t =? 10).
Proof.
  intros W. destruct (six p) as (k & a0 & a1 & a2 & a3 & a4 & a5 & ->). cbn [fst snd].
  unfold framed, connection_body. rewrite !le_2. cbn [app length N.of_nat].
  unfold hidden, le_success, u16_le, at_. cbn [nth Nat.add].
  cbn [N.eqb Pos.eqb andb orb]. rewrite !word_back by assumption. now rewrite orb_false_r.
Qed.
Lemma hidden_renewed h i l t : u16 t ->
  hidden (framed 0x3E ([0x03; 0x00] ++ update_body h i l t)) = (t =? 10).
Proof.
  intros W. unfold framed, update_body. rewrite !le_2. cbn [app length N.of_nat].
  unfold hidden, le_success, u16_le, at_. cbn [nth Nat.add].
  cbn [N.eqb Pos.eqb andb orb]. rewrite !word_back by assumption. reflexivity.
Qed.
Lemma hidden_packets open o : may_occur open o ->
  filter (fun p => negb (hidden p)) (packets_for address d o)
  = if noticed o then packets_for address d o else [].
Proof.
  intros H.
  assert (W : forall e a b n, hidden a = negb n -> hidden b = negb n ->
     filter (fun p => negb (hidden p)) (for_end d e a b) = if n then for_end d e a b else []).
  { intros e a b n Ha Hb. unfold for_end. destruct (_ =? _); [|destruct (_ =? _)]; cbn [filter];
    rewrite ?Ha, ?Hb, ?negb_involutive; now destruct n. }
  destruct o as [e i l t a|e i l t|e on|e r r']; cbn [may_occur packets_for noticed] in *;
  [apply W|apply W|apply (W _ _ _ true)|apply (W _ _ _ true)].
  - rewrite hidden_made, negb_involutive; [reflexivity|]. apply (range_words _ _ _ _ (proj1 (proj2 (proj2 (proj2 H))))).
  - rewrite hidden_made, negb_involutive; [reflexivity|]. apply (range_words _ _ _ _ (proj1 (proj2 (proj2 (proj2 H))))).
  - rewrite hidden_renewed, negb_involutive; [reflexivity|]. apply (range_words _ _ _ _ (proj2 H)).
  - rewrite hidden_renewed, negb_involutive; [reflexivity|]. apply (range_words _ _ _ _ (proj2 H)).
  - reflexivity.
  - reflexivity.
  - reflexivity.
  - reflexivity.
Qed.

(** ** All occurrences *)
Lemma incl_occur open ls o : incl (map l_ends ls) (map l_ends open) ->
  incl (map l_ends (if noticed o then occur ls o else ls)) (map l_ends (occur open o)) \/
  exists e r r', o = Ended e r r'.
Proof.
  intros I. destruct o as [e i l t a|e i l t|e on|e r r']; cbn [occur noticed]; [left|left|left|right].
  - destruct (negb _); cbn [map l_ends]; intros x Hx.
    + destruct Hx as [<-|Hx]; [now left|right; now apply I].
    + right. now apply I.
  - destruct (negb _); rewrite !ends_on_link by auto; exact I.
  - rewrite !ends_on_link by auto; exact I.
  - eauto.
Qed.
Lemma incl_step open ls o : incl (map l_ends ls) (map l_ends open) ->
  incl (map l_ends (if noticed o then occur ls o else ls)) (map l_ends (occur open o)).
Proof.
  intros I. destruct (incl_occur open ls o I) as [H|(e & r & r' & ->)]; [exact H|].
  cbn [noticed occur]. intros x Hx. apply in_map_iff in Hx. destruct Hx as (y & <- & Hy).
  apply filter_In in Hy. destruct Hy as [Hy K].
  assert (X : In (l_ends y) (map l_ends open)) by (apply I; now apply in_map).
  apply in_map_iff in X. destruct X as (z & Ez & Hz). rewrite <- Ez. apply in_map.
  apply filter_In. split; [exact Hz|]. now rewrite Ez.
Qed.

Lemma all_occur os : forall open ls, good (map l_ends open) -> incl (map l_ends ls) (map l_ends open) ->
  may_all_occur open os ->
  fold_left happened (filter (fun p => negb (hidden p)) (flat_map (packets_for address d) os))
    (connections_of address d ls)
  = connections_of address d (fold_left occur (filter noticed os) ls).
Proof.
  induction os as [|o os IH]; intros open ls G I M; [reflexivity|]. destruct M as (M & Ms).
  cbn [flat_map filter]. rewrite filter_app, fold_left_app, (hidden_packets open o M).
  pose proof (incl_step open ls o I) as I'. pose proof (good_occur open o G M) as G'.
  destruct (noticed o).
  - cbn [fold_left]. rewrite (occurs open ls o G I M). now apply (IH (occur open o)).
  - cbn [fold_left]. now apply (IH (occur open o)).
Qed.
Lemma all_conform F os : forall open, good (map l_ends open) -> may_all_occur open os ->
  Forall (conforming_packet F) (flat_map (packets_for address d) os).
Proof.
  induction os as [|o os IH]; intros open G M; [constructor|]. destruct M as (M & Ms). cbn [flat_map].
  apply Forall_app. split; [now apply (packets_conform F open)|].
  apply (IH (occur open o)); [now apply good_occur|exact Ms].
Qed.
Lemma good_nil : good [].
Proof. split; cbn; tauto. Qed.

Lemma knows F V os evs : may_all_occur [] os -> heard F V (flat_map (packets_for address d) os) evs ->
  Forall2 describes (connections_of address d (fold_left occur (filter noticed os) [])) (fold_left follow evs []).
Proof.
  intros M (St & E & C & h & ops & s & more & HC & Ho & Hs & H).
  pose proof (all_conform F os [] good_nil M) as Hp.
  rewrite <- (all_occur os [] [] good_nil (fun x Hx => Hx) M).
  change (connections_of address d []) with (@nil connection).
  destruct H as [H|H].
  - pose proof (followed_uart F V C h ops s _ more [] [] HC Ho Hs Hp (Forall2_nil _)) as K.
    destruct (session F V C ops s) as [s' log]. destruct H as (P & N0 & ->). now apply K.
  - pose proof (followed_split F V C h ops s _ more [] [] HC Ho Hs Hp (Forall2_nil _)) as K.
    destruct (split_session F V C ops s) as [s' log]. destruct H as (P & N0 & ->). now apply K.
Qed.
End Device.

(** ** Both ends *)
Lemma in_describes cs ks c : Forall2 describes cs ks -> In c cs -> exists k, In k ks /\ describes c k.
Proof.
  induction 1 as [|c0 k0 cs ks H _ IH]; intros Hc; [contradiction|].
  destruct Hc as [<-|Hc]; [exists k0; cbn; auto|]. destruct (IH Hc) as (k & Hk & D). exists k; cbn; auto.
Qed.
Lemma two_ends os : forall open ls, good (map l_ends open) -> incl (map l_ends ls) (map l_ends open) ->
  may_all_occur open os -> forall l, In l (fold_left occur (filter noticed os) ls) ->
  e_central (l_ends l) <> e_peripheral (l_ends l).
Proof.
  induction os as [|o os IH]; intros open ls G I M l Hl.
  - cbn in Hl. apply (g_two _ G). apply I. now apply in_map.
  - destruct M as (M & Ms). pose proof (incl_step open ls o I) as I'. pose proof (good_occur open o G M) as G'.
    cbn [filter] in Hl. destruct (noticed o); now apply (IH (occur open o) _ G' I' Ms).
Qed.

Lemma both_agree F V F' V' address os evs evs' l : address_book address -> may_all_occur [] os ->
  In l (fold_left occur (filter noticed os) []) ->
  heard F V (flat_map (packets_for address (e_central (l_ends l))) os) evs ->
  heard F' V' (flat_map (packets_for address (e_peripheral (l_ends l))) os) evs' ->
  exists k k', In k (fold_left follow evs []) /\ In k' (fold_left follow evs' []) /\ agree address l k k'.
Proof.
  intros HA M Hl H H'.
  pose proof (two_ends os [] [] good_nil (fun x Hx => Hx) M l Hl) as T.
  pose proof (knows address _ HA F V os evs M H) as K. pose proof (knows address _ HA F' V' os evs' M H') as K'.
  assert (X : In {| c_handle := e_central_handle (l_ends l);
                    c_kind := LowEnergy 0 (fst (address (e_peripheral (l_ends l)))
                                :: snd (address (e_peripheral (l_ends l)))) (l_interval l) (l_latency l) (l_timeout l);
                    c_encrypted := l_encrypted l |}
              (connections_of address (e_central (l_ends l)) (fold_left occur (filter noticed os) []))).
  { unfold connections_of. apply in_flat_map. exists l. split; [exact Hl|]. unfold for_end.
    rewrite N.eqb_refl. now left. }
  assert (X' : In {| c_handle := e_peripheral_handle (l_ends l);
                    c_kind := LowEnergy 1 (fst (address (e_central (l_ends l)))
                                :: snd (address (e_central (l_ends l)))) (l_interval l) (l_latency l) (l_timeout l);
                    c_encrypted := l_encrypted l |}
              (connections_of address (e_peripheral (l_ends l)) (fold_left occur (filter noticed os) []))).
  { unfold connections_of. apply in_flat_map. exists l. split; [exact Hl|]. unfold for_end.
    rewrite (proj2 (N.eqb_neq _ _) T), N.eqb_refl. now left. }
  destruct (in_describes _ _ _ K X) as (k & Hk & D). destruct (in_describes _ _ _ K' X') as (k' & Hk' & D').
  exists k, k'. split; [exact Hk|]. split; [exact Hk'|].
  destruct k as [kh kk ke], k' as [kh' kk' ke']. unfold describes in D, D'. cbn in D, D'.
  destruct D as (<- & D & <-), D' as (<- & D' & <-).
  destruct kk as [|role peer ci]; [contradiction|]. destruct kk' as [|role' peer' ci']; [contradiction|].
  destruct D as (R & P & I0 & L0 & T0), D' as (R' & P' & I1 & L1 & T1).
  destruct role; [|discriminate R]. destruct role'; [discriminate R'|].
  exists peer, peer', ci. replace ci' with ci; [auto|].
  destruct ci, ci'. cbn in *. congruence.
Qed.
