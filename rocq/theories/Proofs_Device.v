(** * The settings of the controller after a session. *)
From Verif Require Import Base Model_Types Model_Bitflags Model_Intervals Model_EventBase Model_Command
  Model_Event Model_Host Spec_Wire Spec_Interval Spec_Flags Spec_Errors Spec_Host Spec_Link Spec_Split Spec_Pass Spec_Device
  Proofs_Base Proofs_Interval Proofs_Flags Proofs_Calls Proofs_Time Proofs_Host Proofs_Complete Proofs_Link Proofs_Sent Proofs_Streams
  Proofs_Split.
Open Scope list_scope.
Open Scope N_scope.

Lemma join v : u16 v -> v / 1 mod 256 + 256 * (v / 256 mod 256) = v.
Proof. rewrite N.div_1_r. apply read_le_2. Qed.


Lemma six (a : list N) : length a = 6%nat -> exists b0 b1 b2 b3 b4 b5, a = [b0; b1; b2; b3; b4; b5].
Proof.
  destruct a as [|b0 [|b1 [|b2 [|b3 [|b4 [|b5 [|]]]]]]]; intros H; try discriminate H. now exists b0, b1, b2, b3, b4, b5.
Qed.
Lemma seven k (a : list N) : length a = 6%nat -> length (k :: a) = 7%nat.
Proof. cbn. now intros ->. Qed.
Lemma listed (a : list N) : length a = 7%nat ->
  exists b0 b1 b2 b3 b4 b5 b6, a = [b0; b1; b2; b3; b4; b5; b6].
Proof.
  destruct a as [|b0 [|b1 [|b2 [|b3 [|b4 [|b5 [|b6 [|]]]]]]]]; intros H; try discriminate H.
  now exists b0, b1, b2, b3, b4, b5, b6.
Qed.

Lemma data_kept data : (length data <= 31)%nat ->
  slice 1 (N.to_nat (at_ (outbound_data data) 0)) (outbound_data data) = data.
Proof.
  intros _. unfold outbound_data, slice, at_. cbn [app nth skipn]. rewrite Nat2N.id, firstn_app, Nat.sub_diag, firstn_all.
  cbn [firstn]. apply app_nil_r.
Qed.
Lemma whole n (l : list N) : length l = n -> slice 0 n l = l.
Proof. intros <-. unfold slice. cbn [skipn]. apply firstn_all. Qed.


Ltac pick :=
  repeat match goal with
  | |- context [?a =? ?b] =>
      lazymatch b with hci_opcode _ _ => idtac end;
      let r := eval vm_compute in (a =? b) in
      lazymatch r with true => idtac | false => idtac end;
      change (a =? b) with r
  end; cbv iota beta zeta.

Lemma flag_read b : (flag b =? 1) = b.
Proof. now destruct b. Qed.

Lemma carried F {V E} d (c : command V) : arguments_typed F c -> @rejection V E c = None ->
  carry_out d (command_opcode c, command_params c) = asked d c.
Proof.
  intros HA HR. destruct c; cbn [arguments_typed rejection] in HA, HR; unfold carry_out; pick;
    cbn [asked command_params]; try reflexivity.
  - now rewrite whole, u64_number by (assumption || apply le_length).
  - now rewrite whole, u64_number by (assumption || apply le_length).
  - rewrite whole by apply HA. reflexivity.
  - destruct HA as (Hi & _ & Ha & _).
    destruct (listed _ (address_bytes_length _ Ha)) as (b0 & b1 & b2 & b3 & b4 & b5 & b6 & ->).
    pose proof (proj2 (ai_sent F _ Hi)) as R. unfold advertising_interval_bytes.
    set (mm := match ai_type (ap_interval p) with ConnectableDirectedHighDutyCycle => (0, 0)
             | _ => (slots (fst (ai_interval (ap_interval p))), slots (snd (ai_interval (ap_interval p)))) end).
    replace (match ai_type (ap_interval p) with
             | ConnectableDirectedHighDutyCycle => [0; 0; 0; 0]
             | _ => le 2 (slots (fst (ai_interval (ap_interval p)))) ++ le 2 (slots (snd (ai_interval (ap_interval p))))
             end) with (le 2 (fst mm) ++ le 2 (snd mm))
      by (unfold mm; destruct (ai_type _); reflexivity).
    assert (M : u16 (fst mm) /\ u16 (snd mm)).
    { unfold mm. destruct (ai_type (ap_interval p)); cbn [fst snd];
        try (specialize (R ltac:(discriminate))); split; apply small_u16; lia. }
    destruct M as [M1 M2]. destruct mm as [x y]. cbn [fst snd] in *. rewrite !le_2.
    unfold u16_le, at_, slice. cbn [app nth skipn firstn Nat.add]. now rewrite !read_le_2 by assumption.
  - destruct (Nat.leb_spec (length data) 31) as [L|]; [|discriminate]. now rewrite data_kept.
  - destruct (Nat.leb_spec (length data) 31) as [L|]; [|discriminate]. now rewrite data_kept.
  - unfold at_. cbn [nth]. now rewrite flag_read.
  - unfold at_. cbn [nth]. now rewrite flag_read.
  - destruct HA as (Hs & _ & _). destruct (sw_sent _ Hs) as (_ & S1 & S2 & S3). unfold scan_window_bytes.
    assert (M1 : u16 (slots (sw_interval (sp_scan_window p)))) by (apply small_u16; lia).
    assert (M2 : u16 (slots (sw_window (sp_scan_window p)))) by (apply small_u16; lia).
    rewrite !le_2. unfold u16_le, at_. cbn [app nth Nat.add]. now rewrite !read_le_2 by assumption.
  - unfold at_. cbn [nth]. now rewrite !flag_read.
  - destruct HA as (Hs & Hp & _ & _ & Hc & He). destruct (sw_sent _ Hs) as (_ & S1 & S2 & S3).
    destruct (sent_ranges _ Hc) as (C1 & C2 & C3 & C4 & C5 & C6 & _). destruct (ecl_sent _ He) as (E1 & E2 & _).
    destruct (listed _ (peer_address_bytes_length _ Hp)) as (b0 & b1 & b2 & b3 & b4 & b5 & b6 & ->).
    unfold scan_window_bytes, conn_interval_bytes, expected_length_bytes.
    assert (M1 : u16 (slots (sw_interval (cp_scan_window p)))) by (apply small_u16; lia).
    assert (M2 : u16 (slots (sw_window (cp_scan_window p)))) by (apply small_u16; lia).
    assert (M3 : u16 (sent_interval (fst (ci_interval (cp_conn_interval p))))) by (apply small_u16; lia).
    assert (M4 : u16 (sent_interval (snd (ci_interval (cp_conn_interval p))))) by (apply small_u16; lia).
    assert (M5 : u16 (ci_latency (cp_conn_interval p))) by (apply small_u16; lia).
    assert (M6 : u16 (ci_timeout (cp_conn_interval p) / timeout_unit)) by (apply small_u16; lia).
    assert (M7 : u16 (slots (fst (ecl_range (cp_expected_connection_length p))))) by (apply small_u16; lia).
    assert (M8 : u16 (slots (snd (ecl_range (cp_expected_connection_length p))))) by (apply small_u16; lia).
    rewrite !le_2. destruct (cp_initiator_filter_policy p); unfold u16_le, at_, slice;
      cbn [app nth Nat.add repeat skipn firstn initiator_filter_code]; now rewrite !read_le_2 by assumption.
  - rewrite whole by now apply address_bytes_length. reflexivity.
  - rewrite whole by now apply address_bytes_length. reflexivity.
  - rewrite whole by apply (channels_spec F _ HA). reflexivity.
Qed.

(** ** Sessions *)
Definition fit F {V} (c : command V) : Prop := arguments_typed F c /\ @rejection V unit c = None.

Lemma rejection_any {V E E'} (c : command V) : @rejection V E c = None -> @rejection V E' c = None.
Proof.
  destruct c; cbn [rejection]; try reflexivity;
    repeat match goal with
    | |- context [if ?b then _ else _] => destruct b
    | |- context [match ?b with _ => _ end] => destruct b
    end; reflexivity || discriminate.
Qed.
Lemma success_fits F V {St E} H enc (C : controller St E) c s : In (H, enc) header_formats -> arguments_typed F c ->
  succeeded (snd (run_command F V H C c s)) = true -> fit F c.
Proof.
  intros HH HA HS. split; [exact HA|]. destruct (@rejection V E c) as [e|] eqn:HR; [|now apply (rejection_any (E := E))].
  rewrite (call_rejected F V H enc C HH c s e HA HR) in HS. discriminate HS.
Qed.
Lemma session_fits F V {St E} (C : controller St E) os : Forall (typed_operation F) os ->
  forall s, Forall (fit F) (sent_commands (snd (session F V C os s))).
Proof.
  induction 1 as [|o os Ho _ IH]; intros s; cbn [session]; [constructor|].
  destruct o as [c|]; cbn [perform].
  - pose proof (success_fits F V uart_header uart_header_bytes C c s (or_introl eq_refl) Ho) as K.
    destruct (run_command _ _ _ _ _ _) as [s1 r]. specialize (IH s1). destruct (session F V C os s1) as [s2 log].
    cbn [snd] in *. unfold sent_commands. cbn [flat_map]. destruct (succeeded r); [|exact IH].
    constructor; [now apply K|exact IH].
  - destruct (uart_read F V C s) as [s1 r]. specialize (IH s1). destruct (session F V C os s1) as [s2 log]. exact IH.
Qed.
Lemma split_fits F V {St E} (C : controller St E) os : Forall (typed_operation F) os ->
  forall s, Forall (fit F) (split_sent (snd (split_session F V C os s))).
Proof.
  induction 1 as [|o os Ho _ IH]; intros s; cbn [split_session]; [constructor|].
  destruct o as [c|]; cbn [split_perform].
  - pose proof (success_fits F V cmd_link_header cmd_link_header_bytes C c s link_header_known Ho) as K.
    destruct (run_command _ _ _ _ _ _) as [s1 r]. specialize (IH s1). destruct (split_session F V C os s1) as [s2 log].
    cbn [snd] in *. unfold split_sent. cbn [flat_map]. destruct (succeeded r); [|exact IH].
    constructor; [now apply K|exact IH].
  - destruct (link_read F V C s) as [s1 r]. specialize (IH s1). destruct (split_session F V C os s1) as [s2 log]. exact IH.
Qed.

Lemma uart_stream F V (cs : list (command V)) : Forall (fit F) cs ->
  parse_commands (flat_map command_bytes cs) = Some (map (fun c => (command_opcode c, command_params c)) cs).
Proof.
  induction 1 as [|c cs [HA HR] _ IH]; [reflexivity|]. cbn [flat_map]. unfold command_bytes at 1.
  rewrite <- app_assoc. destruct (params_ok F V c HA HR) as [Hl _].
  rewrite parse_one by (apply command_opcode_u16 || lia). rewrite IH. reflexivity.
Qed.
Lemma carried_all F V (cs : list (command V)) d : Forall (fit F) cs ->
  fold_left carry_out (map (fun c => (command_opcode c, command_params c)) cs) d = fold_left asked cs d.
Proof.
  intros H. revert d. induction H as [|c cs [HA HR] _ IH]; intros d; [reflexivity|].
  cbn [map fold_left]. rewrite (carried F d c HA HR). apply IH.
Qed.

Lemma session_carried F V {St E} (C : controller St E) h os s d : contract C h ->
  Forall (typed_operation F) os -> possible h s ->
  let (s', log) := session F V C os s in
  exists stream packets, written h s' = written h s ++ stream /\ parse_commands stream = Some packets
    /\ fold_left carry_out packets d = fold_left asked (sent_commands log) d.
Proof.
  intros HC Ho Hs. pose proof (session_fits F V C os Ho s) as K.
  pose proof (session_spec F V C h HC os s Ho Hs) as W. destruct (session F V C os s) as [s' log].
  destruct W as (_ & W & _). cbn [snd] in K. eexists _, _. split; [exact W|]. split; [exact (uart_stream F V _ K)|].
  exact (carried_all F V _ d K).
Qed.
Lemma split_carried F V {St E} (C : controller St E) h os s d : contract C h ->
  Forall (typed_operation F) os -> possible h s ->
  let (s', log) := split_session F V C os s in
  exists stream packets, written h s' = written h s ++ stream /\ parse_link_commands stream = Some packets
    /\ fold_left carry_out packets d = fold_left asked (split_sent log) d.
Proof.
  intros HC Ho Hs. pose proof (split_fits F V C os Ho s) as K.
  pose proof (split_session_spec F V C h HC os s Ho Hs) as W. destruct (split_session F V C os s) as [s' log].
  destruct W as (_ & W & P & _). cbn [snd] in K. eexists _, _. split; [exact W|]. split; [exact P|].
  exact (carried_all F V _ d K).
Qed.

(** ** The white list *)
Lemma same_entry_iff x y : same_entry x y = true <-> x = y.
Proof. unfold same_entry. destruct (list_eq_dec _ _ _); split; congruence. Qed.
Lemma enter_in x y l : In x (enter y l) <-> x = y \/ In x l.
Proof.
  unfold enter. destruct (existsb (same_entry y) l) eqn:Ex.
  - apply existsb_exists in Ex. destruct Ex as (z & Hz & Ez). apply same_entry_iff in Ez. subst z.
    split; [now right|]. intros [->|H]; assumption.
  - cbn. split; intros [H|H]; auto.
Qed.
Lemma strike_in x y l : In x (strike y l) <-> x <> y /\ In x l.
Proof.
  unfold strike. rewrite filter_In. destruct (same_entry y x) eqn:Ex.
  - apply same_entry_iff in Ex. subst. cbn. split; [intros [_ H]; discriminate|intros [H _]; now contradiction H].
  - cbn. assert (x <> y) by (intros ->; rewrite (proj2 (same_entry_iff y y) eq_refl) in Ex; discriminate).
    tauto.
Qed.
Lemma enter_once x l : NoDup l -> NoDup (enter x l).
Proof.
  intros H. unfold enter. destruct (existsb (same_entry x) l) eqn:Ex; [exact H|]. constructor; [|exact H].
  intros Hx. assert (X : existsb (same_entry x) l = true)
    by (apply existsb_exists; exists x; split; [exact Hx|now apply same_entry_iff]).
  congruence.
Qed.
Lemma asked_once V d (c : command V) : NoDup (white_list d) -> NoDup (white_list (asked d c)).
Proof.
  intros H. destruct c; cbn [asked white_list with_white_list with_event_mask with_le_event_mask with_random_address
    with_advertising with_advertising_data with_scan_response with_is_advertising with_scanning with_is_scanning
    with_channels with_connecting after_reset]; try exact H; try constructor; try now apply enter_once.
  all: now apply NoDup_filter.
Qed.

Lemma takes_off_dec V x (c : command V) : takes_off x c \/ ~ takes_off x c.
Proof.
  destruct c; cbn [takes_off]; auto.
  all: match goal with |- ?a = ?b \/ _ => destruct (list_eq_dec N.eq_dec a b); auto end.
Qed.
Lemma asked_in V x d (c : command V) :
  In x (white_list (asked d c)) <-> adds c = Some x \/ (In x (white_list d) /\ ~ takes_off x c).
Proof.
  destruct c; cbn [asked white_list with_white_list with_event_mask with_le_event_mask with_random_address
    with_advertising with_advertising_data with_scan_response with_is_advertising with_scanning with_is_scanning
    with_channels with_connecting after_reset adds takes_off In];
    try (split; [now right|intros [H|[H _]]; [discriminate H|exact H]]).
  all: try (split; [intros []|intros [H|[_ H]]; [discriminate H|exact (H I)]]).
  - rewrite enter_in. split; [intros [->|H]; auto|intros [H|[H _]]; [left; congruence|auto]].
  - rewrite enter_in. split; [intros [->|H]; auto|intros [H|[H _]]; [left; congruence|auto]].
  - rewrite strike_in. split; [intros [H1 H2]; right; split; [exact H2|congruence]|].
    intros [H|[H1 H2]]; [discriminate H|]. split; [congruence|exact H1].
  - rewrite strike_in. split; [intros [H1 H2]; right; split; [exact H2|congruence]|].
    intros [H|[H1 H2]]; [discriminate H|]. split; [congruence|exact H1].
Qed.
Lemma adds_not_off V x (c : command V) : adds c = Some x -> ~ takes_off x c.
Proof. destruct c; cbn; (discriminate || auto). Qed.

Lemma asked_history V x (cs : list (command V)) : forall d,
  In x (white_list (fold_left asked cs d)) <-> stays x (white_list d) cs.
Proof.
  induction cs as [|c cs IH]; intros d; cbn [fold_left].
  - split; [intros H; left; split; [exact H|constructor]|].
    intros [[H _]|(b & c & a & E & _)]; [exact H|]. destruct b; discriminate E.
  - rewrite IH. unfold stays at 1. rewrite asked_in. split.
    + intros [[[H|[H1 H2]] HF]|(b & c' & a & -> & H & HF)].
      * right. now exists [], c, cs.
      * left. split; [exact H1|]. now constructor.
      * right. now exists (c :: b), c', a.
    + intros [[H HF]|(b & c' & a & E & H & HF)].
      * inversion HF; subst. left. auto.
      * destruct b as [|c0 b]; apply cons_inv in E; destruct E as [<- ->]; [left; auto|].
        right. now exists b, c', a.
Qed.
Lemma asked_all_once V (cs : list (command V)) : forall d, NoDup (white_list d) -> NoDup (white_list (fold_left asked cs d)).
Proof. induction cs as [|c cs IH]; intros d H; [exact H|]. cbn [fold_left]. now apply IH, asked_once. Qed.

Lemma session_white_list F V {St E} (C : controller St E) h os s d x : contract C h ->
  Forall (typed_operation F) os -> possible h s ->
  let (s', log) := session F V C os s in
  exists stream packets, written h s' = written h s ++ stream /\ parse_commands stream = Some packets
    /\ (In x (white_list (fold_left carry_out packets d)) <-> stays x (white_list d) (sent_commands log)).
Proof.
  intros HC Ho Hs. pose proof (session_carried F V C h os s d HC Ho Hs) as K.
  destruct (session F V C os s) as [s' log]. destruct K as (w & ps & K1 & K2 & K3).
  exists w, ps. split; [exact K1|]. split; [exact K2|]. rewrite K3. apply asked_history.
Qed.
Lemma split_white_list F V {St E} (C : controller St E) h os s d x : contract C h ->
  Forall (typed_operation F) os -> possible h s ->
  let (s', log) := split_session F V C os s in
  exists stream packets, written h s' = written h s ++ stream /\ parse_link_commands stream = Some packets
    /\ (In x (white_list (fold_left carry_out packets d)) <-> stays x (white_list d) (split_sent log)).
Proof.
  intros HC Ho Hs. pose proof (split_carried F V C h os s d HC Ho Hs) as K.
  destruct (split_session F V C os s) as [s' log]. destruct K as (w & ps & K1 & K2 & K3).
  exists w, ps. split; [exact K1|]. split; [exact K2|]. rewrite K3. apply asked_history.
Qed.
Lemma entries_differ a b : address_typed a -> address_typed b ->
  (address_bytes a = address_bytes b <-> a = b) /\ address_bytes a <> any_anonymous.
Proof.
  intros _ _. destruct a as [a|a], b as [b|b]; cbn; split;
    try (split; intros H; [injection H; intros; subst|]; congruence); discriminate.
Qed.
