(** * Commands as sent. *)
From Verif Require Import Base Model_Types Model_Bitflags Model_Intervals Model_EventBase Model_Event Model_Host
  Spec_Wire Spec_Errors Spec_Interval Spec_Flags Spec_Host Spec_Versions Spec_Conform Spec_Sent Spec_Example Proofs_Base Proofs_Bits Proofs_Flags
  Proofs_Serialize Proofs_Time Proofs_Calls Proofs_Host Proofs_Event Proofs_Loss Proofs_Streams Proofs_Conform.
Open Scope list_scope.
Open Scope N_scope.

(** ** Looking up a format *)
Lemma formats_distinct F : forallb (fun e => Nat.eqb (length (filter (N.eqb (fst e)) (map fst (command_formats F)))) 1)
  (command_formats F) = true.
Proof. vm_compute. reflexivity. Qed.

Lemma find_key {A} (l : list (N * A)) op P : In (op, P) l ->
  length (filter (N.eqb op) (map fst l)) = 1%nat -> find (fun e => fst e =? op) l = Some (op, P).
Proof.
  induction l as [|[k Q] l IH]; [intros []|]. intros [E|H] L.
  - injection E as -> ->. cbn [find fst]. now rewrite N.eqb_refl.
  - cbn [find fst]. cbn [map filter fst] in L. rewrite N.eqb_sym in L. destruct (N.eqb_spec k op) as [->|Hk].
    + exfalso. cbn [length] in L. injection L as L.
      assert (K : In op (filter (N.eqb op) (map fst l))).
      { apply filter_In. split; [|apply N.eqb_refl]. apply in_map_iff. now exists (op, P). }
      destruct (filter _ _); [destruct K|discriminate L].
    + now apply IH.
Qed.

Lemma format_at F n op P p : nth_error (command_formats F) n = Some (op, P) ->
  (command_conforming F op p <-> P p).
Proof.
  intros H. apply nth_error_In in H. unfold command_conforming.
  pose proof (formats_distinct F) as D. rewrite forallb_forall in D. specialize (D _ H).
  apply Nat.eqb_eq in D. cbn [fst] in D. rewrite (find_key _ _ _ H D). reflexivity.
Qed.

(** ** Numbers *)
Lemma le2_app a b x y : u16 a -> u16 b -> le 2 a ++ x = le 2 b ++ y -> a = b /\ x = y.
Proof.
  intros Ha Hb E. apply app_inv_len in E; [|now rewrite !le_length]. destruct E as [E ->].
  split; [|reflexivity]. now apply le_2_inj.
Qed.
Lemma small_u16 v : v <= 0xFFFF -> u16 v.
Proof. unfold u16. change (2 ^ 16) with 65536. lia. Qed.

Section Sent.
Context (F : features).

Lemma handle_first h fs rest : u16 h ->
  (matches F (Handle :: fs) (le 2 h ++ rest) <-> h <= 0x0EFF /\ matches F fs rest).
Proof.
  intros Hh. cbn [matches]. split.
  - intros (b & bs & E & (v & _ & Hv & ->) & H). apply le2_app in E; [|exact Hh|now apply handle_u16].
    destruct E as [-> ->]. now split.
  - intros [H1 H2]. exists (le 2 h), rest. split; [reflexivity|]. split; [|exact H2].
    exists h. split; [apply N.le_0_l|]. now split.
Qed.
Lemma handle_alone h : u16 h -> (matches F [Handle] (le 2 h) <-> ~ 0x0EFF < h).
Proof.
  intros Hh. rewrite <- (app_nil_r (le 2 h)), handle_first by exact Hh. cbn [matches].
  rewrite N.nlt_ge. tauto.
Qed.
Lemma octets_first n b fs rest : length b = n -> bytes b ->
  (matches F fs rest -> matches F (Octets n :: fs) (b ++ rest)).
Proof. intros L B H. exists b, rest. split; [reflexivity|]. now split. Qed.
Lemma octet_first lo hi b fs rest : lo <= b -> b <= hi ->
  (matches F fs rest -> matches F (Octet lo hi :: fs) (b :: rest)).
Proof. intros L B H. exists [b], rest. split; [reflexivity|]. split; [|exact H]. exists b. now split. Qed.
Lemma nothing : matches F [] [].
Proof. reflexivity. Qed.

(** ** Timing of connections *)
Lemma timing_sent ci e : ci_reachable ci -> ecl_reachable e ->
  (connection_timing (conn_interval_bytes ci ++ expected_length_bytes e) <-> ~ badly_rounded ci).
Proof.
  intros Hci He. pose proof (sent_ranges ci Hci) as K. cbv zeta in K.
  destruct K as (K1 & K2 & K3 & K4 & K5 & K6 & K7).
  destruct (ecl_sent e He) as (L1 & L2 & _).
  unfold conn_interval_bytes, expected_length_bytes, badly_rounded. rewrite <- !app_assoc. split.
  - intros (a & b & l & t & c & d & H1 & H2 & H3 & H4 & H5 & H6 & H7 & H8 & H9 & E).
    repeat (apply le2_app in E; [|apply small_u16; lia..]; destruct E as [? E]). subst.
    intros [B|B]; [apply K7 in B; lia|contradiction].
  - intros H. exists (sent_interval (fst (ci_interval ci))), (sent_interval (snd (ci_interval ci))),
      (ci_latency ci), (ci_timeout ci / timeout_unit), (slots (fst (ecl_range e))), (slots (snd (ecl_range e))).
    assert (H6 : ~ fst (ci_interval ci) < ms 8) by tauto.
    assert (S : timeout_suffices (sent_interval (snd (ci_interval ci))) (ci_latency ci) (ci_timeout ci / timeout_unit)).
    { unfold timeout_suffices in *.
      match goal with |- ?a < ?b => destruct (N.lt_ge_cases a b) as [Q|Q]; [exact Q|] end.
      exfalso. apply H. right. lia. }
    rewrite <- K7 in H6. repeat (split; [assumption || lia|]). reflexivity.
Qed.

Lemma u16_slots d : slots d <= 0x4000 -> u16 (slots d).
Proof. intros. apply small_u16. lia. Qed.

Lemma own_code t : own_address_type_exists F t = true -> own_address_code t <= last_address F.
Proof.
  unfold last_address, privacy. destruct t; cbn [own_address_type_exists own_address_code any_4_2_5_0];
    unfold any_4_2_5_0; intros H; try rewrite H; destruct (_ || _)%bool; lia.
Qed.
Lemma address_split a : address_typed a -> exists k x, k <= 1 /\ length x = 6%nat /\ bytes x /\ address_bytes a = k :: x.
Proof.
  destruct a as [x|x]; intros [H1 H2]; [exists 0, x|exists 1, x];
    (split; [lia|]); now split.
Qed.
Lemma peer_split a : peer_typed a -> peer_addr_type_exists F a = true ->
  exists k x, k <= last_address F /\ length x = 6%nat /\ bytes x /\ peer_address_bytes a = k :: x.
Proof.
  unfold last_address, privacy.
  destruct a as [x|x|x|x]; intros [H1 H2]; cbn [peer_addr_type_exists]; unfold any_4_2_5_0; intros He;
    [exists 0, x|exists 1, x|exists 2, x|exists 3, x]; try rewrite He;
    (split; [try (destruct (_ || _)%bool); lia|]); now split.
Qed.
Lemma bytes_zeros n : bytes (repeat 0 n).
Proof. induction n; [apply bytes_nil|]. apply bytes_cons. now split. Qed.

Lemma advertising_sent p : ai_reachable F (ap_interval p) ->
  own_address_type_exists F (ap_own_address_type p) = true -> address_typed (ap_peer_address p) ->
  1 <= ap_channel_map p -> ap_channel_map p <= 7 ->
  (advertising_parameters_format F (advertising_interval_bytes (ap_interval p) ++ [own_address_code (ap_own_address_type p)]
      ++ address_bytes (ap_peer_address p) ++ [ap_channel_map p] ++ [advertising_filter_code (ap_filter_policy p)])
   <-> ~ (version_5_0 F = false /\ ai_type (ap_interval p) = NonConnectableUndirected
          /\ fst (ai_interval (ap_interval p)) < ms 100)).
Proof.
  intros Hi Ho Ha H1 H7. destruct (address_split _ Ha) as (k & x & Hk & Hx & Bx & ->).
  pose proof (ai_sent F _ Hi) as [_ R]. pose proof (ai_reachable_legal F _ Hi) as L.
  apply own_code in Ho. unfold advertising_interval_bytes.
  set (mm := match ai_type (ap_interval p) with ConnectableDirectedHighDutyCycle => (0, 0)
             | _ => (slots (fst (ai_interval (ap_interval p))), slots (snd (ai_interval (ap_interval p)))) end).
  replace (match ai_type (ap_interval p) with
           | ConnectableDirectedHighDutyCycle => [0; 0; 0; 0]
           | _ => le 2 (slots (fst (ai_interval (ap_interval p)))) ++ le 2 (slots (snd (ai_interval (ap_interval p))))
           end) with (le 2 (fst mm) ++ le 2 (snd mm))
    by (unfold mm; destruct (ai_type _); reflexivity).
  assert (Hm : u16 (fst mm) /\ u16 (snd mm)).
  { unfold mm. destruct (ai_type (ap_interval p)); cbn [fst snd];
      try (specialize (R ltac:(discriminate))); split; apply small_u16; lia. }
  destruct Hm as [M1 M2]. rewrite <- !app_assoc. cbn [app]. split.
  - intros (min & max & kind & own & peer & addr & ch & fi & _ & _ & _ & La & _ & _ & _ & _ & U1 & U2 & _ & S & E)
      (F5 & T & Hlow).
    apply le2_app in E; [|assumption..]. destruct E as [E1 E].
    apply le2_app in E; [|assumption..]. destruct E as [E2 E].
    apply cons_inv in E. destruct E as [E3 _]. subst.
    specialize (S F5). rewrite T in S. specialize (S (or_intror eq_refl)).
    unfold mm in S. rewrite T in S. cbn [fst] in S. unfold slots, slot, us, ms in *. lia.
  - intros H. exists (fst mm), (snd mm), (advertising_type_code (ai_type (ap_interval p))),
      (own_address_code (ap_own_address_type p)), k, x, (ap_channel_map p), (advertising_filter_code (ap_filter_policy p)).
    split; [destruct (ai_type _); cbn; lia|]. split; [exact Ho|]. split; [exact Hk|]. split; [exact Hx|].
    split; [exact Bx|]. split; [exact H1|]. split; [exact H7|].
    split; [destruct (ap_filter_policy p); cbn; lia|]. split; [exact M1|]. split; [exact M2|].
    split; [|split; [|cbn [app]; reflexivity]].
    + intros K. unfold mm. destruct (ai_type (ap_interval p)); cbn [fst snd]; try (apply R; discriminate).
      exfalso. now apply K.
    + intros F5 K. unfold mm. unfold ai_legal in L. unfold slots, slot, us, ms in *.
      destruct (ai_type (ap_interval p)) eqn:T; cbn [advertising_type_code] in K; try (destruct K; discriminate); cbn [fst].
      * destruct L as [(_ & _ & _ & L)|[L _]]; [|discriminate L]. specialize (L F5 eq_refl). lia.
      * destruct (N.lt_ge_cases (fst (ai_interval (ap_interval p))) (100 * 1000000)) as [Q|Q]; [|lia].
        exfalso. apply H. now split.
Qed.

Lemma scan_sent p : sw_reachable (sp_scan_window p) -> own_address_type_exists F (sp_own_address_type p) = true ->
  scan_filter_policy_exists F (sp_filter_policy p) = true ->
  scan_parameters_format F ([scan_type_code (sp_scan_type p)] ++ scan_window_bytes (sp_scan_window p)
    ++ [own_address_code (sp_own_address_type p)] ++ [scan_filter_code (sp_filter_policy p)]).
Proof.
  intros Hw Ho Hf. destruct (sw_sent _ Hw) as (_ & W1 & W2 & W3).
  exists (scan_type_code (sp_scan_type p)), (slots (sw_interval (sp_scan_window p))),
    (slots (sw_window (sp_scan_window p))), (own_address_code (sp_own_address_type p)),
    (scan_filter_code (sp_filter_policy p)).
  split; [destruct (sp_scan_type p); cbn; lia|]. split; [exact W1|]. split; [exact W2|]. split; [exact W3|].
  split; [now apply own_code|]. split.
  - unfold privacy. unfold scan_filter_policy_exists, any_4_2_5_0 in Hf.
    destruct (sp_filter_policy p); try rewrite Hf; cbn; destruct (_ || _)%bool; lia.
  - unfold scan_window_bytes. rewrite <- !app_assoc. reflexivity.
Qed.

Lemma create_sent p : sw_reachable (cp_scan_window p) -> peer_typed (cp_peer_address p) ->
  peer_addr_type_exists F (cp_peer_address p) = true -> own_address_type_exists F (cp_own_address_type p) = true ->
  ci_reachable (cp_conn_interval p) -> ecl_reachable (cp_expected_connection_length p) ->
  (create_connection_format F (scan_window_bytes (cp_scan_window p)
     ++ [initiator_filter_code (cp_initiator_filter_policy p)]
     ++ match cp_initiator_filter_policy p with
        | UseAddress => peer_address_bytes (cp_peer_address p)
        | UseWhiteList => repeat 0 7
        end
     ++ [own_address_code (cp_own_address_type p)]
     ++ conn_interval_bytes (cp_conn_interval p)
     ++ expected_length_bytes (cp_expected_connection_length p))
   <-> ~ badly_rounded (cp_conn_interval p)).
Proof.
  intros Hw Hp Hpe Ho Hci He. destruct (sw_sent _ Hw) as (_ & W1 & W2 & W3).
  assert (Hpeer : exists k x, k <= last_address F /\ length x = 6%nat /\ bytes x /\
    match cp_initiator_filter_policy p with
    | UseAddress => peer_address_bytes (cp_peer_address p)
    | UseWhiteList => repeat 0 7
    end = k :: x).
  { destruct (cp_initiator_filter_policy p); [now apply peer_split|].
    exists 0, (repeat 0 6). split; [unfold last_address; destruct (privacy F); lia|].
    split; [reflexivity|]. split; [apply bytes_zeros|reflexivity]. }
  destruct Hpeer as (k & x & Hk & Hx & Bx & ->). rewrite <- (timing_sent _ _ Hci He).
  unfold scan_window_bytes. rewrite <- !app_assoc. cbn [app]. split.
  - intros (i & w & f & peer & addr & own & timing & V1 & V2 & V3 & _ & _ & La & _ & _ & T & E).
    apply le2_app in E; [|apply small_u16; lia..]. destruct E as [_ E].
    apply le2_app in E; [|apply small_u16; lia..]. destruct E as [_ E]. cbn [app] in E.
    apply cons_inv in E. destruct E as [_ E]. apply cons_inv in E. destruct E as [_ E].
    apply app_inv_len in E; [|congruence]. destruct E as [_ E].
    apply cons_inv in E. destruct E as [_ ->]. exact T.
  - intros T. exists (slots (sw_interval (cp_scan_window p))), (slots (sw_window (cp_scan_window p))),
      (initiator_filter_code (cp_initiator_filter_policy p)), k, x, (own_address_code (cp_own_address_type p)), 
      (conn_interval_bytes (cp_conn_interval p) ++ expected_length_bytes (cp_expected_connection_length p)).
    split; [exact W1|]. split; [exact W2|]. split; [exact W3|].
    split; [destruct (cp_initiator_filter_policy p); cbn; lia|]. split; [exact Hk|]. split; [exact Hx|].
    split; [exact Bx|]. split; [now apply own_code|]. split; [exact T|]. cbn [app]. reflexivity.
Qed.

Lemma update_sent h ci e : u16 h -> ci_reachable ci -> ecl_reachable e ->
  (connection_update_format (le 2 h ++ conn_interval_bytes ci ++ expected_length_bytes e)
   <-> ~ (0x0EFF < h \/ badly_rounded ci)).
Proof.
  intros Hh Hci He. pose proof (timing_sent ci e Hci He) as T. split.
  - intros (h' & timing & H1 & H2 & E). apply le2_app in E; [|exact Hh|now apply handle_u16].
    destruct E as [-> <-]. apply T in H2. intros [K|K]; [lia|contradiction].
  - intros H. exists h, (conn_interval_bytes ci ++ expected_length_bytes e).
    split; [lia|]. split; [|reflexivity]. apply T. tauto.
Qed.

Lemma white_list_sent a : address_typed a -> white_list_format F (address_bytes a).
Proof.
  intros H. destruct (address_split a H) as (k & x & Hk & Hx & Bx & ->).
  exists k, x. split; [now left|]. now split.
Qed.
Lemma anonymous_sent : version_5_0 F = true -> white_list_format F (0xFF :: repeat 0 6).
Proof. intros H. exists 0xFF, (repeat 0 6). split; [now right|]. split; [reflexivity|]. split; [apply bytes_zeros|reflexivity]. Qed.

Lemma classification_sent v : obtainable F channel_table v ->
  existsb (array_bit v) (map N.of_nat (seq 0 37)) = true -> channel_classification_format v.
Proof.
  intros H Hx. assert (HT : In channel_table flag_tables) by (left; reflexivity).
  destruct (obtainable_bits F channel_table HT v H) as (Hl & Hb & Hd).
  split; [exact Hl|]. split; [exact Hb|]. split; [exact Hd|].
  apply existsb_exists in Hx. destruct Hx as (i & _ & Hi). eauto.
Qed.

Ltac fmt n := rewrite (format_at F n _ _ _ eq_refl).
Ltac always := split; [intros _ []|intros _].

Lemma sent_conforming {V E} (c : command V) : arguments_typed F c -> command_exists F c = true ->
  @rejection V E c = None ->
  (command_conforming F (command_opcode c) (command_params c) <-> ~ nonconforming_arguments F c).
Proof.
  intros HA HE HR.
  destruct c; cbn [arguments_typed command_exists rejection command_params nonconforming_arguments] in *.
  - fmt 0%nat. destruct (disconnect_reason reason) as [b|] eqn:R; [|discriminate HR]. split.
    + intros (h' & r & H1 & _ & Eq). apply le2_app in Eq; [|exact HA|now apply handle_u16]. lia.
    + intros H. exists h, b. split; [lia|]. split; [|reflexivity].
      destruct reason; cbn in R; try discriminate R; injection R as <-; cbn; tauto.
  - fmt 1%nat. now apply handle_alone.
  - fmt 2%nat. always. rewrite <- (app_nil_r (le 8 mask)).
    apply octets_first; [apply le_length|apply le_is_bytes|apply nothing].
  - fmt 3%nat. always. apply nothing.
  - fmt 4%nat. rewrite handle_first by exact HA. rewrite N.nlt_ge. split; [tauto|]. intros K. split; [exact K|].
    apply octet_first; [apply N.le_0_l|destruct t; cbn; lia|apply nothing].
  - fmt 5%nat. always. apply nothing.
  - fmt 6%nat. always. apply nothing.
  - fmt 7%nat. always. apply nothing.
  - fmt 8%nat. always. apply nothing.
  - fmt 9%nat. now apply handle_alone.
  - fmt 10%nat. always. rewrite <- (app_nil_r (le 8 mask)).
    apply octets_first; [apply le_length|apply le_is_bytes|apply nothing].
  - fmt 11%nat. always. apply nothing.
  - fmt 12%nat. always. apply nothing.
  - fmt 13%nat. always. destruct HA as [H1 H2]. split; [exact H1|]. split; [exact H2|].
    destruct (valid_random_address a); [reflexivity|discriminate HR].
  - fmt 14%nat. destruct HA as (H1 & H2 & H3 & H4).
    destruct (N.eqb_spec (ap_channel_map p) 0) as [K|K]; [discriminate HR|].
    apply advertising_sent; try assumption. lia.
  - fmt 15%nat. always. apply nothing.
  - fmt 16%nat. always. destruct (Nat.leb_spec (length data) 31) as [K|K]; [|discriminate HR]. now exists data.
  - fmt 17%nat. always. destruct (Nat.leb_spec (length data) 31) as [K|K]; [|discriminate HR]. now exists data.
  - fmt 18%nat. always. apply octet_first; [apply N.le_0_l|destruct enable; cbn; lia|apply nothing].
  - fmt 18%nat. always. apply octet_first; [apply N.le_0_l|destruct enable; cbn; lia|apply nothing].
  - fmt 19%nat. always. now apply scan_sent.
  - fmt 20%nat. always. apply octet_first; [apply N.le_0_l|destruct enable; cbn; lia|].
    apply octet_first; [apply N.le_0_l|destruct filter_duplicates; cbn; lia|apply nothing].
  - fmt 21%nat. destruct HA as (H1 & H2 & H3 & H4 & H5 & H6). now apply create_sent.
  - fmt 22%nat. always. apply nothing.
  - fmt 23%nat. always. apply nothing.
  - fmt 24%nat. always. apply nothing.
  - fmt 25%nat. always. now apply white_list_sent.
  - fmt 25%nat. always. now apply anonymous_sent.
  - fmt 26%nat. always. now apply white_list_sent.
  - fmt 26%nat. always. now apply anonymous_sent.
  - fmt 27%nat. destruct HA as (H1 & H2 & H3). now apply update_sent.
  - fmt 28%nat. always. apply classification_sent; [exact HA|].
    destruct (existsb _ _); [reflexivity|discriminate HR].
  - fmt 29%nat. now apply handle_alone.
  - fmt 30%nat. now apply handle_alone.
  - fmt 31%nat. always. destruct HA as [[K1 K2] [K3 K4]]. apply octets_first; [exact K1|exact K2|].
    rewrite <- (app_nil_r (aes_plaintext_data p)). apply octets_first; [exact K3|exact K4|apply nothing].
  - fmt 32%nat. always. apply nothing.
  - fmt 33%nat. destruct HA as (H1 & H2 & H3 & K1 & K2). rewrite handle_first by exact H1. rewrite N.nlt_ge.
    split; [tauto|]. intros K. split; [exact K|].
    apply octets_first; [apply le_length|apply le_is_bytes|].
    apply octets_first; [apply le_length|apply le_is_bytes|].
    rewrite <- (app_nil_r (enc_long_term_key p)). apply octets_first; [exact K1|exact K2|apply nothing].
  - fmt 34%nat. destruct HA as (H1 & K1 & K2). rewrite handle_first by exact H1. rewrite N.nlt_ge.
    split; [tauto|]. intros K. split; [exact K|].
    rewrite <- (app_nil_r key). apply octets_first; [exact K1|exact K2|apply nothing].
  - fmt 35%nat. now apply handle_alone.
  - fmt 36%nat. always. apply nothing.
  - fmt 37%nat. always. destruct (N.leb_spec channel 0x27) as [K|K]; [|discriminate HR].
    apply octet_first; [apply N.le_0_l|exact K|apply nothing].
  - fmt 38%nat. always. destruct (N.leb_spec channel 0x27) as [K|K]; [|discriminate HR].
    destruct (N.leb_spec payload_length 0x25) as [L|L]; [|discriminate HR].
    apply octet_first; [apply N.le_0_l|exact K|].
    apply octet_first; [apply N.le_0_l|destruct (privacy F); lia|].
    apply octet_first; [apply N.le_0_l|destruct payload; cbn; lia|apply nothing].
  - fmt 39%nat. always. apply nothing.
Qed.
End Sent.

(** ** On the wire *)
Lemma wire_conforming F V (c : command V) header params : arguments_typed F c -> command_exists F c = true ->
  In (header, params) (sent F V uart_header c) ->
  header = [0x01] ++ le 2 (command_opcode c) ++ [N.of_nat (length params)]
  /\ (command_conforming F (command_opcode c) params <-> ~ nonconforming_arguments F c).
Proof.
  intros HA HE Hin. rewrite (sent_spec F V uart_header uart_header_bytes c (or_introl eq_refl) HA) in Hin.
  destruct (@rejection V unit c) eqn:R; [destruct Hin|]. destruct Hin as [E|[]].
  injection E as <- <-. split; [reflexivity|]. now apply (@sent_conforming F V unit).
Qed.

Definition tight_interval : conn_interval :=
  {| ci_interval := (ms 50, ms 50); ci_latency := 0; ci_timeout := us 100500 |}.
Lemma tight_reachable : ci_reachable tight_interval.
Proof.
  left. exists [WithRange (ms 50) (ms 50); WithLatency 0; WithTimeout (us 100500)]. vm_compute. reflexivity.
Qed.
Definition no_length : expected_conn_length := {| ecl_range := (0, 0) |}.
Lemma no_length_reachable : ecl_reachable no_length.
Proof. exists 0, 0. split; [reflexivity|]. split; reflexivity. Qed.

(** Each kind of argument that is not sent as it should be. *)
Lemma sent_refuted V : exists c c' c'' : command V,
  (forall x, In x [c; c'; c''] -> arguments_typed F41 x /\ command_exists F41 x = true
     /\ exists header params, sent F41 V uart_header x = [(header, params)]
        /\ ~ command_conforming F41 (command_opcode x) params)
  /\ c = CReadRssi 0x0F00
  /\ c' = CLeConnectionUpdate (Build_connection_update_parameters 1 tight_interval no_length)
  /\ exists p, c'' = CLeSetAdvertisingParameters p.
Proof.
  set (c := CReadRssi (V := V) 0x0F00).
  set (c' := CLeConnectionUpdate (V := V) (Build_connection_update_parameters 1 tight_interval no_length)).
  set (a := {| ai_interval := (ms 20, ms 50); ai_type := NonConnectableUndirected |}).
  set (c'' := CLeSetAdvertisingParameters (V := V)
    (Build_advertising_parameters a OwnPublic (BdPublic (repeat 0 6)) 7 AllowConnectionAndScan)).
  exists c, c', c''. split; [|split; [reflexivity|split; [reflexivity|now exists (Build_advertising_parameters a OwnPublic (BdPublic (repeat 0 6)) 7 AllowConnectionAndScan)]]].
  assert (K : forall x, arguments_typed F41 x -> command_exists F41 x = true -> @rejection V unit x = None ->
     nonconforming_arguments F41 x -> arguments_typed F41 x /\ command_exists F41 x = true
     /\ exists header params, sent F41 V uart_header x = [(header, params)]
        /\ ~ command_conforming F41 (command_opcode x) params).
  { intros x HA HE HR HN. split; [exact HA|]. split; [exact HE|]. eexists _, _.
    split; [rewrite (sent_spec F41 V uart_header uart_header_bytes x (or_introl eq_refl) HA), HR; reflexivity|].
    rewrite (@sent_conforming F41 V unit x HA HE HR). tauto. }
  intros x [<-|[<-|[<-|[]]]]; apply K; try reflexivity.
  - split; [reflexivity|]. split; [exact tight_reachable|exact no_length_reachable].
  - right. right. vm_compute. discriminate.
  - split; [|split; [reflexivity|split; [|vm_compute; discriminate]]].
    + left. exists NonConnectableUndirected, (ms 20), (ms 50). split; [reflexivity|]. split; reflexivity.
    + split; [reflexivity|apply bytes_zeros].
  - split; [reflexivity|]. split; reflexivity.
Qed.

(** ** A connection made as the host asked *)
Lemma u16_le_at a v b i : length a = i -> u16 v -> u16_le (a ++ le 2 v ++ b) i = v.
Proof.
  intros <- Hv. unfold u16_le, at_. rewrite le_2. cbn [app].
  rewrite (app_nth2 a _ 0 (n := length a)) by lia.
  rewrite (app_nth2 a _ 0 (n := length a + 1)) by lia.
  rewrite Nat.sub_diag. replace (length a + 1 - length a)%nat with 1%nat by lia. cbn [nth]. now apply read_le_2.
Qed.

Lemma asked_at head ci tail i : ci_reachable ci -> length head = i ->
  asked (head ++ conn_interval_bytes ci ++ tail) i =
  {| asked_min := sent_interval (fst (ci_interval ci)); asked_max := sent_interval (snd (ci_interval ci));
     asked_latency := ci_latency ci; asked_timeout := ci_timeout ci / timeout_unit |}.
Proof.
  intros Hci Hi. pose proof (sent_ranges ci Hci) as K. cbv zeta in K.
  destruct K as (K1 & K2 & K3 & K4 & K5 & K6 & K7).
  unfold asked, conn_interval_bytes. rewrite <- !app_assoc. f_equal.
  - apply u16_le_at; [exact Hi|apply small_u16; lia].
  - rewrite (app_assoc head). apply u16_le_at; [rewrite app_length, le_length; lia|apply small_u16; lia].
  - rewrite (app_assoc head), (app_assoc (head ++ _)).
    apply u16_le_at; [rewrite !app_length, !le_length; lia|apply small_u16; lia].
  - rewrite (app_assoc head), (app_assoc (head ++ _)), (app_assoc ((head ++ _) ++ _)).
    apply u16_le_at; [rewrite !app_length, !le_length; lia|apply small_u16; lia].
Qed.

Lemma create_params {V} (p : connection_parameters) : peer_typed (cp_peer_address p) ->
  exists head, length head = 13%nat /\ command_params (V := V) (CLeCreateConnection p)
    = head ++ conn_interval_bytes (cp_conn_interval p) ++ expected_length_bytes (cp_expected_connection_length p).
Proof.
  intros Hp. cbn [command_params].
  exists (scan_window_bytes (cp_scan_window p) ++ [initiator_filter_code (cp_initiator_filter_policy p)]
      ++ match cp_initiator_filter_policy p with
         | UseAddress => peer_address_bytes (cp_peer_address p)
         | UseWhiteList => repeat 0 7
         end ++ [own_address_code (cp_own_address_type p)]).
  split; [|now rewrite <- !app_assoc].
  rewrite !app_length. cbn [length].
  assert (L : length match cp_initiator_filter_policy p with
         | UseAddress => peer_address_bytes (cp_peer_address p)
         | UseWhiteList => repeat 0 7
         end = 7%nat).
  { destruct (cp_initiator_filter_policy p); [|reflexivity].
    destruct (cp_peer_address p); destruct Hp as [Hp _]; cbn [peer_address_bytes length]; now rewrite Hp. }
  rewrite L. reflexivity.
Qed.

Lemma choice_legal ci t interval : ci_reachable ci ->
  t = {| asked_min := sent_interval (fst (ci_interval ci)); asked_max := sent_interval (snd (ci_interval ci));
         asked_latency := ci_latency ci; asked_timeout := ci_timeout ci / timeout_unit |} ->
  asked_min t <= interval -> interval <= asked_max t ->
  (reported_choice t interval <-> legal_parameters interval interval (asked_latency t) (asked_timeout t))
  /\ u16 interval /\ u16 (asked_latency t) /\ u16 (asked_timeout t)
  /\ (ample ci -> reported_choice t interval).
Proof.
  intros Hci -> Hmin Hmax. pose proof (sent_ranges ci Hci) as K. cbv zeta in K.
  destruct K as (K1 & K2 & K3 & K4 & K5 & K6 & K7).
  cbn [asked_min asked_max asked_latency asked_timeout] in *. unfold reported_choice, legal_parameters, timeout_suffices.
  cbn [asked_min asked_max asked_latency asked_timeout].
  split; [split; intros H; repeat match goal with |- _ /\ _ => split end; lia|].
  split; [apply small_u16; lia|]. split; [apply small_u16; lia|]. split; [apply small_u16; lia|].
  intros (A1 & A2 & A3).
  assert (L : sent_interval (snd (ci_interval ci)) * interval_unit <= snd (ci_interval ci)).
  { unfold sent_interval, interval_unit, ms. clear. set (d := snd (ci_interval ci)). clearbody d. lia. }
  split; [lia|]. assert (T : ci_timeout ci < (ci_timeout ci / timeout_unit) * timeout_unit + timeout_unit)
    by (unfold timeout_unit; clear; lia).
  split; [unfold timeout_unit, ms in *; lia|].
  set (t := ci_timeout ci / timeout_unit) in *. clearbody t.
  set (l := ci_latency ci) in *. set (m := snd (ci_interval ci)) in *.
  assert (M : (1 + l) * (interval * interval_unit) <= (1 + l) * m).
  { apply N.mul_le_mono_l. unfold interval_unit in *. lia. }
  unfold interval_unit, timeout_unit, ms in *. lia.
Qed.

Section Connected.
Context (F : features) (V : vendor).

Lemma connected_is t interval h role peer accuracy : u16 interval -> u16 (asked_latency t) ->
  u16 (asked_timeout t) -> u16 h -> address_typed peer ->
  let pkt := connected t interval h role peer accuracy in
  (legal_parameters interval interval (asked_latency t) (asked_timeout t) ->
   event_new F V pkt = Ok (EvLeConnectionComplete (Build_le_connection_complete Success h role peer
     {| fci_interval := interval * interval_unit; fci_latency := asked_latency t;
        fci_timeout := asked_timeout t * timeout_unit |} accuracy)))
  /\ (~ legal_parameters interval interval (asked_latency t) (asked_timeout t) ->
      exists e, event_new F V pkt = Err e).
Proof.
  intros H1 H2 H3 Hh Hp pkt. destruct (address_split peer Hp) as (k & x & Hk & Hx & Bx & E).
  set (body := le 2 h ++ [role_code role] ++ address_bytes peer ++ le 2 interval
    ++ le 2 (asked_latency t) ++ le 2 (asked_timeout t) ++ [clock_accuracy_code accuracy]).
  assert (Lb : length body = 17%nat).
  { unfold body. rewrite E, !app_length, !le_length. cbn [length]. rewrite Hx. reflexivity. }
  assert (Bb : bytes body).
  { unfold body. rewrite E. apply bytes_app. split; [apply le_is_bytes|].
    apply bytes_cons. split; [destruct role; reflexivity|].
    apply bytes_cons. split; [unfold byte; lia|]. apply bytes_app. split; [exact Bx|].
    do 3 (apply bytes_app; split; [apply le_is_bytes|]).
    apply bytes_cons. split; [destruct accuracy; reflexivity|apply bytes_nil]. }
  split; intros L.
  - apply le_connection_complete_packet.
    + apply framed_is_bytes; [reflexivity| |].
      * change (bytes ([0x01; 0x00] ++ body)). apply bytes_app. split; [repeat constructor|exact Bb].
      * change (length ([0x01; 0x00]%N ++ body) <= 255)%nat. rewrite app_length, Lb. cbn. lia.
    + exists 0, (le 2 interval ++ le 2 (asked_latency t) ++ le 2 (asked_timeout t)).
      split; [reflexivity|]. split; [exact Hh|].
      split; [destruct peer; exact (proj1 Hp)|]. split; [now exists interval, (asked_timeout t)|].
      unfold pkt, connected, framed. fold body. rewrite app_length, Lb. cbn [length Nat.add app].
      unfold body. rewrite <- !app_assoc. reflexivity.
  - destruct (connection_lost F V body Bb Lb) as (e & K).
    + intros (_ & _ & K & _). apply L. unfold body in K. rewrite E in K.
      replace (u16_le _ 10) with interval in K; [replace (u16_le _ 12) with (asked_latency t) in K;
        [replace (u16_le _ 14) with (asked_timeout t) in K; [exact K|]|]|].
      all: symmetry; cbn [app].
      * replace (le 2 h ++ role_code role :: k :: x ++ le 2 interval ++ le 2 (asked_latency t) ++ le 2 (asked_timeout t) ++ [clock_accuracy_code accuracy])
          with ((le 2 h ++ role_code role :: k :: x ++ le 2 interval ++ le 2 (asked_latency t)) ++ le 2 (asked_timeout t) ++ [clock_accuracy_code accuracy])
          by (do 3 (rewrite <- ?app_assoc; cbn [app]); reflexivity).
        apply u16_le_at; [|exact H3]. rewrite app_length. cbn [length]. rewrite !app_length, !le_length, Hx. reflexivity.
      * replace (le 2 h ++ role_code role :: k :: x ++ le 2 interval ++ le 2 (asked_latency t) ++ le 2 (asked_timeout t) ++ [clock_accuracy_code accuracy])
          with ((le 2 h ++ role_code role :: k :: x ++ le 2 interval) ++ le 2 (asked_latency t) ++ le 2 (asked_timeout t) ++ [clock_accuracy_code accuracy])
          by (do 3 (rewrite <- ?app_assoc; cbn [app]); reflexivity).
        apply u16_le_at; [|exact H2]. rewrite app_length. cbn [length]. rewrite !app_length, !le_length, Hx. reflexivity.
      * replace (le 2 h ++ role_code role :: k :: x ++ le 2 interval ++ le 2 (asked_latency t) ++ le 2 (asked_timeout t) ++ [clock_accuracy_code accuracy])
          with ((le 2 h ++ role_code role :: k :: x) ++ le 2 interval ++ le 2 (asked_latency t) ++ le 2 (asked_timeout t) ++ [clock_accuracy_code accuracy])
          by (do 3 (rewrite <- ?app_assoc; cbn [app]); reflexivity).
        apply u16_le_at; [|exact H1]. rewrite app_length. cbn [length]. rewrite !le_length, Hx. reflexivity.
    + exists e. exact (K 0 Success eq_refl).
Qed.

Lemma updated_is t interval h : u16 interval -> u16 (asked_latency t) -> u16 (asked_timeout t) -> u16 h ->
  let pkt := updated t interval h in
  (legal_parameters interval interval (asked_latency t) (asked_timeout t) ->
   event_new F V pkt = Ok (EvLeConnectionUpdateComplete (Build_le_connection_update_complete Success h
     {| fci_interval := interval * interval_unit; fci_latency := asked_latency t;
        fci_timeout := asked_timeout t * timeout_unit |})))
  /\ (~ legal_parameters interval interval (asked_latency t) (asked_timeout t) ->
      exists e, event_new F V pkt = Err e).
Proof.
  intros H1 H2 H3 Hh pkt.
  set (body := update_body h interval (asked_latency t) (asked_timeout t)).
  assert (Lb : length body = 8%nat) by (unfold body, update_body; now rewrite !app_length, !le_length).
  assert (Bb : bytes body).
  { unfold body, update_body. do 3 (apply bytes_app; split; [apply le_is_bytes|]). apply le_is_bytes. }
  split; intros L.
  - apply le_connection_update_packet.
    + apply framed_is_bytes; [reflexivity| |].
      * change (bytes ([0x03; 0x00] ++ body)). apply bytes_app. split; [repeat constructor|exact Bb].
      * change (length ([0x03; 0x00]%N ++ body) <= 255)%nat. rewrite app_length, Lb. cbn. lia.
    + exists 0, (le 2 interval ++ le 2 (asked_latency t) ++ le 2 (asked_timeout t)).
      split; [reflexivity|]. split; [exact Hh|]. split; [now exists interval, (asked_timeout t)|].
      unfold pkt, updated, framed. fold body. rewrite app_length, Lb. reflexivity.
  - destruct (update_lost F V body Bb Lb) as (e & K).
    + intros K. apply L. unfold update_fields_ok in K. unfold body, update_body in K.
      rewrite (u16_le_at (le 2 h) interval) in K by (try apply le_length; exact H1).
      rewrite (app_assoc (le 2 h)) in K.
      rewrite (u16_le_at (le 2 h ++ le 2 interval) (asked_latency t)) in K by (try exact H2; now rewrite app_length, !le_length).
      rewrite (app_assoc (le 2 h ++ _)), <- (app_nil_r (le 2 (asked_timeout t))) in K.
      rewrite (u16_le_at ((le 2 h ++ le 2 interval) ++ le 2 (asked_latency t)) (asked_timeout t)) in K
        by (try exact H3; now rewrite !app_length, !le_length).
      exact K.
    + exists e. exact (K 0 Success eq_refl).
Qed.

Lemma asked_create p header params : arguments_typed F (CLeCreateConnection (V := V) p) ->
  In (header, params) (sent F V uart_header (CLeCreateConnection p)) ->
  asked params 13 =
  {| asked_min := sent_interval (fst (ci_interval (cp_conn_interval p)));
     asked_max := sent_interval (snd (ci_interval (cp_conn_interval p)));
     asked_latency := ci_latency (cp_conn_interval p);
     asked_timeout := ci_timeout (cp_conn_interval p) / timeout_unit |}.
Proof.
  intros HA Hin. rewrite (sent_spec F V uart_header uart_header_bytes _ (or_introl eq_refl) HA) in Hin.
  destruct Hin as [Ep|[]]. assert (P : command_params (CLeCreateConnection (V := V) p) = params) by congruence.
  rewrite <- P. destruct HA as (_ & Hp & _ & _ & Hci & _).
  destruct (@create_params V p Hp) as (head & L & E). rewrite E. now apply asked_at.
Qed.
Lemma asked_update p header params : arguments_typed F (CLeConnectionUpdate (V := V) p) ->
  In (header, params) (sent F V uart_header (CLeConnectionUpdate p)) ->
  asked params 2 =
  {| asked_min := sent_interval (fst (ci_interval (cu_conn_interval p)));
     asked_max := sent_interval (snd (ci_interval (cu_conn_interval p)));
     asked_latency := ci_latency (cu_conn_interval p);
     asked_timeout := ci_timeout (cu_conn_interval p) / timeout_unit |}.
Proof.
  intros HA Hin. rewrite (sent_spec F V uart_header uart_header_bytes _ (or_introl eq_refl) HA) in Hin.
  destruct Hin as [Ep|[]]. assert (P : command_params (CLeConnectionUpdate (V := V) p) = params) by congruence.
  rewrite <- P. destruct HA as (_ & Hci & _).
  apply asked_at; [exact Hci|apply le_length].
Qed.

Lemma created_reported p header params interval h role peer accuracy :
  arguments_typed F (CLeCreateConnection (V := V) p) ->
  In (header, params) (sent F V uart_header (CLeCreateConnection p)) ->
  let t := asked params 13 in
  asked_min t <= interval -> interval <= asked_max t -> u16 h -> address_typed peer ->
  let pkt := connected t interval h role peer accuracy in
  (reported_choice t interval ->
   event_new F V pkt = Ok (EvLeConnectionComplete (Build_le_connection_complete Success h role peer
     {| fci_interval := interval * interval_unit; fci_latency := asked_latency t;
        fci_timeout := asked_timeout t * timeout_unit |} accuracy)))
  /\ (~ reported_choice t interval -> exists e, event_new F V pkt = Err e)
  /\ (ample (cp_conn_interval p) -> reported_choice t interval).
Proof.
  intros HA Hin t Hmin Hmax Hh Hp pkt.
  destruct (choice_legal (cp_conn_interval p) t interval) as (R & U1 & U2 & U3 & Am);
    [exact (proj1 (proj2 (proj2 (proj2 (proj2 HA)))))|exact (asked_create p header params HA Hin)|assumption..|].
  destruct (connected_is t interval h role peer accuracy U1 U2 U3 Hh Hp) as [K1 K2].
  split; [now rewrite R|]. split; [now rewrite R|exact Am].
Qed.
Lemma updated_reported p header params interval h :
  arguments_typed F (CLeConnectionUpdate (V := V) p) ->
  In (header, params) (sent F V uart_header (CLeConnectionUpdate p)) ->
  let t := asked params 2 in
  asked_min t <= interval -> interval <= asked_max t -> u16 h ->
  let pkt := updated t interval h in
  (reported_choice t interval ->
   event_new F V pkt = Ok (EvLeConnectionUpdateComplete (Build_le_connection_update_complete Success h
     {| fci_interval := interval * interval_unit; fci_latency := asked_latency t;
        fci_timeout := asked_timeout t * timeout_unit |})))
  /\ (~ reported_choice t interval -> exists e, event_new F V pkt = Err e)
  /\ (ample (cu_conn_interval p) -> reported_choice t interval).
Proof.
  intros HA Hin t Hmin Hmax Hh pkt.
  destruct (choice_legal (cu_conn_interval p) t interval) as (R & U1 & U2 & U3 & Am);
    [exact (proj1 (proj2 HA))|exact (asked_update p header params HA Hin)|assumption..|].
  destruct (updated_is t interval h U1 U2 U3 Hh) as [K1 K2].
  split; [now rewrite R|]. split; [now rewrite R|exact Am].
Qed.
End Connected.

(** Asked for: 50 ms and a timeout of 100.5 ms, sent as 100 ms. *)
Lemma created_refuted F V : exists p header params,
  arguments_typed F (CLeConnectionUpdate (V := V) p)
  /\ sent F V uart_header (CLeConnectionUpdate p) = [(header, params)]
  /\ let t := asked params 2 in asked_min t <= asked_max t
  /\ exists e, event_new F V (updated t (asked_min t) 1) = Err e.
Proof.
  set (p := Build_connection_update_parameters 1 tight_interval no_length).
  assert (HA : arguments_typed F (CLeConnectionUpdate (V := V) p)).
  { split; [reflexivity|]. split; [exact tight_reachable|exact no_length_reachable]. }
  pose proof (sent_spec F V uart_header uart_header_bytes _ (or_introl eq_refl) HA) as E.
  cbn [rejection] in E. exists p. eexists _, _. split; [exact HA|]. split; [exact E|]. cbv zeta.
  assert (Hin : In _ (sent F V uart_header (CLeConnectionUpdate p))) by (rewrite E; now left).
  pose proof (updated_reported F V p _ _ 40 1 HA Hin) as K. cbv zeta in K.
  split; [vm_compute; discriminate|].
  assert (A1 : asked_min (asked (command_params (CLeConnectionUpdate (V := V) p)) 2) = 40) by (vm_compute; reflexivity).
  rewrite A1. apply K; [vm_compute; discriminate|vm_compute; discriminate|reflexivity|].
  intros (_ & T & _). vm_compute in T. discriminate T.
Qed.

(** Examples for the properties. *)
Definition wide_interval : conn_interval :=
  {| ci_interval := (ms 50, ms 500); ci_latency := 1; ci_timeout := ms 2500 |}.
Lemma wide_reachable : ci_reachable wide_interval.
Proof.
  left. exists [WithRange (ms 50) (ms 500); WithLatency 1; WithTimeout (ms 2500)]. vm_compute. reflexivity.
Qed.
Definition update_to (ci : conn_interval) : connection_update_parameters :=
  Build_connection_update_parameters 1 ci no_length.
Lemma wide_sent F V : arguments_typed F (CLeConnectionUpdate (V := V) (update_to wide_interval))
  /\ sent F V uart_header (CLeConnectionUpdate (update_to wide_interval))
     = [([0x01; 0x13; 0x20; 14], [1; 0; 40; 0; 0x90; 1; 1; 0; 250; 0; 0; 0; 0; 0])]
  /\ ~ nonconforming_arguments F (CLeConnectionUpdate (V := V) (update_to wide_interval))
  /\ ample wide_interval.
Proof.
  assert (HA : arguments_typed F (CLeConnectionUpdate (V := V) (update_to wide_interval))).
  { split; [reflexivity|]. split; [exact wide_reachable|exact no_length_reachable]. }
  split; [exact HA|]. split.
  { rewrite (sent_spec F V uart_header uart_header_bytes _ (or_introl eq_refl) HA). vm_compute. reflexivity. }
  split.
  - intros [K|[K|K]]; [vm_compute in K; discriminate K..|]. apply K. vm_compute. reflexivity.
  - split; [|split]; vm_compute; discriminate.
Qed.
