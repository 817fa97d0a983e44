(** * Values passed on from events to commands. *)
From Verif Require Import Base Model_Types Model_Bitflags Model_Intervals Model_EventBase Model_Command
  Model_Event Model_Host Spec_Wire Spec_Interval Spec_Flags Spec_Errors Spec_Report Spec_Host Spec_Made Spec_Example Spec_Pass
  Proofs_Base Proofs_Bits Proofs_Interval Proofs_Event Proofs_Complete Proofs_Report Proofs_Flags Proofs_Calls.
Open Scope list_scope.
Open Scope N_scope.

Lemma slice_mid (a b c : list N) : slice (length a) (length b) (a ++ b ++ c) = b.
Proof.
  unfold slice. rewrite skipn_app, skipn_all, Nat.sub_diag. cbn [skipn app].
  rewrite firstn_app, Nat.sub_diag, firstn_all. cbn [firstn]. apply app_nil_r.
Qed.
Lemma slice_end (a b : list N) : slice (length a) (length b) (a ++ b) = b.
Proof. rewrite <- (app_nil_r b) at 2. apply slice_mid. Qed.

(** ** Handles *)
Lemma event_handle_bytes F V pkt ev h : bytes pkt -> event_new F V pkt = Ok ev ->
  event_handle ev = Some h -> u16 h /\ slice (handle_place pkt) 2 pkt = le 2 h.
Proof.
  intros Hb H HE. destruct ev as [e|e|e|e|[n r]|e|e|e|e|e|e|e|e|e|e|e|e|e]; cbn [event_handle] in HE;
    try discriminate HE.
  - destruct e. injection HE as <-. apply connection_complete_packet in H; [|exact Hb].
    destruct H as (sb & _ & U & _ & ->). split; [exact U|]. exact (slice_mid [_; _; _] (le 2 _) _).
  - destruct e. injection HE as <-. apply disconnection_complete_packet in H; [|exact Hb].
    destruct H as (sb & rb & _ & U & _ & ->). split; [exact U|]. exact (slice_mid [_; _; _] (le 2 _) _).
  - destruct e. injection HE as <-. apply encryption_change_packet in H; [|exact Hb].
    destruct H as (sb & _ & U & ->). split; [exact U|]. exact (slice_mid [_; _; _] (le 2 _) _).
  - destruct e. injection HE as <-. apply remote_version_packet in H; [|exact Hb].
    destruct H as (sb & _ & U & _ & _ & ->). split; [exact U|]. exact (slice_mid [_; _; _] (le 2 _) _).
  - cbn [cc_return_params] in HE.
    apply command_complete_layout in H; [|exact Hb|intros v ->; discriminate HE].
    destruct H as (op & ret & U & -> & W).
    assert (K : forall sb body, ret = sb :: le 2 h ++ body ->
      slice 6 2 ([0x0E; N.of_nat (3 + length ret); n] ++ le 2 op ++ ret) = le 2 h).
    { intros sb body ->. rewrite (app_assoc [_; _; _]).
      change (sb :: le 2 h ++ body) with ([sb] ++ le 2 h ++ body). rewrite (app_assoc (_ ++ _)).
      exact (slice_mid (([_; _; _] ++ le 2 op) ++ [sb]) (le 2 h) body). }
    destruct r; cbn [return_handle] in HE; try discriminate HE; cbn [wire_return] in W; injection HE as HE;
      rewrite HE in W; destruct W as (_ & Uh & W).
    1-3: destruct W as (_ & W).
    1-5: try destruct W as (_ & W); destruct W as (sb & _ & W); (split; [exact Uh|]).
    1-3: exact (K _ _ W).
    all: rewrite <- (app_nil_r (le 2 h)) in W; exact (K _ _ W).
  - destruct e. injection HE as <-. apply encryption_key_refresh_packet in H; [|exact Hb].
    destruct H as (sb & _ & U & ->). split; [exact U|]. exact (slice_end [_; _; _] (le 2 _)).
  - destruct e. injection HE as <-. apply le_connection_complete_packet in H; [|exact Hb].
    destruct H as (sb & iv & _ & U & _ & _ & ->). split; [exact U|]. exact (slice_mid [_; _; _; _] (le 2 _) _).
  - destruct e. injection HE as <-. apply le_connection_update_packet in H; [|exact Hb].
    destruct H as (sb & iv & _ & U & _ & ->). split; [exact U|]. exact (slice_mid [_; _; _; _] (le 2 _) _).
  - destruct e. injection HE as <-. apply le_used_features_packet in H; [|exact Hb].
    destruct H as (sb & _ & U & _ & _ & ->). split; [exact U|]. exact (slice_mid [_; _; _; _] (le 2 _) _).
  - destruct e. injection HE as <-. apply le_ltk_request_packet in H; [|exact Hb].
    destruct H as (U & _ & _ & ->). split; [exact U|]. exact (slice_mid [_; _; _] (le 2 _) _).
  - destruct e. injection HE as <-. apply le_data_length_change_packet in H; [|exact Hb].
    destruct H as (U & _ & _ & _ & _ & ->). split; [exact U|]. exact (slice_mid [_; _; _] (le 2 _) _).
  - destruct e. injection HE as <-. apply le_phy_update_packet in H; [|exact Hb].
    destruct H as (sb & _ & U & ->). split; [exact U|]. exact (slice_mid [_; _; _; _] (le 2 _) _).
Qed.

Lemma command_handle_bytes V (c : command V) h : command_handle c = Some h ->
  slice 0 2 (command_params c) = le 2 h.
Proof.
  intros HE. destruct c; cbn [command_handle] in HE; try discriminate HE; injection HE as <-;
    cbn [command_params]; first [exact (slice_mid [] (le 2 _) _) | exact (slice_end [] (le 2 _))].
Qed.
Lemma command_handle_u16 F V (c : command V) h : arguments_typed F c -> command_handle c = Some h -> u16 h.
Proof.
  intros HA HE. destruct c; cbn [command_handle] in HE; try discriminate HE; injection HE as <-;
    cbn [arguments_typed] in HA; tauto.
Qed.

Lemma sent_params F V H enc (c : command V) header payload : In (H, enc) header_formats ->
  arguments_typed F c -> In (header, payload) (sent F V H c) -> payload = command_params c.
Proof.
  intros HH HA HS. rewrite (sent_spec F V H enc) in HS by assumption.
  destruct (rejection c); [destruct HS|]. destruct HS as [HS|[]]. now injection HS as _ ->.
Qed.

Lemma handle_passed F V pkt ev h H enc (c : command V) h' header payload : bytes pkt ->
  event_new F V pkt = Ok ev -> event_handle ev = Some h -> In (H, enc) header_formats ->
  arguments_typed F c -> command_handle c = Some h' -> In (header, payload) (sent F V H c) ->
  (slice 0 2 payload = slice (handle_place pkt) 2 pkt <-> h' = h).
Proof.
  intros Hb HN HE HH HA HC HS. rewrite (sent_params F V H enc c header payload HH HA HS).
  destruct (event_handle_bytes F V pkt ev h Hb HN HE) as [U ->].
  rewrite (command_handle_bytes V c h' HC). assert (U' := command_handle_u16 F V c h' HA HC).
  split; [|now intros ->]. intros E. rewrite <- (number_le_le 2 h' U'), <- (number_le_le 2 h U). now rewrite E.
Qed.

Lemma le2_same a b : u16 a -> u16 b -> (le 2 a = le 2 b <-> a = b).
Proof.
  intros Ua Ub. split; [|now intros ->]. intros E.
  rewrite <- (number_le_le 2 a Ua), <- (number_le_le 2 b Ub). now rewrite E.
Qed.

Lemma flat_map_split {A} (f : A -> list N) l i x : nth_error l i = Some x ->
  exists before after, l = before ++ x :: after /\ length before = i
    /\ flat_map f l = flat_map f before ++ f x ++ flat_map f after.
Proof.
  intros H. apply nth_error_split in H. destruct H as (before & after & -> & L).
  exists before, after. repeat split; [exact L|]. rewrite flat_map_app. reflexivity.
Qed.

Lemma pairs_length l : length (flat_map pair_bytes l) = (4 * length l)%nat.
Proof. induction l as [|p l IH]; [reflexivity|]. cbn [flat_map]. rewrite app_length, IH. cbn. lia. Qed.

Lemma slice_at (i : nat) (a b c : list N) n : i = length a -> n = length b -> slice i n (a ++ b ++ c) = b.
Proof. intros -> ->. apply slice_mid. Qed.

Lemma pair_handle_passed F V pkt ev l i p H enc (c : command V) h' header payload : bytes pkt ->
  event_new F V pkt = Ok (EvNumberOfCompletedPackets ev) -> iterates (@ncp_next Empty_set ev) O l ->
  nth_error l i = Some p -> In (H, enc) header_formats ->
  arguments_typed F c -> command_handle c = Some h' -> In (header, payload) (sent F V H c) ->
  (slice 0 2 payload = slice (3 + 4 * i) 2 pkt <-> h' = cpp_conn_handle p).
Proof.
  intros Hb HN HI Hi HH HA HC HS. rewrite (sent_params F V H enc c header payload HH HA HS).
  destruct (proj1 (completed_packets_packet F V pkt l Hb)) as [Hok ->]; [now exists ev|].
  rewrite (command_handle_bytes V c h' HC).
  assert (Hp : pair_ok p) by (eapply Forall_forall; [exact Hok|eapply nth_error_In; exact Hi]).
  destruct (flat_map_split pair_bytes l i p Hi) as (before & after & -> & L & ->).
  unfold pair_bytes at 2. rewrite <- app_assoc, app_assoc.
  rewrite slice_at; [|rewrite app_length, pairs_length; cbn [length]; lia|reflexivity].
  apply le2_same; [exact (command_handle_u16 F V c h' HA HC)|apply Hp].
Qed.

(** ** Addresses *)
Lemma advertisement_bytes_size a : address_ok (la_address a) ->
  length (advertisement_bytes a) = advertisement_size a.
Proof.
  intros Ha. unfold advertisement_bytes, advertisement_size. rewrite !app_length.
  destruct (la_address a); cbn [address_ok] in Ha; cbn [address_bytes length]; rewrite Ha; lia.
Qed.
Lemma advertisements_size l : Forall advertisement_ok l ->
  length (flat_map advertisement_bytes l) = report_size l.
Proof.
  unfold report_size. induction 1 as [|a l [Ha _] _ IH]; [reflexivity|].
  cbn [flat_map map list_sum fold_right]. rewrite app_length, advertisement_bytes_size by exact Ha.
  unfold list_sum in IH. lia.
Qed.

Lemma address_bytes_length a : address_ok a -> length (address_bytes a) = 7%nat.
Proof. destruct a; cbn; intros ->; reflexivity. Qed.
Lemma address_bytes_inj a b : address_bytes a = address_bytes b <-> a = b.
Proof. split; [|now intros ->]. destruct a, b; cbn; intros E; injection E; intros; subst; congruence. Qed.

Lemma scan_window_length s : length (scan_window_bytes s) = 4%nat.
Proof. reflexivity. Qed.
Lemma advertising_interval_length a : length (advertising_interval_bytes a) = 5%nat.
Proof. unfold advertising_interval_bytes. destruct (ai_type a); reflexivity. Qed.

Lemma command_device_bytes F V (c : command V) a k : arguments_typed F c -> command_device c = Some (a, k) ->
  slice k 7 (command_params c) = address_bytes a.
Proof.
  intros HA HE. destruct c; cbn [command_device] in HE; try discriminate HE; cbn [arguments_typed] in HA.
  - injection HE as <- <-. cbn [command_params].
    destruct HA as (_ & _ & HA & _). rewrite (app_assoc (advertising_interval_bytes _)).
    apply slice_at; [rewrite app_length, advertising_interval_length; reflexivity|].
    symmetry. apply address_bytes_length. destruct (ap_peer_address p); apply HA.
  - destruct HA as (_ & HA & _). cbn [command_params].
    destruct (cp_initiator_filter_policy p); [|discriminate HE].
    destruct (cp_peer_address p) eqn:E; try discriminate HE; injection HE as <- <-;
      rewrite (app_assoc (scan_window_bytes _)); (apply slice_at; [reflexivity|]); cbn [peer_address_bytes address_bytes length];
      now rewrite (proj1 HA).
  - injection HE as <- <-. cbn [command_params]. rewrite <- (app_nil_r (address_bytes a0)) at 1.
    apply (slice_at 0 []); [reflexivity|]. symmetry. apply address_bytes_length. destruct a0; apply HA.
  - injection HE as <- <-. cbn [command_params]. rewrite <- (app_nil_r (address_bytes a0)) at 1.
    apply (slice_at 0 []); [reflexivity|]. symmetry. apply address_bytes_length. destruct a0; apply HA.
Qed.

Lemma reported_address_passed F V pkt r before a after H enc (c : command V) a' k header payload :
  bytes pkt -> event_new F V pkt = Ok (EvLeAdvertisingReport r) ->
  iterates (@lar_next Empty_set r) O (before ++ a :: after) -> In (H, enc) header_formats ->
  arguments_typed F c -> command_device c = Some (a', k) -> In (header, payload) (sent F V H c) ->
  (slice k 7 payload = slice (4 + report_size before + 1) 7 pkt <-> a' = la_address a).
Proof.
  intros Hb HN HI HH HA HC HS. rewrite (sent_params F V H enc c header payload HH HA HS).
  destruct (proj1 (advertising_report_packet F V pkt (before ++ a :: after) Hb)) as (Hok & count & ->); [now exists r|].
  rewrite (command_device_bytes F V c a' k HA HC).
  assert (Ha := Hok). apply Forall_app in Ha. destruct Ha as [Hbefore Ha]. inversion Ha as [|? ? [Hao _] _]; subst.
  generalize (N.of_nat (2 + length (flat_map advertisement_bytes (before ++ a :: after)))). intros len.
  rewrite flat_map_app. cbn [flat_map]. unfold advertisement_bytes at 2. rewrite <- !app_assoc.
  rewrite (app_assoc [_; _; _; _]), (app_assoc (_ ++ _) [_]).
  rewrite slice_at; [apply address_bytes_inj| |symmetry; now apply address_bytes_length].
  rewrite !app_length, (advertisements_size before Hbefore). reflexivity.
Qed.

Lemma peer_address_passed F V pkt e H enc (c : command V) a' k header payload :
  bytes pkt -> event_new F V pkt = Ok (EvLeConnectionComplete e) -> In (H, enc) header_formats ->
  arguments_typed F c -> command_device c = Some (a', k) -> In (header, payload) (sent F V H c) ->
  (slice k 7 payload = slice 7 7 pkt <-> a' = lcc_peer_bd_addr e).
Proof.
  intros Hb HN HH HA HC HS. rewrite (sent_params F V H enc c header payload HH HA HS).
  rewrite (command_device_bytes F V c a' k HA HC). destruct e as [s h role peer ci acc].
  apply le_connection_complete_packet in HN; [|exact Hb].
  destruct HN as (sb & iv & _ & _ & Hp & _ & ->).
  rewrite (app_assoc [_; _; _; _]), (app_assoc (_ ++ _)).
  rewrite slice_at; [apply address_bytes_inj|reflexivity|symmetry; now apply address_bytes_length].
Qed.

Lemma bytes_slice i n p : bytes p -> bytes (slice i n p).
Proof. intros Hb. apply bytes_firstn, bytes_skipn, Hb. Qed.

Lemma address_usable F V pkt r l a : bytes pkt -> event_new F V pkt = Ok (EvLeAdvertisingReport r) ->
  iterates (@lar_next Empty_set r) O l -> In a l -> address_typed (la_address a).
Proof.
  intros Hb HN HI Ha.
  destruct (proj1 (advertising_report_packet F V pkt l Hb)) as (Hok & count & E); [now exists r|].
  rewrite Forall_forall in Hok. destruct (Hok a Ha) as [Hao _]. rewrite E in Hb.
  apply Forall_app in Hb. destruct Hb as [_ Hb]. unfold bytes in Hb. rewrite Forall_forall in Hb.
  assert (B : forall x, In x (address_bytes (la_address a)) -> byte x).
  { intros x Hx. apply Hb. apply in_flat_map. exists a. split; [exact Ha|]. unfold advertisement_bytes.
    apply in_or_app. right. apply in_or_app. now left. }
  destruct (la_address a); (split; [exact Hao|]); apply Forall_forall; intros x Hx; apply B; now right.
Qed.

(** ** Returned values *)
Lemma list_same (l l' : list N) : (forall i, nth_error l i = nth_error l' i) -> l = l'.
Proof.
  revert l'. induction l as [|a l IH]; intros [|b l'] E; [reflexivity|now specialize (E O)..|].
  f_equal; [now specialize (E O); injection E|]. apply IH. intros i. exact (E (S i)).
Qed.

Lemma return_slice n op ret (a b c : list N) k m : ret = a ++ b ++ c -> (k = 5 + length a)%nat -> m = length b ->
  slice k m ([0x0E; N.of_nat (3 + length ret); n] ++ le 2 op ++ ret) = b.
Proof.
  intros -> -> ->. generalize (N.of_nat (3 + length (a ++ b ++ c))). intros len.
  rewrite (app_assoc [_; _; _]), (app_assoc (_ ++ _) a). apply slice_at; [|reflexivity].
  rewrite !app_length. reflexivity.
Qed.

Lemma all_zero_bits m : bytes m -> length m = 5%nat -> only_defined channel_defined (array_bit m) ->
  existsb (array_bit m) (map N.of_nat (seq 0 37)) = false <-> m = repeat 0 5.
Proof.
  intros Hb L D. split.
  - intros E. apply list_same. intros i.
    destruct (nth_error m i) as [b|] eqn:Ei.
    + assert (Hi : (i < 5)%nat) by (rewrite <- L; apply nth_error_Some; now rewrite Ei).
      rewrite (nth_error_repeat _ Hi). f_equal. apply N.bits_inj_0. intros j.
      destruct (N.ltb_spec j 8) as [Hj|Hj].
      * assert (A : array_bit m (8 * N.of_nat i + j) = N.testbit b j).
        { unfold array_bit. replace ((8 * N.of_nat i + j) / 8) with (N.of_nat i) by lia.
          replace ((8 * N.of_nat i + j) mod 8) with j by lia. now rewrite Nat2N.id, Ei. }
        destruct (N.testbit b j); [exfalso|reflexivity].
        assert (HD := D _ A). unfold channel_defined in HD. apply N.leb_le in HD.
        assert (existsb (array_bit m) (map N.of_nat (seq 0 37)) = true); [|congruence].
        apply existsb_exists. exists (8 * N.of_nat i + j). split; [|exact A].
        apply in_map_iff. exists (N.to_nat (8 * N.of_nat i + j)). split; [lia|]. apply in_seq. lia.
      * apply byte_testbit; [|exact Hj]. eapply bytes_nth; eassumption.
    + apply nth_error_None in Ei. symmetry. apply nth_error_None. rewrite repeat_length. lia.
  - intros ->. vm_compute. reflexivity.
Qed.

Lemma channel_map_passed F V pkt n p H enc E : bytes pkt ->
  event_new F V pkt = Ok (EvCommandComplete (Build_command_complete n (RetLeReadChannelMap p))) ->
  In (H, enc) header_formats ->
  let c := @CLeSetHostChannelClassification V (cmp_channel_map p) in
  arguments_typed F c
  /\ (@rejection V E c = Some HNoValidChannel <-> slice 8 5 pkt = repeat 0 5)
  /\ (slice 8 5 pkt <> repeat 0 5 -> exists header, sent F V H c = [(header, slice 8 5 pkt)]).
Proof.
  intros Hb HN HH c. apply command_complete_layout in HN; [|exact Hb|discriminate].
  destruct HN as (op & ret & U & -> & W). cbn [wire_return] in W.
  destruct W as (_ & Uh & L & D & sb & _ & Er).
  assert (Es : slice 8 5 ([0x0E; N.of_nat (3 + length ret); n] ++ le 2 op ++ ret) = cmp_channel_map p).
  { apply (return_slice n op ret (sb :: le 2 (cmp_conn_handle p)) (cmp_channel_map p) []);
      [rewrite Er, app_nil_r; reflexivity|reflexivity|now rewrite L]. }
  assert (Hbm : bytes (cmp_channel_map p)) by (rewrite <- Es; now apply bytes_slice).
  assert (T : arguments_typed F c).
  { cbn [arguments_typed c]. apply value_obtainable; [apply channel_good|].
    repeat split; [exact L|exact Hbm|exact D]. }
  split; [exact T|]. rewrite Es.
  assert (Z := all_zero_bits _ Hbm L D).
  split.
  - rewrite <- Z. cbn [rejection c]. destruct (existsb _ _); split; intros; congruence.
  - intros NZ. rewrite (sent_spec F V H enc c HH T). cbn [rejection c].
    destruct (existsb (array_bit (cmp_channel_map p)) (map N.of_nat (seq 0 37))); [|now destruct NZ; apply Z].
    eexists. reflexivity.
Qed.

Lemma random_passed F V pkt n p H enc q header payload : bytes pkt ->
  event_new F V pkt = Ok (EvCommandComplete (Build_command_complete n (RetLeRand p))) ->
  In (H, enc) header_formats -> arguments_typed F (@CLeStartEncryption V q) ->
  In (header, payload) (sent F V H (@CLeStartEncryption V q)) ->
  u64 (rnd_number p)
  /\ (slice 2 8 payload = slice 6 8 pkt <-> enc_random_number q = rnd_number p).
Proof.
  intros Hb HN HH HA HS. rewrite (sent_params F V H enc _ header payload HH HA HS).
  apply command_complete_layout in HN; [|exact Hb|discriminate].
  destruct HN as (op & ret & U & -> & W). cbn [wire_return] in W. destruct W as (_ & Un & sb & _ & Er).
  split; [exact Un|].
  rewrite (return_slice n op ret [sb] (le 8 (rnd_number p)) []);
    [|rewrite Er, app_nil_r; reflexivity|reflexivity|reflexivity].
  cbn [command_params]. rewrite slice_at by reflexivity. destruct HA as (_ & Uq & _).
  split; [|now intros ->]. intros E. rewrite <- (u64_number _ Uq), <- (u64_number _ Un). now rewrite E.
Qed.

Lemma command_block_bytes F V (c : command V) b i : arguments_typed F c -> In (b, i) (command_blocks c) ->
  key_typed b /\ slice i 16 (command_params c) = b.
Proof.
  intros HA HI. destruct c; cbn [command_blocks] in HI; try destruct HI as [HI|HI]; try now destruct HI.
  all: cbn [arguments_typed] in HA; cbn [command_params].
  - injection HI as <- <-. destruct HA as [K1 K2]. split; [exact K1|].
    apply (slice_at 0 []); [reflexivity|symmetry; apply K1].
  - destruct HI as [HI|[]]. injection HI as <- <-. destruct HA as [K1 K2]. split; [exact K2|].
    rewrite <- (app_nil_r (aes_plaintext_data p)) at 1.
    apply slice_at; symmetry; [apply K1|apply K2].
  - injection HI as <- <-. destruct HA as (_ & _ & _ & K). split; [exact K|].
    rewrite <- (app_nil_r (enc_long_term_key p)) at 1. rewrite (app_assoc (le 2 _)), (app_assoc (_ ++ _)).
    apply slice_at; [reflexivity|symmetry; apply K].
  - injection HI as <- <-. destruct HA as (_ & K). split; [exact K|].
    rewrite <- (app_nil_r key) at 1. apply slice_at; [reflexivity|symmetry; apply K].
Qed.

Lemma encrypted_passed F V pkt n p H enc (c : command V) b i header payload : bytes pkt ->
  event_new F V pkt = Ok (EvCommandComplete (Build_command_complete n (RetLeEncrypt p))) ->
  In (H, enc) header_formats -> arguments_typed F c -> In (b, i) (command_blocks c) ->
  In (header, payload) (sent F V H c) ->
  key_typed (enc_data p) /\ (slice i 16 payload = slice 6 16 pkt <-> b = enc_data p).
Proof.
  intros Hb HN HH HA HI HS. rewrite (sent_params F V H enc _ header payload HH HA HS).
  apply command_complete_layout in HN; [|exact Hb|discriminate].
  destruct HN as (op & ret & U & -> & W). cbn [wire_return] in W. destruct W as (_ & L & sb & _ & Er).
  assert (Es : slice 6 16 ([0x0E; N.of_nat (3 + length ret); n] ++ le 2 op ++ ret) = enc_data p).
  { apply (return_slice n op ret [sb] (enc_data p) []);
      [rewrite Er, app_nil_r; reflexivity|reflexivity|now rewrite L]. }
  assert (Hbm : bytes (enc_data p)) by (rewrite <- Es; now apply bytes_slice).
  split; [now split|]. rewrite Es. destruct (command_block_bytes F V c b i HA HI) as [_ ->]. reflexivity.
Qed.

(** ** Encryption and disconnection, from one device to the other *)
Lemma key_request_passed F F' V V' H enc q h header payload :
  In (H, enc) header_formats -> arguments_typed F (@CLeStartEncryption V q) -> u16 h ->
  In (header, payload) (sent F V H (@CLeStartEncryption V q)) ->
  bytes (key_request h payload)
  /\ event_new F' V' (key_request h payload)
     = Ok (EvLeLongTermKeyRequest (Build_le_long_term_key_request h (enc_random_number q)
                                     (enc_encrypted_diversifier q)))
  /\ forall H' enc' h' header' payload', In (H', enc') header_formats -> u16 h' ->
     In (header', payload') (sent F' V' H' (@CLeLongTermKeyRequestReply V' h' (enc_long_term_key q))) ->
     slice 2 16 payload' = slice 12 16 payload.
Proof.
  intros HH HA Uh HS. rewrite (sent_params F V H enc _ header payload HH HA HS). clear HS.
  assert (HA' := HA). destruct HA' as (Uq & Ur & Ud & K).
  assert (E : key_request h (command_params (@CLeStartEncryption V q))
    = [0x3E; 13; 0x05] ++ le 2 h ++ le 8 (enc_random_number q) ++ le 2 (enc_encrypted_diversifier q)).
  { unfold key_request. cbn [command_params]. rewrite (slice_at 2) by reflexivity.
    rewrite (app_assoc (le 2 (enc_conn_handle q)) (le 8 _)). now rewrite (slice_at 10) by reflexivity. }
  assert (B : bytes (key_request h (command_params (@CLeStartEncryption V q)))).
  { rewrite E. repeat apply Forall_app_2; try apply bytes_le.
    repeat constructor; unfold byte; lia. }
  split; [exact B|]. split.
  - apply le_ltk_request_packet; [exact B|]. auto.
  - intros H' enc' h' header' payload' HH' Uh' HS'.
    assert (HA2 : arguments_typed F' (@CLeLongTermKeyRequestReply V' h' (enc_long_term_key q))) by now split.
    rewrite (sent_params F' V' H' enc' _ header' payload' HH' HA2 HS').
    destruct (command_block_bytes F V (CLeStartEncryption q) (enc_long_term_key q) 12 HA (or_introl eq_refl)) as [_ ->].
    apply (command_block_bytes F' V' (CLeLongTermKeyRequestReply h' (enc_long_term_key q))); [exact HA2|now left].
Qed.

Lemma disconnection_passed F F' V H enc h0 reason h header payload :
  In (H, enc) header_formats -> u16 h0 -> u16 h ->
  In (header, payload) (sent F V H (@CDisconnect V h0 reason)) ->
  bytes (disconnected h payload)
  /\ event_new F' V (disconnected h payload)
     = Ok (EvDisconnectionComplete (Build_disconnection_complete Success h reason)).
Proof.
  intros HH U0 Uh HS.
  assert (HA : arguments_typed F (@CDisconnect V h0 reason)) by exact U0.
  rewrite (sent_spec F V H enc _ HH HA) in HS. cbn [rejection] in HS.
  destruct (disconnect_reason reason) as [b|] eqn:ER; [|destruct HS]. destruct HS as [HS|[]].
  injection HS as _ <-. cbn [command_params]. rewrite ER.
  assert (E : disconnected h (le 2 h0 ++ [b]) = [0x05; 4; 0x00] ++ le 2 h ++ [b]).
  { reflexivity. }
  assert (Bb : byte b /\ status_byte F' V b reason).
  { destruct reason; try discriminate ER; injection ER as <-; (split; [unfold byte; lia|]);
      unfold status_byte, assigned_statuses; destruct (version_5_0 F'); reflexivity. }
  assert (B : bytes (disconnected h (le 2 h0 ++ [b]))).
  { rewrite E. repeat apply Forall_app_2; try apply bytes_le; repeat constructor; try apply Bb;
      unfold byte; lia. }
  split; [exact B|]. apply disconnection_complete_packet; [exact B|]. exists 0, b.
  split; [unfold status_byte, assigned_statuses; destruct (version_5_0 F'); reflexivity|].
  split; [exact Uh|]. split; [apply Bb|exact E].
Qed.
