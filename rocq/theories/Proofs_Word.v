(** * Machine words (proofs). *)
From Verif Require Import Base Model_Types Model_Intervals Model_EventBase Model_Command Model_Event Model_Host
  Model_Word Spec_Wire Spec_Errors Spec_Host Spec_Word Proofs_Base Proofs_Event Proofs_Report.
Open Scope list_scope.
Open Scope N_scope.

Section Words.
Context (m : machine) (HM : rust_machine m).

Lemma words : 65536 <= usizes m.
Proof. exact HM. Qed.

Lemma add_ok {E} a b : N.of_nat a + N.of_nat b < usizes m -> @usize_add E m a b = Ok (a + b)%nat.
Proof.
  intros H. unfold usize_add, usize. replace (N.of_nat a + N.of_nat b <? usizes m) with true by lia.
  f_equal. lia.
Qed.
Lemma mul_ok {E} a b : N.of_nat a * N.of_nat b < usizes m -> @usize_mul E m a b = Ok (a * b)%nat.
Proof.
  intros H. unfold usize_mul, usize. replace (N.of_nat a * N.of_nat b <? usizes m) with true by lia.
  f_equal. lia.
Qed.
Lemma sub_ok {E} a b : (b <= a)%nat -> @usize_sub E m a b = Ok (a - b)%nat.
Proof. intros H. unfold usize_sub. destruct (Nat.leb_spec b a); [reflexivity|lia]. Qed.

Lemma idx_in {E} l i b : @idx E l i = Ok b -> In b l /\ (i < length l)%nat.
Proof.
  unfold idx. destruct (nth_error l i) eqn:Hn; [|discriminate]. intros [= <-].
  split; [exact (nth_error_In _ _ Hn)|]. apply nth_error_Some. congruence.
Qed.

Lemma bytes_in l b : bytes l -> In b l -> b < 256.
Proof. intros H I. unfold bytes in H. rewrite Forall_forall in H. exact (H b I). Qed.

Lemma ncp_same {E} ev i : (ncp_num_handles ev <= 255)%nat -> @ncp_next_on m E ev i = ncp_next ev i.
Proof.
  intros H. pose proof words as W. unfold ncp_next_on, ncp_next, NUM_COMPLETED_PACKETS_PAIR_LEN.
  rewrite mul_ok by lia. cbn [bind].
  destruct (Nat.leb_spec (ncp_num_handles ev * 4) i); [reflexivity|].
  rewrite add_ok by lia. cbn [bind]. destruct (u16_at (ncp_data_buf ev) i); cbn [bind]; try reflexivity.
  rewrite add_ok by lia. reflexivity.
Qed.

Lemma inner_same {VE} d i : bytes d -> fits m d -> @lar_inner_next_on m VE d i = lar_inner_next d i.
Proof.
  intros Hb Hf. pose proof words as W. unfold fits in Hf. unfold lar_inner_next_on, lar_inner_next.
  destruct (Nat.leb_spec (length d) i); [reflexivity|].
  rewrite add_ok by lia. cbn [bind]. rewrite add_ok by lia. cbn [bind]. rewrite add_ok by lia. cbn [bind].
  destruct (idx d (i + 1 + 1 + 6)) as [dl|e|] eqn:Hd; cbn [bind]; try reflexivity.
  destruct (idx_in _ _ _ Hd) as [Hi Hl]. apply (bytes_in _ _ Hb) in Hi.
  rewrite add_ok by lia. cbn [bind]. rewrite add_ok by lia. cbn [bind]. rewrite add_ok by lia. cbn [bind].
  reflexivity.
Qed.

Lemma check_same {VE} fuel : forall d i, bytes d -> fits m d ->
  @lar_check_on m VE fuel d i = lar_check fuel d i.
Proof.
  induction fuel as [|fuel IH]; intros d i Hb Hf; [reflexivity|]. cbn [lar_check_on lar_check].
  rewrite inner_same by assumption. destruct (lar_inner_next d i) as [[[x|] i']|e|]; try reflexivity.
  apply IH; assumption.
Qed.

Lemma slice_part {E} l a b l' : @slice E l a b = Ok l' -> incl l' l /\ (length l' <= length l)%nat.
Proof.
  unfold slice. destruct (_ && _); [|discriminate]. intros [= <-]. split.
  - intros x Hx. rewrite <- (firstn_skipn a l). apply in_or_app. right.
    rewrite <- (firstn_skipn (b - a) (skipn a l)). apply in_or_app. left. exact Hx.
  - rewrite firstn_length, skipn_length. lia.
Qed.

Lemma slice_from_part {E} l a l' : @slice_from E l a = Ok l' ->
  incl l' l /\ (length l' <= length l)%nat /\ (a <= length l)%nat.
Proof.
  unfold slice_from. destruct (Nat.leb_spec a (length l)); [|discriminate]. intros [= <-]. split; [|split].
  - intros x Hx. rewrite <- (firstn_skipn a l). apply in_or_app. right. exact Hx.
  - rewrite skipn_length. lia.
  - assumption.
Qed.

Lemma bytes_incl l l' : bytes l -> incl l' l -> bytes l'.
Proof. unfold bytes. rewrite !Forall_forall. intros H I x Hx. apply H, I, Hx. Qed.

Lemma report_same {VE} p : bytes p -> fits m p ->
  @to_le_advertising_report_on m VE p = to_le_advertising_report p.
Proof.
  intros Hb Hf. unfold to_le_advertising_report_on, to_le_advertising_report.
  destruct (slice_from p 2) as [d|e|] eqn:Hs; cbn [bind]; try reflexivity.
  destruct (slice_from_part _ _ _ Hs) as (Hi & Hl & H2). unfold fits in *.
  rewrite check_same by (try apply (bytes_incl p); try assumption; unfold fits; lia).
  destruct (lar_check _ d 0) as [[[]|e|]|]; cbn [bind]; try reflexivity.
  rewrite sub_ok by lia. reflexivity.
Qed.

Lemma pairs_same {VE} p : bytes p ->
  @to_number_of_completed_packets_on m VE p =
  @to_number_of_completed_packets {| VStatus := unit; VEvent := unit; VReturn := unit; VError := VE;
    vstatus_try_from := fun _ => Panic; vstatus_into := fun _ => 0; vevent_new := fun _ => Panic;
    vreturn_new := fun _ => Panic |} p.
Proof.
  intros Hb. pose proof words as W.
  unfold to_number_of_completed_packets_on, to_number_of_completed_packets, NUM_COMPLETED_PACKETS_PAIR_LEN.
  cbn [VError]. destruct (require_len_at_least p 1) as [[]|e|]; cbn [bind]; try reflexivity.
  destruct (idx p 0) as [n|e|] eqn:Hn; cbn [bind]; try reflexivity.
  destruct (idx_in _ _ _ Hn) as [Hi Hl]. apply (bytes_in _ _ Hb) in Hi.
  rewrite mul_ok by lia. cbn [bind]. rewrite add_ok by lia. cbn [bind]. reflexivity.
Qed.

Lemma dispatch_same F V c p : bytes p -> fits m p -> event_dispatch_on m F V c p = event_dispatch F V c p.
Proof.
  intros Hb Hf. unfold event_dispatch_on.
  destruct (N.eqb_spec c 0x13) as [->|H1].
  - rewrite pairs_same by assumption. reflexivity.
  - destruct (N.eqb_spec c 0x3E) as [->|H2]; [|reflexivity].
    change (event_dispatch F V 0x3E p) with (to_le_meta_event F V p). unfold to_le_meta_event.
    destruct (require_len_at_least p 1) as [[]|e|]; cbn [bind]; try reflexivity.
    destruct (idx p 0) as [n|e|] eqn:Hn; cbn [bind]; try reflexivity.
    destruct (N.eqb_spec n 2) as [->|H3]; [|reflexivity].
    rewrite report_same by assumption. reflexivity.
Qed.

Lemma full_same V p : bytes p -> @packet_full_length_on m (VError V) p = packet_full_length V p.
Proof.
  intros Hb. pose proof words as W. unfold packet_full_length_on, packet_full_length.
  destruct (idx p 1) as [n|e|] eqn:Hn; cbn [bind]; try reflexivity.
  destruct (idx_in _ _ _ Hn) as [Hi Hl]. apply (bytes_in _ _ Hb) in Hi. apply add_ok. lia.
Qed.

Lemma event_same F V pkt : bytes pkt -> fits m pkt -> event_new_on m F V pkt = event_new F V pkt.
Proof.
  intros Hb Hf. unfold event_new_on, event_new. rewrite full_same by assumption.
  destruct (require_len_at_least pkt 2) as [[]|e|]; cbn [bind]; try reflexivity.
  destruct (packet_full_length V pkt) as [n|e|]; cbn [bind]; try reflexivity.
  destruct (require_len pkt n) as [[]|e|]; cbn [bind]; try reflexivity.
  destruct (idx pkt 0) as [c|e|]; cbn [bind]; try reflexivity.
  destruct (slice pkt 2 n) as [p|e|] eqn:Hs; cbn [bind]; try reflexivity.
  destruct (slice_part _ _ _ _ Hs) as [Hi Hl]. unfold fits in *.
  apply dispatch_same; [exact (bytes_incl _ _ Hb Hi)|unfold fits; lia].
Qed.

Lemma zeros_bytes n : bytes (zeros n).
Proof. unfold zeros, bytes. apply Forall_forall. intros x Hx. apply repeat_spec in Hx. subst. reflexivity. Qed.
Lemma zeros_long n : length (zeros n) = n.
Proof. apply repeat_length. Qed.

Section Reads.
Context (F : features) (V : vendor) {St E : Type} (I : St -> Prop) (C : controller St E) (HC : gives_bytes I C).

Lemma peek_byte s n s' b : I s -> ctl_peek C s n = (s', Ok b) -> I s' /\ b < 256.
Proof. intros H E0. pose proof (proj1 HC s n H) as K. rewrite E0 in K. exact K. Qed.

Lemma prefix_bytes n k s s' buf : I s ->
  read_into_prefix C (zeros n) k s = (s', Ok buf) -> bytes buf.
Proof.
  intros HI. unfold read_into_prefix, abind, pure. destruct (slice (zeros n) 0 k) as [l|e|] eqn:Hs; try discriminate.
  destruct (ctl_read_into C s l) as [s1 [l'|e|]] eqn:Hr; try discriminate. intros [= <- <-].
  apply Forall_app. split.
  - destruct (slice_part _ _ _ _ Hs) as [Hi _].
    pose proof (proj2 HC s l HI (bytes_incl _ _ (zeros_bytes n) Hi)) as K. rewrite Hr in K. exact (proj2 K).
  - apply (bytes_incl (zeros n)); [apply zeros_bytes|]. intros x Hx.
    rewrite <- (firstn_skipn k (zeros n)). apply in_or_app. right. exact Hx.
Qed.

Lemma window_fits {E'} l a b l' : (b <= 258)%nat -> @slice E' l a b = Ok l' -> fits m l'.
Proof.
  intros Hb. pose proof words as W. unfold slice. destruct (_ && _); [|discriminate]. intros [= <-].
  unfold fits. rewrite firstn_length. lia.
Qed.

Lemma uart_event_same s : I s -> uart_read_event_on m F V C s = uart_read_event F V C s.
Proof.
  intros HI. pose proof words as W. unfold uart_read_event_on, uart_read_event.
  unfold abind, pure, amap_err.
  destruct (ctl_peek C s 2) as [s1 [pl|e|]] eqn:Hp; cbn [map_err]; try reflexivity.
  destruct (peek_byte _ _ _ _ HI Hp) as [HI1 Hb].
  rewrite !add_ok by lia.
  destruct (read_into_prefix C (zeros (255 + 3)) (3 + N.to_nat pl) s1) as [s2 [buf|e|]] eqn:Hr;
    cbn [map_err]; try reflexivity.
  apply prefix_bytes in Hr; [|exact HI1].
  destruct (slice buf 1 (3 + N.to_nat pl)) as [pkt|e|] eqn:Hs; try reflexivity.
  rewrite event_same; [reflexivity| |].
  - destruct (slice_part _ _ _ _ Hs) as [Hi _]. exact (bytes_incl _ _ Hr Hi).
  - refine (window_fits _ _ _ _ _ Hs). lia.
Qed.

Lemma uart_same s : I s -> uart_read_on m F V C s = uart_read F V C s.
Proof.
  intros HI. unfold uart_read_on, uart_read, abind, amap_err.
  destruct (ctl_peek C s 0) as [s1 [t|e|]] eqn:Hp; cbn [map_err]; try reflexivity.
  destruct (peek_byte _ _ _ _ HI Hp) as [HI1 _].
  destruct (t =? 4); [|reflexivity]. rewrite uart_event_same by exact HI1. reflexivity.
Qed.

Lemma link_same s : I s -> link_read_on m F V C s = link_read F V C s.
Proof.
  intros HI. pose proof words as W. unfold link_read_on, link_read.
  unfold abind, pure, amap_err.
  destruct (ctl_peek C s 1) as [s1 [pl|e|]] eqn:Hp; cbn [map_err]; try reflexivity.
  destruct (peek_byte _ _ _ _ HI Hp) as [HI1 Hb].
  rewrite !add_ok by lia.
  destruct (read_into_prefix C (zeros (255 + 2)) (2 + N.to_nat pl) s1) as [s2 [buf|e|]] eqn:Hr;
    cbn [map_err]; try reflexivity.
  apply prefix_bytes in Hr; [|exact HI1].
  destruct (slice buf 0 (2 + N.to_nat pl)) as [pkt|e|] eqn:Hs; try reflexivity.
  rewrite event_same; [reflexivity| |].
  - destruct (slice_part _ _ _ _ Hs) as [Hi _]. exact (bytes_incl _ _ Hr Hi).
  - refine (window_fits _ _ _ _ _ Hs). lia.
Qed.
End Reads.

Lemma ad_len_same {E} a : fits m (ad_data a) -> @ad_len_on m E a = Ok (ad_len a).
Proof.
  intros Hf. pose proof words as W. unfold fits in Hf.
  destruct a; cbn [ad_data] in Hf; unfold ad_len_on, ad_len; cbn [bind]; rewrite add_ok by lia; cbn [bind];
    rewrite ?add_ok by lia; reflexivity.
Qed.

Lemma ad_copy_same {E} a buf : fits m (ad_data a) -> @ad_copy_into_slice_on m E a buf = ad_copy_into_slice a buf.
Proof.
  intros Hf. pose proof words as W. unfold ad_copy_into_slice_on, ad_copy_into_slice.
  rewrite ad_len_same by assumption. cbn [bind]. rewrite sub_ok by (unfold ad_len; lia). cbn [bind].
  unfold fits in Hf. destruct a; cbn [ad_data] in Hf; cbv beta iota; rewrite add_ok by lia; reflexivity.
Qed.

Lemma set_idx_length {E} buf i v buf' : @set_idx E buf i v = Ok buf' -> (i < length buf)%nat.
Proof. unfold set_idx. destruct (Nat.ltb_spec i (length buf)); [intros _; assumption|discriminate]. Qed.
Lemma set_idx_keeps {E} buf i v buf' : @set_idx E buf i v = Ok buf' -> length buf' = length buf.
Proof.
  unfold set_idx. destruct (Nat.ltb_spec i (length buf)); [|discriminate]. intros K.
  assert (Kb : firstn i buf ++ v :: skipn (S i) buf = buf') by congruence. subst buf'.
  rewrite app_length, firstn_length. change (length (v :: skipn (S i) buf)) with (S (length (skipn (S i) buf))).
  rewrite skipn_length. lia.
Qed.
Lemma update_keeps {E} buf i j f buf' :
  (forall l l', f l = Ok l' -> length l' = length l) ->
  @update_range E buf i j f = Ok buf' -> length buf' = length buf.
Proof.
  intros Hf. unfold update_range, slice.
  destruct (Nat.leb_spec i j); cbn [andb]; [|discriminate].
  destruct (Nat.leb_spec j (length buf)); [|discriminate]. cbn [bind].
  destruct (f _) as [l'|e|] eqn:Hl; cbn [bind]; try discriminate. intros [= <-].
  apply Hf in Hl. rewrite firstn_length, skipn_length in Hl.
  rewrite !app_length, firstn_length, skipn_length. lia.
Qed.
Lemma copy_keeps {E} src l l' : @copy_from_slice E src l = Ok l' -> length l' = length l.
Proof. unfold copy_from_slice. destruct (Nat.eqb_spec (length l) (length src)); [|discriminate]. intros [= <-]. congruence. Qed.

Lemma address_keeps {E} a l l' : @bd_addr_type_copy E a l = Ok l' -> length l' = length l.
Proof.
  unfold bd_addr_type_copy, assert. destruct (Nat.eqb (length l) 7); cbn [bind]; [|discriminate].
  destruct a as [x|x];
    (destruct (set_idx l 0 _) as [b|e|] eqn:Hs; cbn [bind]; try discriminate; intros H;
     apply set_idx_keeps in Hs; apply update_keeps in H; [congruence|]; intros; eapply copy_keeps; eassumption).
Qed.

Lemma loop_same {E} advs : Forall (fun a => fits m (la_data a)) advs -> forall n buf,
  (n <= 253)%nat -> length buf = 253%nat -> @report_loop_on m E advs n buf = report_loop advs n buf.
Proof.
  pose proof words as W. induction 1 as [|a advs Ha _ IH]; intros n buf Hn Hl; [reflexivity|].
  unfold fits in Ha. cbn [report_loop_on report_loop].
  rewrite (add_ok 1 n) by lia. cbn [bind]. rewrite (add_ok 7 (1 + n)) by lia. cbn [bind].
  rewrite (add_ok 1 (7 + (1 + n))) by lia. cbn [bind].
  rewrite (add_ok (1 + (7 + (1 + n))) (length (la_data a))) by lia. cbn [bind].
  destruct (set_idx buf n _) as [b1|e|] eqn:H1; cbn [bind]; try reflexivity.
  destruct (update_range b1 _ _ (bd_addr_type_copy _)) as [b2|e|] eqn:H2; cbn [bind]; try reflexivity.
  destruct (set_idx b2 _ _) as [b3|e|] eqn:H3; cbn [bind]; try reflexivity.
  destruct (update_range b3 _ _ _) as [b4|e|] eqn:H4; cbn [bind]; try reflexivity.
  destruct (set_idx b4 _ _) as [b5|e|] eqn:H5; cbn [bind]; try reflexivity.
  pose proof (set_idx_length _ _ _ _ H5) as H6.
  apply set_idx_keeps in H1, H3, H5. apply update_keeps in H2; [|intros; eapply address_keeps; eassumption].
  apply update_keeps in H4; [|intros; eapply copy_keeps; eassumption].
  rewrite add_ok by lia. cbn [bind]. apply IH; lia.
Qed.

Lemma made_same {E} advs : Forall (fun a => fits m (la_data a)) advs ->
  @report_with_advertisements_on m E advs = report_with_advertisements advs.
Proof.
  intros H. apply loop_same; [exact H|lia|]. unfold MAX_ADVERTISING_REPORT_LEN. apply zeros_long.
Qed.

(** What an accepted packet holds. *)
Lemma handles_small F V pkt ev : bytes pkt ->
  event_new F V pkt = Ok (EvNumberOfCompletedPackets ev) -> (ncp_num_handles ev <= 255)%nat.
Proof.
  intros Hb H. apply event_new_ok in H. destruct H as (code & p & -> & H).
  apply dispatch_ok in H. destruct H as [_ H]. apply framed_bytes in Hb.
  unfold to_number_of_completed_packets in H.
  destruct (require_len_at_least p 1) as [[]|e|]; cbn [bind] in H; try discriminate.
  destruct (idx p 0) as [n|e|] eqn:Hn; cbn [bind] in H; try discriminate.
  destruct (idx_in _ _ _ Hn) as [Hi _]. apply (bytes_in _ _ Hb) in Hi.
  destruct (require_len p _) as [[]|e|]; cbn [bind] in H; try discriminate.
  destruct (slice_from p 1) as [src|e|]; cbn [bind] in H; try discriminate.
  destruct (update_range _ _ _ _) as [buf|e|]; cbn [bind] in H; try discriminate.
  injection H as <-. cbn [ncp_num_handles]. lia.
Qed.

Lemma report_small F V pkt r : bytes pkt -> event_new F V pkt = Ok (EvLeAdvertisingReport r) ->
  exists d, (length d <= 253)%nat /\ bytes d /\ forall E, @lar_event_data E r = Ok d.
Proof.
  intros Hb H. apply event_new_ok in H. destruct H as (code & p & -> & H).
  assert (Hl := framed_payload_length _ _ Hb). apply framed_bytes in Hb.
  apply dispatch_ok in H. destruct H as [-> H].
  apply meta_ok in H. destruct H as (c & rest & -> & -> & H).
  destruct rest as [|count data]; [discriminate|].
  cbn [length] in Hl. bytes_inv.
  destruct (report_result V 2 count data) as (l' & tail & Hlt & R); [assumption|lia|].
  rewrite H in R.
  destruct R as [[-> R]|[[_ R]|[_ (e & _ & R)]]]; try discriminate.
  assert (K : r = {| lar_data_len := length data; lar_data_buf := data ++ zeros (253 - length data) |})
    by congruence.
  rewrite K. clear R H K r. generalize (253 - length data)%nat. intros k.
  exists data. split; [lia|]. split; [assumption|]. intros E. unfold lar_event_data, slice.
  cbn [lar_data_buf lar_data_len]. rewrite app_length.
  destruct (Nat.leb_spec (length data) (length data + length (zeros k))); [|lia].
  cbn [andb Nat.leb]. f_equal. rewrite Nat.sub_0_r. cbn [skipn]. apply firstn_all_app. reflexivity.
Qed.

Lemma pairs_next_same {E} F V pkt ev i : bytes pkt ->
  event_new F V pkt = Ok (EvNumberOfCompletedPackets ev) -> @ncp_next_on m E ev i = ncp_next ev i.
Proof. intros Hb H. apply ncp_same. exact (handles_small F V pkt ev Hb H). Qed.

Lemma report_next_same {E} F V pkt r i : bytes pkt ->
  event_new F V pkt = Ok (EvLeAdvertisingReport r) -> @lar_next_on m E r i = lar_next r i.
Proof.
  intros Hb H. pose proof words as W. destruct (report_small F V pkt r Hb H) as (d & Hl & Hd & K).
  unfold lar_next_on, lar_next. rewrite K. cbn [bind]. rewrite inner_same; [reflexivity|exact Hd|].
  unfold fits. lia.
Qed.

End Words.

(** The queue of Spec_Link.v. *)
From Verif Require Import Spec_Link Proofs_Link.
Lemma queue_gives : gives_bytes (possible queue_history) queue_controller.
Proof.
  assert (A : forall s, possible queue_history s -> possible queue_history (q_arrive s)).
  { intros s (H1 & H2 & H3). unfold q_arrive. destruct (q_arrivals s) as [|c later] eqn:Ea.
    - cbn. rewrite Ea. auto.
    - inversion H3; subst. cbn. split; [apply Forall_app; auto|]. split; [rewrite app_length; lia|assumption]. }
  assert (P : forall s, possible queue_history s -> bytes (q_pending s)).
  { intros s (H1 & _). unfold q_pending. apply bytes_skipn. exact H1. }
  split.
  - intros s n H. cbn [ctl_peek queue_controller]. apply A in H. split; [exact H|].
    destruct (nth_error _ n) eqn:Hn; [|exact I]. apply nth_error_In in Hn. apply P in H.
    exact (bytes_in _ _ H Hn).
  - intros s l H _. cbn [ctl_read_into queue_controller]. apply A in H.
    destruct (Nat.leb_spec (length l) (length (q_pending (q_arrive s)))) as [L|L]; [|split; [exact H|exact I]].
    split; [|apply bytes_firstn, P, H]. destruct H as (H1 & H2 & H3). cbn. split; [exact H1|]. split; [|exact H3].
    unfold q_pending in L. rewrite skipn_length in L. lia.
Qed.
