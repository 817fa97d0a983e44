(** * Number Of Completed Packets and LE Advertising Report. *)
From Verif Require Import Base Model_Types Model_Bitflags Model_Intervals
  Model_EventBase Model_Command Model_Event Spec_Wire Spec_Interval Spec_Errors Spec_Report
  Proofs_Base Proofs_Event Proofs_Errors.

(** ** Iteration in general *)
Lemma iterates_calls {E St A} (next : St -> outcome E (option A * St)) s l :
  iterates next s l -> forall n, calls next n s = Ok (expected_calls n l).
Proof.
  unfold expected_calls.
  induction 1 as [s H|s x s' l H _ IH]; intros n.
  - cbn [map app]. induction n as [|n IH]; [reflexivity|].
    cbn [calls]. rewrite H. cbn [bind snd fst]. rewrite IH. reflexivity.
  - destruct n as [|n]; [reflexivity|].
    cbn [calls]. rewrite H. cbn [bind snd fst]. rewrite IH. cbn [bind map app firstn repeat].
    rewrite repeat_cons, app_assoc, (firstn_app n (map Some l ++ repeat None n) [None]).
    assert (L : (n <= length (map Some l ++ repeat (@None A) n))%nat)
      by (rewrite app_length, repeat_length; lia).
    replace (n - length (map Some l ++ repeat (@None A) n))%nat with O by lia.
    cbn [firstn]. now rewrite app_nil_r.
Qed.

Lemma iterates_ext {E St A} (n1 n2 : St -> outcome E (option A * St)) s l :
  (forall s, n1 s = n2 s) -> iterates n2 s l -> iterates n1 s l.
Proof.
  intros H K. induction K as [s K|s x s' l K _ IH].
  - apply iterates_end. now rewrite H.
  - eapply iterates_next; [|exact IH]. now rewrite H.
Qed.

Lemma iterates_inj {E St A} (next : St -> outcome E (option A * St)) s l1 l2 :
  iterates next s l1 -> iterates next s l2 -> l1 = l2.
Proof.
  intros H. revert l2. induction H as [s H|s x s' l H _ IH]; intros l2 H2.
  - inversion H2; subst; [reflexivity|congruence].
  - inversion H2 as [s0 K|s0 x0 s0' l0 K K']; subst; [congruence|].
    assert (x = x0 /\ s' = s0') as [-> ->] by (split; congruence).
    f_equal. now apply IH.
Qed.

(** ** Reading in the middle of a list *)
Lemma idx_app {E} pre l i : @idx E (pre ++ l) (length pre + i) = idx l i.
Proof.
  unfold idx. rewrite nth_error_app2 by lia.
  now replace (length pre + i - length pre)%nat with i by lia.
Qed.
Lemma slice_from_app {E} pre l i : @slice_from E (pre ++ l) (length pre + i) = slice_from l i.
Proof.
  unfold slice_from. rewrite app_length, skipn_app.
  replace (length pre + i - length pre)%nat with i by lia.
  rewrite skipn_all2 by lia. cbn [app].
  destruct (Nat.leb_spec (length pre + i) (length pre + length l)), (Nat.leb_spec i (length l));
    (reflexivity || lia).
Qed.
Lemma slice_app {E} pre l a b : @slice E (pre ++ l) (length pre + a) (length pre + b) = slice l a b.
Proof.
  unfold slice. rewrite app_length, skipn_app.
  replace (length pre + a - length pre)%nat with a by lia.
  rewrite (skipn_all2 pre) by lia. cbn [app].
  replace (length pre + b - (length pre + a))%nat with (b - a)%nat by lia.
  destruct (Nat.leb_spec (length pre + a) (length pre + b)), (Nat.leb_spec a b); try lia; [|reflexivity].
  cbn [andb].
  destruct (Nat.leb_spec (length pre + b) (length pre + length l)), (Nat.leb_spec b (length l));
    (reflexivity || lia).
Qed.

(** Filling the front of a zeroed buffer. *)
Lemma fill_front {E} n src m : length src = n -> (n <= m)%nat ->
  @update_range E (zeros m) 0 n (copy_from_slice src) = Ok (src ++ zeros (m - n)).
Proof.
  intros Hl Hn. unfold update_range, slice, zeros. rewrite repeat_length.
  destruct (Nat.leb_spec n m); [|lia]. cbn [Nat.leb andb bind skipn firstn app].
  rewrite Nat.sub_0_r. unfold copy_from_slice.
  rewrite firstn_length, repeat_length, Nat.min_l, Hl, Nat.eqb_refl by lia. cbn [bind].
  f_equal. f_equal. replace m with (n + (m - n))%nat at 1 by lia.
  rewrite repeat_app. apply skipn_all_app. apply repeat_length.
Qed.

Lemma skipn_nth (l : list N) n : (n < length l)%nat -> skipn n l = nth n l 0 :: skipn (n + 1) l.
Proof.
  revert n. induction l as [|x l IH]; intros n H; [cbn in H; lia|].
  destruct n as [|n]; [reflexivity|]. cbn [skipn nth Nat.add]. apply IH. cbn in H. lia.
Qed.

Section Report.
Context (F : features) (V : vendor).
Local Notation VE := (VError V).

(** ** Number Of Completed Packets *)
Lemma pair_bytes_length p : length (pair_bytes p) = 4%nat.
Proof. unfold pair_bytes. now rewrite app_length, !le_length. Qed.

Lemma pairs_length l : length (flat_map pair_bytes l) = (length l * 4)%nat.
Proof.
  induction l as [|p l IH]; [reflexivity|].
  cbn [flat_map length]. rewrite app_length, pair_bytes_length, IH. lia.
Qed.

(** Any block of 4n bytes is the encoding of n pairs. *)
Lemma pairs_exist n bs : bytes bs -> length bs = (n * 4)%nat ->
  exists l, length l = n /\ Forall pair_ok l /\ bs = flat_map pair_bytes l.
Proof.
  revert bs. induction n as [|n IH]; intros bs Hb Hl.
  - apply length_O in Hl. subst. exists []. repeat split. constructor.
  - cbn [Nat.mul Nat.add] in Hl. destruct bs as [|b0 [|b1 [|b2 [|b3 bs]]]]; try discriminate.
    bytes_inv. injection Hl as Hl. destruct (IH bs) as (l & Hn & Hok & ->); [assumption..|].
    exists (Build_completed_packets_pair (b0 + 256 * b1) (b2 + 256 * b3) :: l).
    split; [cbn; now rewrite Hn|]. split.
    + constructor; [|exact Hok]. split; cbn; apply u16_of_bytes; assumption.
    + cbn [flat_map]. unfold pair_bytes at 2. cbn [cpp_conn_handle cpp_num_completed_packets].
      rewrite !le_2_of_bytes by assumption. reflexivity.
Qed.

Lemma ncp_iterates {E} n pre l post : Forall pair_ok l ->
  (n * 4)%nat = (length pre + length l * 4)%nat ->
  iterates (@ncp_next E (Build_number_of_completed_packets n (pre ++ flat_map pair_bytes l ++ post)))
    (length pre) l.
Proof.
  intros H. revert pre. induction H as [|p l Hp Hl IH]; intros pre Hn.
  - apply iterates_end. unfold ncp_next. cbn [ncp_num_handles].
    change NUM_COMPLETED_PACKETS_PAIR_LEN with 4%nat.
    destruct (Nat.leb_spec (n * 4) (length pre)); [reflexivity|cbn in Hn; lia].
  - eapply iterates_next with (s' := length (pre ++ pair_bytes p)).
    + unfold ncp_next. cbn [ncp_num_handles ncp_data_buf].
      change NUM_COMPLETED_PACKETS_PAIR_LEN with 4%nat.
      cbn [length] in Hn. destruct (Nat.leb_spec (n * 4) (length pre)); [lia|].
      unfold u16_at. rewrite <- (Nat.add_0_r (length pre)) at 1. rewrite !slice_from_app.
      destruct p as [h c]. destruct Hp as [Hh Hc].
      cbn [flat_map]. unfold pair_bytes at 1 3. cbn [cpp_conn_handle cpp_num_completed_packets].
      rewrite !le_2. cbn [app slice_from Nat.leb length bind skipn read_u16].
      unfold slice_from. cbn [Nat.leb length bind skipn read_u16].
      cbn [cpp_conn_handle cpp_num_completed_packets] in *.
      rewrite !read_le_2 by assumption. do 3 f_equal. rewrite app_length, pair_bytes_length. lia.
    + cbn [flat_map]. rewrite <- app_assoc, app_assoc. apply IH.
      rewrite app_length, pair_bytes_length. cbn [length] in Hn. lia.
Qed.

Lemma ncp_ok p e : (length p <= 255)%nat ->
  to_number_of_completed_packets V p = Ok e <->
  exists n bs, p = N.of_nat n :: bs /\ length bs = (n * 4)%nat
    /\ e = Build_number_of_completed_packets n (bs ++ zeros (254 - n * 4)).
Proof.
  intros Hlen. unfold to_number_of_completed_packets, require_len_at_least, require_len.
  change NUM_COMPLETED_PACKETS_PAIR_LEN with 4%nat.
  change NUMBER_OF_COMPLETED_PACKETS_MAX_LEN with 254%nat.
  destruct p as [|c bs].
  - cbn. split; [discriminate|]. intros (n & bs & H & _). discriminate.
  - cbn [length Nat.ltb Nat.leb bind idx nth_error].
    destruct (Nat.eqb_spec (S (length bs)) (1 + N.to_nat c * 4)) as [H|H]; cbn [bind].
    + unfold slice_from. cbn [Nat.leb length bind skipn].
      rewrite fill_front by (cbn in *; lia). cbn [bind]. split.
      * intros K. injection K as <-. exists (N.to_nat c), bs.
        rewrite N2Nat.id. split; [reflexivity|]. split; [lia|reflexivity].
      * intros (n & bs' & K & L & ->). injection K as -> <-. now rewrite Nat2N.id.
    + split; [discriminate|]. intros (n & bs' & K & L & _). injection K as -> <-. lia.
Qed.

Lemma completed_packets_packet pkt l : bytes pkt ->
  ((exists ev, event_new F V pkt = Ok (EvNumberOfCompletedPackets ev)
      /\ iterates (@ncp_next Empty_set ev) O l)
   <-> Forall pair_ok l
       /\ pkt = [0x13; N.of_nat (1 + 4 * length l); N.of_nat (length l)] ++ flat_map pair_bytes l).
Proof.
  intros Hb. split.
  - intros (ev & H & Hit). apply event_new_ok in H. destruct H as (code & p & -> & H).
    apply dispatch_ok in H. destruct H as [-> H].
    assert (Hl := framed_payload_length _ _ Hb). apply framed_bytes in Hb.
    apply ncp_ok in H; [|exact Hl]. destruct H as (n & bs & -> & Hn & ->). bytes_inv.
    destruct (pairs_exist n bs) as (l' & L & Hok & ->); [assumption..|].
    assert (K := @ncp_iterates Empty_set n [] l' (zeros (254 - n * 4)) Hok).
    cbn [app length] in K. rewrite L in K. specialize (K eq_refl).
    assert (l = l') by (eapply iterates_inj; eassumption). subst l'.
    split; [exact Hok|]. unfold framed. rewrite L. cbn [app length]. rewrite pairs_length, L.
    do 3 f_equal. lia.
  - intros [Hok ->]. set (n := length l).
    exists (Build_number_of_completed_packets n (flat_map pair_bytes l ++ zeros (254 - n * 4))).
    assert (Efr : [0x13; N.of_nat (1 + 4 * n); N.of_nat n] ++ flat_map pair_bytes l
      = framed 0x13 (N.of_nat n :: flat_map pair_bytes l)).
    { unfold framed. cbn [length app]. rewrite pairs_length. do 3 f_equal. subst n. lia. }
    fold n in Hb. rewrite Efr in *.
    split.
    + rewrite event_new_framed. cbn [event_dispatch].
      change (event_dispatch F V 0x13 (N.of_nat n :: flat_map pair_bytes l))
        with (wrap V (to_number_of_completed_packets V (N.of_nat n :: flat_map pair_bytes l))
                EvNumberOfCompletedPackets).
      apply wrap_ok. eexists. split; [|reflexivity].
      apply ncp_ok; [exact (framed_payload_length _ _ Hb)|].
      exists n, (flat_map pair_bytes l). split; [reflexivity|]. split; [apply pairs_length|reflexivity].
    + apply (@ncp_iterates Empty_set n [] l); [exact Hok|]. cbn. reflexivity.
Qed.

(** Accepted payloads in terms of lengths alone. *)
Lemma completed_packets_accepted p : bytes p -> (length p <= 255)%nat ->
  (exists ev, event_new F V (framed 0x13 p) = Ok ev) <->
  exists n bs, p = N.of_nat n :: bs /\ length bs = (4 * n)%nat.
Proof.
  intros Hb Hl. rewrite event_new_framed.
  change (event_dispatch F V 0x13 p)
    with (wrap V (to_number_of_completed_packets V p) EvNumberOfCompletedPackets).
  split.
  - intros [ev H]. apply wrap_ok in H. destruct H as (e & H & _). apply ncp_ok in H; [|exact Hl].
    destruct H as (n & bs & -> & H & _). exists n, bs. split; [reflexivity|lia].
  - intros (n & bs & -> & H).
    exists (EvNumberOfCompletedPackets (Build_number_of_completed_packets n (bs ++ zeros (254 - n * 4)))).
    apply wrap_ok. eexists. split; [|reflexivity]. apply ncp_ok; [exact Hl|].
    exists n, bs. split; [reflexivity|]. split; [lia|reflexivity].
Qed.

(** An accepted event iterates. *)
Lemma accepted_pairs_iterate pkt ev : bytes pkt ->
  event_new F V pkt = Ok (EvNumberOfCompletedPackets ev) ->
  exists l, iterates (@ncp_next Empty_set ev) O l /\ (length l <= 63)%nat
         /\ pkt = [0x13; N.of_nat (1 + 4 * length l); N.of_nat (length l)] ++ flat_map pair_bytes l.
Proof.
  intros Hb H. destruct (proj1 (event_new_ok F V pkt _) H) as (code & p & -> & D).
  assert (Hc : code = 0x13).
  { exact (proj1 (dispatch_ok F V code p _ D)). }
  subst code. assert (Hp := framed_bytes _ _ Hb). assert (Hl := framed_payload_length _ _ Hb).
  destruct (proj1 (completed_packets_accepted p Hp Hl) (ex_intro _ _ H)) as (n & bs & -> & Hn).
  destruct (pairs_exist n bs) as (l & Ln & Hok & ->); [bytes_inv; assumption|lia|].
  destruct (proj2 (completed_packets_packet (framed 0x13 (N.of_nat n :: flat_map pair_bytes l)) l Hb))
    as (ev' & H' & I).
  { split; [exact Hok|]. unfold framed. cbn [length]. rewrite Hn, Ln. reflexivity. }
  rewrite H in H'. injection H' as <-. exists l. split; [exact I|].
  cbn [length] in Hl. rewrite Hn in Hl. split; [lia|].
  unfold framed. cbn [length]. rewrite Hn, Ln. reflexivity.
Qed.

Lemma accepted_pairs_calls pkt ev : bytes pkt ->
  event_new F V pkt = Ok (EvNumberOfCompletedPackets ev) ->
  exists l, (length l <= 63)%nat
         /\ pkt = [0x13; N.of_nat (1 + 4 * length l); N.of_nat (length l)] ++ flat_map pair_bytes l
         /\ forall n, calls (@ncp_next Empty_set ev) n O = Ok (expected_calls n l).
Proof.
  intros Hb H. destruct (accepted_pairs_iterate pkt ev Hb H) as (l & I & Hl & E).
  exists l. split; [exact Hl|]. split; [exact E|]. exact (iterates_calls _ _ _ I).
Qed.

(** And the errors of the others. *)
Lemma completed_packets_errors p : (length p <= 255)%nat ->
  (p = [] -> event_new F V (framed 0x13 p) = Err (EBadLength 0 1))
  /\ (forall c bs, p = c :: bs -> length bs <> (4 * N.to_nat c)%nat ->
        event_new F V (framed 0x13 p) = Err (EBadLength (length p) (1 + 4 * N.to_nat c))).
Proof.
  intros Hl. split.
  - intros ->. reflexivity.
  - intros c bs -> H. rewrite event_new_framed.
    change (event_dispatch F V 0x13 (c :: bs))
      with (wrap V (to_number_of_completed_packets V (c :: bs)) EvNumberOfCompletedPackets).
    unfold wrap, to_number_of_completed_packets, require_len_at_least, require_len.
    cbn [length Nat.ltb Nat.leb bind idx nth_error].
    change NUM_COMPLETED_PACKETS_PAIR_LEN with 4%nat.
    destruct (Nat.eqb_spec (S (length bs)) (1 + N.to_nat c * 4)) as [K|K]; [lia|].
    cbn [bind]. do 2 f_equal. lia.
Qed.

(** ** LE Advertising Report: one step *)
Lemma advertisement_length a : advertisement_ok a ->
  length (advertisement_bytes a) = (10 + length (la_data a))%nat.
Proof.
  intros [Ha _]. unfold advertisement_bytes. rewrite !app_length.
  destruct (la_address a); cbn [address_bytes address_ok length] in *; lia.
Qed.

Lemma advertisements_length l : Forall advertisement_ok l ->
  (10 * length l <= length (flat_map advertisement_bytes l))%nat.
Proof.
  induction 1 as [|a l Ha _ IH]; [cbn; lia|].
  cbn [flat_map length]. rewrite app_length, advertisement_length by exact Ha. lia.
Qed.

Lemma rssi_of_byte b : byte b ->
  rssi_byte (if (u8_as_i8 b =? 127)%Z then None else Some (u8_as_i8 b)) = b
  /\ match (if (u8_as_i8 b =? 127)%Z then None else Some (u8_as_i8 b)) with
     | Some z => is_i8 z /\ z <> 127%Z | None => True end.
Proof.
  intros H. destruct (signed_of_byte b H) as [H1 H2].
  destruct (Z.eqb_spec (u8_as_i8 b) 127) as [E|E]; cbn.
  - split; [|exact I]. rewrite E in H2. now rewrite <- H2.
  - auto.
Qed.

Lemma byte_of_rssi r : match r with Some z => is_i8 z /\ z <> 127%Z | None => True end ->
  (if (u8_as_i8 (rssi_byte r) =? 127)%Z then None else Some (u8_as_i8 (rssi_byte r))) = r.
Proof.
  destruct r as [z|]; cbn.
  - intros [H1 H2]. destruct (byte_of_signed z H1) as [-> _].
    destruct (Z.eqb_spec z 127); [contradiction|reflexivity].
  - reflexivity.
Qed.

(** An entry that has its first 9 bytes. *)
Lemma entry_step pre et aty a0 a1 a2 a3 a4 a5 dl tail :
  let e := et :: aty :: a0 :: a1 :: a2 :: a3 :: a4 :: a5 :: dl :: tail in
  @lar_inner_next VE (pre ++ e) (length pre) =
  if Nat.ltb (length tail) (N.to_nat dl + 1) then Err ELeAdvertisementReportIncomplete else
  let! t := advertisement_event_try_from et in
  let! a := bd_addr_type_of aty [a0; a1; a2; a3; a4; a5] in
  let r := at_ tail (N.to_nat dl) in
  Ok (Some (Build_le_advertisement t a (firstn (N.to_nat dl) tail)
              (if (u8_as_i8 r =? 127)%Z then None else Some (u8_as_i8 r))),
      (length pre + (10 + N.to_nat dl))%nat).
Proof.
  intros e. unfold lar_inner_next.
  destruct (Nat.leb_spec (length (pre ++ e)) (length pre)) as [H|_].
  { rewrite app_length in H. cbn [length] in H. subst e. cbn [length] in H. lia. }
  rewrite <- !Nat.add_assoc. cbn [Nat.add].
  rewrite idx_app. cbn [idx nth_error e bind].
  rewrite app_length. set (d := N.to_nat dl).
  assert (Le : length e = (9 + length tail)%nat) by reflexivity.
  destruct (Nat.ltb_spec (length pre + length e) (length pre + 9 + d + 1));
    destruct (Nat.ltb_spec (length tail) (d + 1)); try lia; [reflexivity|].
  unfold array_at. rewrite slice_app.
  replace (@slice (event_error VE) e 2 8) with (@Ok (event_error VE) _ [a0; a1; a2; a3; a4; a5]).
  2:{ unfold slice. rewrite Le. reflexivity. }
  cbn [bind].
  change (copy_from_slice [a0; a1; a2; a3; a4; a5] (zeros 6))
    with (@Ok (event_error VE) _ [a0; a1; a2; a3; a4; a5]). cbn [bind].
  replace (@idx (event_error VE) (pre ++ e) (length pre)) with (@Ok (event_error VE) _ et).
  2:{ rewrite <- (Nat.add_0_r (length pre)), idx_app. reflexivity. }
  cbn [bind]. destruct (advertisement_event_try_from et) as [t| |]; cbn [bind]; try reflexivity.
  rewrite idx_app. cbn [idx nth_error e bind].
  destruct (bd_addr_type_of aty [a0; a1; a2; a3; a4; a5]) as [a| |]; cbn [bind]; try reflexivity.
  rewrite <- !Nat.add_assoc, slice_app, idx_app.
  replace (@slice (event_error VE) e 9 (9 + d)) with (@Ok (event_error VE) _ (firstn d tail)).
  2:{ unfold slice. rewrite Le. destruct (Nat.leb_spec (9 + d) (9 + length tail)); [|lia].
      destruct (Nat.leb_spec 9 (9 + d)); [|lia]. cbn [andb skipn e].
      now replace (9 + d - 9)%nat with d by lia. }
  cbn [bind].
  replace (@idx (event_error VE) e (9 + d)) with (@Ok (event_error VE) _ (at_ tail d)).
  2:{ unfold idx. cbn [Nat.add nth_error e]. rewrite (nth_error_nth' tail 0) by lia. reflexivity. }
  cbn [bind]. do 2 f_equal. lia.
Qed.

(** The end, and a fragment. *)
Lemma end_step pre : @lar_inner_next VE (pre ++ []) (length pre) = Ok (None, length pre).
Proof. unfold lar_inner_next. rewrite app_nil_r, Nat.leb_refl. reflexivity. Qed.

Lemma fragment_step pre (e : list N) : (1 <= length e <= 8)%nat ->
  @lar_inner_next VE (pre ++ e) (length pre) = Panic.
Proof.
  intros H. unfold lar_inner_next. rewrite app_length.
  destruct (Nat.leb_spec (length pre + length e) (length pre)); [lia|].
  rewrite <- !Nat.add_assoc, idx_app. cbn [Nat.add]. unfold idx.
  rewrite (proj2 (nth_error_None e 8)) by lia. reflexivity.
Qed.

Lemma entry_split (e : list N) : (9 <= length e)%nat ->
  exists et aty a0 a1 a2 a3 a4 a5 dl tail,
    e = et :: aty :: a0 :: a1 :: a2 :: a3 :: a4 :: a5 :: dl :: tail.
Proof.
  intros H. do 9 (destruct e as [|? e]; [cbn in H; lia|]). repeat eexists.
Qed.

Lemma address_six a : address_ok a -> exists t a0 a1 a2 a3 a4 a5,
  address_bytes a = [t; a0; a1; a2; a3; a4; a5] .
Proof.
  intros H. destruct a; cbn [address_bytes address_ok] in *; destruct_len H; repeat eexists.
Qed.

(** A complete entry is read back. *)
Lemma complete_step pre a post : advertisement_ok a ->
  @lar_inner_next VE (pre ++ advertisement_bytes a ++ post) (length pre)
  = Ok (Some a, length (pre ++ advertisement_bytes a)).
Proof.
  intros Hok. assert (Hlen := advertisement_length a Hok).
  destruct a as [t a d r]. destruct Hok as [Ha Hr]. unfold advertisement_bytes in *.
  cbn [la_event_type la_address la_data la_rssi] in *.
  destruct (address_six a Ha) as (ty & a0 & a1 & a2 & a3 & a4 & a5 & E).
  rewrite E. rewrite <- !app_assoc. cbn [app]. rewrite entry_step, Nat2N.id.
  assert (L : length (d ++ rssi_byte r :: post) = (length d + 1 + length post)%nat)
    by (rewrite app_length; cbn [length]; lia).
  rewrite L. destruct (Nat.ltb_spec (length d + 1 + length post) (length d + 1)); [lia|].
  rewrite (proj2 (advertisement_event_ok _ t) eq_refl). cbn [bind].
  rewrite (proj2 (bd_addr_type_ok_iff ty _ a)) by (symmetry; exact E). cbn [bind].
  unfold at_. rewrite app_nth2, Nat.sub_diag by lia. cbn [nth].
  rewrite byte_of_rssi by exact Hr.
  rewrite firstn_all_app by reflexivity. do 3 f_equal.
  rewrite app_length. f_equal. rewrite E in Hlen. cbn [app] in Hlen. cbn [app]. lia.
Qed.

(** Any entry: what happens, by the checks. *)
Lemma entry_result pre e : bytes e -> (9 <= length e)%nat ->
  match first_error (entry_checks V e) with
  | Some er => @lar_inner_next VE (pre ++ e) (length pre) = Err er
  | None => exists a post, advertisement_ok a /\ e = advertisement_bytes a ++ post
  end.
Proof.
  intros Hb H. destruct (entry_split e H) as (et & aty & a0 & a1 & a2 & a3 & a4 & a5 & dl & tail & ->).
  rewrite entry_step. unfold entry_checks. cbn [first_error at_ nth length].
  unfold at_. cbn [nth].
  set (d := N.to_nat dl).
  destruct (Nat.ltb_spec (S (S (S (S (S (S (S (S (S (length tail)))))))))) (9 + d + 1)) as [C1|C1];
    destruct (Nat.ltb_spec (length tail) (d + 1)); try lia; [reflexivity|].
  unfold code_is. destruct (N.leb_spec et 4) as [C2|C2].
  2:{ unfold advertisement_event_try_from.
      do 5 (match goal with |- context [et =? ?c] => destruct (N.eqb_spec et c); [lia|] end).
      reflexivity. }
  destruct (advertisement_event_try_from (VE:=VE) et) as [t|er|] eqn:Et.
  2-3: exfalso; unfold advertisement_event_try_from in Et;
    repeat match type of Et with context [?b =? ?c] =>
      destruct (N.eqb_spec b c); [discriminate|] end; lia.
  apply advertisement_event_ok in Et. cbn [bind].
  destruct (N.leb_spec aty 1) as [C3|C3].
  2:{ unfold bd_addr_type_of, to_bd_addr_type.
      destruct (N.eqb_spec aty 0); [lia|]. destruct (N.eqb_spec aty 1); [lia|]. reflexivity. }
  assert (Ha : exists a, aty :: [a0; a1; a2; a3; a4; a5] = address_bytes a /\ address_ok a).
  { assert (C : aty = 0 \/ aty = 1) by lia.
    destruct C as [-> | ->]; [exists (BdPublic [a0; a1; a2; a3; a4; a5])|exists (BdRandom [a0; a1; a2; a3; a4; a5])];
      split; reflexivity. }
  destruct Ha as (a & Ea & Ha).
  bytes_inv.
  assert (Hr : byte (nth d tail 0)).
  { assert (In (nth d tail 0) tail) by (apply nth_In; lia).
    match goal with K : bytes tail |- _ => unfold bytes in K; rewrite Forall_forall in K; auto end. }
  destruct (rssi_of_byte _ Hr) as [R1 R2].
  set (rssi := if (u8_as_i8 (nth d tail 0%N) =? 127)%Z then None else Some (u8_as_i8 (nth d tail 0))) in *.
  exists (Build_le_advertisement t a (firstn d tail) rssi), (skipn (d + 1) tail).
  split; [split; [exact Ha|exact R2]|].
  unfold advertisement_bytes. cbn [la_event_type la_address la_data la_rssi].
  rewrite <- Ea, <- Et, R1, firstn_length, Nat.min_l by lia.
  subst d. rewrite N2Nat.id. cbn [app]. do 9 f_equal.
  rewrite <- !app_assoc. cbn [app].
  rewrite <- (firstn_skipn (N.to_nat dl) tail) at 1. f_equal.
  apply skipn_nth. lia.
Qed.

(** ** The whole report *)
Lemma entry_bytes_pos e : bytes e -> (9 <= length e)%nat -> first_error (entry_checks V e) = None ->
  exists a post, advertisement_ok a /\ e = advertisement_bytes a ++ post.
Proof. intros Hb H E. assert (K := entry_result [] e Hb H). now rewrite E in K. Qed.

(** The check loop ends within its fuel, with one of three results. *)
Lemma check_result fuel pre data : bytes data -> (length data < fuel)%nat ->
  exists l tail, entries_then l tail data /\
  ((tail = [] /\ @lar_check VE fuel (pre ++ data) (length pre) = Some (Ok tt))
   \/ ((1 <= length tail <= 8)%nat /\ @lar_check VE fuel (pre ++ data) (length pre) = Some Panic)
   \/ ((9 <= length tail)%nat /\ exists e, first_error (entry_checks V tail) = Some e
        /\ @lar_check VE fuel (pre ++ data) (length pre) = Some (Err e))).
Proof.
  revert pre data. induction fuel as [|fuel IH]; intros pre data Hb Hf; [lia|].
  destruct data as [|d0 data']; [|set (data := d0 :: data') in *].
  - exists [], []. split; [split; constructor|]. left. split; [reflexivity|].
    cbn [lar_check]. now rewrite end_step.
  - destruct (le_lt_dec 9 (length data)) as [H9|H9].
    + assert (K := entry_result pre data Hb H9).
      destruct (first_error (entry_checks V data)) as [er|] eqn:E.
      * exists [], data. split; [split; [constructor|reflexivity]|]. right. right.
        split; [exact H9|]. exists er. split; [exact E|]. cbn [lar_check]. now rewrite K.
      * destruct K as (a & post & Ha & K). rewrite K in *.
        assert (La := advertisement_length a Ha). bytes_inv.
        rewrite app_length in Hf.
        destruct (IH (pre ++ advertisement_bytes a) post) as (l & tail & [Hl ->] & R); [assumption|lia|].
        exists (a :: l), tail. split.
        { split; [now constructor|]. cbn [flat_map]. now rewrite app_assoc. }
        cbn [lar_check]. rewrite complete_step by exact Ha.
        rewrite app_assoc. exact R.
    + exists [], data. split; [split; [constructor|reflexivity]|]. right. left.
      assert (length data = S (length data')) by reflexivity.
      split; [lia|]. cbn [lar_check]. rewrite fragment_step by lia. reflexivity.
Qed.

(** The fuel is enough (promised in Model_Event.v). *)
Lemma lar_check_terminates data : bytes data ->
  @lar_check VE (S (length data)) data 0 <> None.
Proof.
  intros Hb. destruct (check_result (S (length data)) [] data Hb) as (l & tail & _ & R); [lia|].
  cbn [app length] in R. destruct R as [[_ R]|[[_ R]|[_ (e & _ & R)]]]; rewrite R; discriminate.
Qed.

Lemma lar_iterates pre l : Forall advertisement_ok l ->
  forall buf, buf = pre ++ flat_map advertisement_bytes l ->
  iterates (fun i => match @lar_inner_next VE buf i with
                     | Ok x => @Ok Empty_set _ x | _ => Panic end) (length pre) l.
Proof.
  intros H. revert pre. induction H as [|a l Ha _ IH]; intros pre buf ->.
  - apply iterates_end. cbn [flat_map]. now rewrite end_step.
  - eapply iterates_next.
    + cbn [flat_map]. rewrite complete_step by exact Ha. reflexivity.
    + apply IH. cbn [flat_map]. now rewrite app_assoc.
Qed.

(** Splitting data into entries is unambiguous. *)
Lemma entries_unique l1 t1 l2 t2 :
  Forall advertisement_ok l1 -> Forall advertisement_ok l2 ->
  (length t1 < 9)%nat \/ first_error (entry_checks V t1) <> None ->
  (length t2 < 9)%nat \/ first_error (entry_checks V t2) <> None ->
  bytes (flat_map advertisement_bytes l1 ++ t1) ->
  flat_map advertisement_bytes l1 ++ t1 = flat_map advertisement_bytes l2 ++ t2 ->
  l1 = l2 /\ t1 = t2.
Proof.
  assert (One : forall a post t, advertisement_ok a -> bytes t ->
    (length t < 9)%nat \/ first_error (entry_checks V t) <> None ->
    t <> advertisement_bytes a ++ post).
  { intros a post t Ha Hb [H|H] E.
    - rewrite E, app_length, advertisement_length in H by exact Ha. lia.
    - apply H. assert (Ht : (9 <= length t)%nat)
        by (rewrite E, app_length, advertisement_length by exact Ha; lia).
      assert (K := entry_result [] t Hb Ht). destruct (first_error _); [|reflexivity].
      rewrite E, (complete_step [] a post Ha) in K. discriminate. }
  intros H1. revert l2. induction H1 as [|a l1 Ha _ IH]; intros l2 H2 T1 T2 Hb E.
  - destruct H2 as [|b l2 Hb2 _]; cbn [flat_map app] in *; [auto|].
    exfalso. rewrite <- app_assoc in E. now apply One in E.
  - destruct H2 as [|b l2 Hb2 H2]; cbn [flat_map app] in E.
    + exfalso. cbn [flat_map] in Hb. rewrite E in Hb.
      rewrite <- app_assoc in E. symmetry in E. now apply One in E.
    + rewrite <- !app_assoc in E.
      assert (S1 := complete_step [] a (flat_map advertisement_bytes l1 ++ t1) Ha).
      assert (S2 := complete_step [] b (flat_map advertisement_bytes l2 ++ t2) Hb2).
      cbn [app] in S1, S2. rewrite E, S2 in S1. injection S1 as -> L.
      apply app_inv_head in E. cbn [flat_map] in Hb. rewrite <- app_assoc in Hb. bytes_inv.
      destruct (IH l2 H2 T1 T2) as [-> ->]; auto. now apply bytes_app.
Qed.

(** What decoding the report gives. *)
Lemma report_result sub count data : bytes data -> (length data <= 253)%nat ->
  exists l tail, entries_then l tail data /\
  ((tail = [] /\ @to_le_advertising_report VE (sub :: count :: data)
      = Ok (Build_le_advertising_report (length data) (data ++ zeros (253 - length data))))
   \/ ((1 <= length tail <= 8)%nat /\ @to_le_advertising_report VE (sub :: count :: data) = Panic)
   \/ ((9 <= length tail)%nat /\ exists e, first_error (entry_checks V tail) = Some e
        /\ @to_le_advertising_report VE (sub :: count :: data) = Err e)).
Proof.
  intros Hb Hl. destruct (check_result (S (length data)) [] data Hb) as (l & tail & Hlt & R); [lia|].
  exists l, tail. split; [exact Hlt|]. cbn [app length] in R.
  unfold to_le_advertising_report, slice_from. cbn [length Nat.leb bind skipn Nat.sub].
  rewrite Nat.sub_0_r.
  destruct R as [[-> R]|[[Ht R]|[Ht (e & E & R)]]]; rewrite R; cbn [bind].
  - left. split; [reflexivity|]. change MAX_ADVERTISING_REPORT_LEN with 253%nat.
    now rewrite fill_front by lia.
  - right. left. auto.
  - right. right. split; [exact Ht|]. exists e. auto.
Qed.

Lemma lar_next_inner data i :
  (length data <= 253)%nat ->
  @lar_next Empty_set (Build_le_advertising_report (length data) (data ++ zeros (253 - length data))) i
  = match @lar_inner_next VE data i with Ok x => Ok x | _ => Panic end.
Proof.
  intros H. unfold lar_next, lar_event_data. cbn [lar_data_buf lar_data_len].
  unfold slice. rewrite app_length. unfold zeros. rewrite repeat_length.
  destruct (Nat.leb_spec (length data) (length data + (253 - length data))); [|lia].
  cbn [Nat.leb andb bind skipn]. rewrite Nat.sub_0_r, firstn_all_app by reflexivity.
  unfold lar_inner_next, advertisement_event_try_from, bd_addr_type_of, array_at, idx, slice,
    copy_from_slice, to_bd_addr_type.
  repeat (match goal with |- context [if ?c then _ else _] => destruct c
          | |- context [match nth_error ?a ?b with _ => _ end] => destruct (nth_error a b) end;
          cbn [bind map_err]; try reflexivity).
Qed.

(** The accepted packets, with what iteration yields. *)
Lemma advertising_report_packet pkt l : bytes pkt ->
  ((exists r, event_new F V pkt = Ok (EvLeAdvertisingReport r)
      /\ iterates (@lar_next Empty_set r) O l)
   <-> Forall advertisement_ok l /\ exists count,
       pkt = [0x3E; N.of_nat (2 + length (flat_map advertisement_bytes l)); 0x02; count]
             ++ flat_map advertisement_bytes l).
Proof.
  intros Hb.
  assert (Iter : forall data l', (length data <= 253)%nat -> entries_then l' [] data ->
    iterates (@lar_next Empty_set
      (Build_le_advertising_report (length data) (data ++ zeros (253 - length data)))) O l').
  { intros data l' Hd [Hok E]. rewrite app_nil_r in E.
    assert (K := lar_iterates [] l' Hok data E). cbn [length] in K.
    eapply iterates_ext; [|exact K]. intros s. now apply lar_next_inner. }
  split.
  - intros (r & H & Hit). apply event_new_ok in H. destruct H as (code & p & -> & H).
    assert (Hl := framed_payload_length _ _ Hb). apply framed_bytes in Hb.
    apply dispatch_ok in H. destruct H as [-> H].
    apply meta_ok in H. destruct H as (c & rest & -> & -> & H).
    destruct rest as [|count data]; [discriminate|].
    cbn [length] in Hl. bytes_inv.
    destruct (report_result 2 count data) as (l' & tail & Hlt & R); [assumption|lia|].
    rewrite H in R.
    destruct R as [[-> R]|[[_ R]|[_ (e & _ & R)]]]; try discriminate. injection R as ->.
    assert (l = l') by (eapply iterates_inj; [exact Hit|apply Iter; [lia|exact Hlt]]). subst l'.
    destruct Hlt as [Hok ->]. rewrite app_nil_r in *.
    split; [exact Hok|]. exists count. reflexivity.
  - intros (Hok & count & ->). set (data := flat_map advertisement_bytes l) in *.
    assert (Efr : [0x3E; N.of_nat (2 + length data); 0x02; count] ++ data
                  = framed 0x3E (2 :: count :: data)) by reflexivity.
    rewrite Efr in *. assert (Hl := framed_payload_length _ _ Hb). apply framed_bytes in Hb.
    cbn [length] in Hl. bytes_inv. assert (Hd : (length data <= 253)%nat) by lia.
    exists (Build_le_advertising_report (length data) (data ++ zeros (253 - length data))).
    split.
    + rewrite event_new_framed.
      change (event_dispatch F V 62 (2 :: count :: data))
        with (wrap V (to_le_advertising_report (2 :: count :: data)) (@EvLeAdvertisingReport V)).
      apply wrap_ok. eexists. split; [|reflexivity].
      destruct (report_result 2 count data) as (l' & tail & [Hok' E'] & R); [assumption|lia|].
      assert (U : l = l' /\ [] = tail).
      { apply entries_unique; try assumption.
        - left. cbn. lia.
        - destruct R as [[-> _]|[[? _]|[? (e & R & _)]]]; [left; cbn; lia|left; lia|].
          right. rewrite R. discriminate.
        - rewrite app_nil_r. assumption.
        - rewrite app_nil_r. exact E'. }
      destruct U as [<- <-].
      destruct R as [[_ R]|[[R _]|[R _]]]; [exact R|cbn in R; lia|cbn in R; lia].
    + apply Iter; [exact Hd|]. split; [exact Hok|]. now rewrite app_nil_r.
Qed.

(** Every accepted report can be iterated to the end. *)
Lemma accepted_report_iterates pkt r : bytes pkt ->
  event_new F V pkt = Ok (EvLeAdvertisingReport r) ->
  exists l, iterates (@lar_next Empty_set r) O l /\ (length l <= 25)%nat.
Proof.
  intros Hb H. assert (H0 := H).
  apply event_new_ok in H. destruct H as (code & p & -> & H). assert (Hb0 := Hb).
  assert (Hl := framed_payload_length _ _ Hb). apply framed_bytes in Hb.
  apply dispatch_ok in H. destruct H as [-> H].
  apply meta_ok in H. destruct H as (c & rest & -> & -> & H).
  destruct rest as [|count data]; [discriminate|].
  cbn [length] in Hl. bytes_inv.
  destruct (report_result 2 count data) as (l & tail & Hlt & R); [assumption|lia|].
  rewrite H in R. destruct R as [[-> R]|[[_ R]|[_ (e & _ & R)]]]; try discriminate.
  destruct Hlt as [Hok E]. rewrite app_nil_r in E.
  destruct (proj2 (advertising_report_packet (framed 62 (2 :: count :: data)) l Hb0)) as (r' & H' & It).
  { split; [exact Hok|]. exists count. now rewrite E. }
  rewrite H0 in H'. injection H' as <-. exists l. split; [exact It|].
  assert (K := advertisements_length l Hok). rewrite <- E in K. lia.
Qed.

Lemma accepted_report_calls pkt r : bytes pkt ->
  event_new F V pkt = Ok (EvLeAdvertisingReport r) ->
  exists l, (length l <= 25)%nat
         /\ forall n, calls (@lar_next Empty_set r) n O = Ok (expected_calls n l).
Proof.
  intros Hb H. destruct (accepted_report_iterates pkt r Hb H) as (l & I & Hl).
  exists l. split; [exact Hl|]. exact (iterates_calls _ _ _ I).
Qed.

(** Packets on which decoding the report panics or fails. *)
Lemma advertising_report_failures data : bytes data -> (length data <= 253)%nat ->
  forall count,
  (event_new F V (framed 0x3E (0x02 :: count :: data)) = Panic <->
     exists l tail, entries_then l tail data /\ (1 <= length tail <= 8)%nat)
  /\ (forall e, event_new F V (framed 0x3E (0x02 :: count :: data)) = Err e <->
     exists l tail, entries_then l tail data /\ (9 <= length tail)%nat
       /\ first_error (entry_checks V tail) = Some e).
Proof.
  intros Hb Hl count. rewrite event_new_framed.
  change (event_dispatch F V 62 (2 :: count :: data))
    with (wrap V (to_le_advertising_report (2 :: count :: data)) (@EvLeAdvertisingReport V)).
  destruct (report_result 2 count data Hb Hl) as (l & tail & Hlt & R).
  assert (St : (length tail < 9)%nat \/ first_error (entry_checks V tail) <> None).
  { destruct R as [[-> _]|[[? _]|[? (e & R & _)]]]; [left; cbn; lia|left; lia|].
    right. rewrite R. discriminate. }
  assert (U : forall l' tail', entries_then l' tail' data ->
    (length tail' < 9)%nat \/ first_error (entry_checks V tail') <> None -> tail = tail').
  { intros l' tail' [Hok' E'] St'. destruct Hlt as [Hok E].
    eapply (entries_unique l tail l' tail'); try assumption; congruence. }
  unfold wrap. split; [|intros er].
  - split.
    + intros H. exists l, tail. split; [exact Hlt|].
      destruct R as [[_ R]|[[? R]|[_ (e & _ & R)]]]; rewrite R in H; try discriminate. assumption.
    + intros (l' & tail' & Hlt' & Ht). rewrite <- (U l' tail' Hlt') in Ht by (left; lia).
      destruct R as [[-> R]|[[_ R]|[? _]]]; [cbn in Ht; lia|now rewrite R|lia].
  - split.
    + intros H. exists l, tail. split; [exact Hlt|].
      destruct R as [[_ R]|[[? R]|[? (e & E & R)]]]; rewrite R in H; try discriminate.
      injection H as <-. auto.
    + intros (l' & tail' & Hlt' & Ht & E). assert (tail = tail') by (apply (U l' tail' Hlt'); right; congruence).
      subst tail'.
      destruct R as [[-> R]|[[? R]|[? (e & E' & R)]]]; [cbn in Ht; lia|lia|].
      rewrite R. cbn. congruence.
Qed.

End Report.
