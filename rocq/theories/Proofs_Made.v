(** * Reports made from advertisements. *)
From Verif Require Import Base Model_Types Model_EventBase Model_Command Model_Event
  Spec_Wire Spec_Errors Spec_Report Spec_Made Spec_Example Proofs_Base Proofs_Event Proofs_Report Proofs_Adv
  Proofs_Host.

Lemma reported_ok a : advertisement_typed a -> advertisement_ok (as_reported a).
Proof.
  intros (H1 & H2 & H3). unfold as_reported, advertisement_ok. cbn. split.
  - destruct (la_address a); cbn; tauto.
  - destruct (la_rssi a) as [z|]; cbn; [|exact I].
    destruct (Z.eqb_spec z 127); [exact I|]. auto.
Qed.

Lemma reported_bytes a : advertisement_bytes (as_reported a) = advertisement_bytes a.
Proof.
  unfold as_reported, advertisement_bytes. cbn [la_event_type la_address la_data la_rssi].
  do 4 f_equal. f_equal. destruct (la_rssi a) as [z|]; [|reflexivity].
  cbn. destruct (Z.eqb_spec z 127) as [->|_]; reflexivity.
Qed.

Lemma reported_all l : flat_map advertisement_bytes (map as_reported l) = flat_map advertisement_bytes l.
Proof. induction l as [|a l IH]; [reflexivity|]. cbn [map flat_map]. now rewrite reported_bytes, IH. Qed.

Lemma size_bytes a : advertisement_typed a -> length (advertisement_bytes a) = advertisement_size a.
Proof.
  intros H. rewrite <- reported_bytes, advertisement_length by now apply reported_ok.
  cbn [as_reported la_data]. unfold advertisement_size. lia.
Qed.
Lemma report_size_bytes l : Forall advertisement_typed l ->
  length (flat_map advertisement_bytes l) = report_size l.
Proof.
  induction 1 as [|a l Ha _ IH]; [reflexivity|].
  unfold report_size. cbn [flat_map map list_sum fold_right].
  rewrite app_length, size_bytes, IH by exact Ha. reflexivity.
Qed.

Lemma signed_i8 z : is_i8 z -> i8_as_u8 z = signed z.
Proof. unfold is_i8, i8_as_u8, signed. intros H. destruct (Z.ltb_spec z 0); f_equal; lia. Qed.

Lemma bytes_typed a : advertisement_typed a -> (length (la_data a) <= 255)%nat ->
  bytes (advertisement_bytes a).
Proof.
  intros (H1 & H2 & H3) Hl. unfold advertisement_bytes, bytes.
  apply Forall_app. split.
  { constructor; [|constructor]. destruct (la_event_type a); reflexivity. }
  apply Forall_app. split.
  { destruct (la_address a) as [x|x]; cbn; (constructor; [reflexivity|apply H1]). }
  apply Forall_app. split; [constructor; [unfold byte; lia|constructor]|].
  apply Forall_app. split; [exact H2|]. constructor; [|constructor].
  destruct (la_rssi a) as [z|]; cbn; [|reflexivity].
  unfold signed, is_i8, byte in *. lia.
Qed.

(** The address, in a slice of 7 bytes. *)
Lemma address_copied {E} a buf : address_ok a -> length buf = 7%nat ->
  @bd_addr_type_copy E a buf = Ok (address_bytes a).
Proof.
  intros Ha Hb. do 7 (destruct buf as [|? buf]; [discriminate|]). destruct buf; [|discriminate].
  destruct a as [x|x]; cbn in Ha; do 6 (destruct x as [|? x]; [discriminate|]);
    (destruct x; [|discriminate]); reflexivity.
Qed.

Lemma set_at {E} pre post v : (0 < length post)%nat ->
  @set_idx E (pre ++ post) (length pre) v = Ok ((pre ++ [v]) ++ skipn 1 post).
Proof.
  intros H. destruct post as [|x post]; [cbn in H; lia|].
  rewrite set_idx_mid by reflexivity. cbn [skipn]. now rewrite <- app_assoc.
Qed.
Lemma update_at {E} pre post n f (m : list N) : (n <= length post)%nat ->
  f (firstn n post) = @Ok E _ m ->
  update_range (pre ++ post) (length pre) (length pre + n) f = Ok ((pre ++ m) ++ skipn n post).
Proof.
  intros H Hf. rewrite <- (firstn_skipn n post) at 1.
  rewrite update_range_app; [|reflexivity|now rewrite firstn_length_le].
  rewrite Hf. now rewrite <- app_assoc.
Qed.

(** One advertisement that fits. *)
Lemma loop_step {E} a rest pre post : advertisement_typed a -> (length (la_data a) <= 255)%nat ->
  (advertisement_size a <= length post)%nat ->
  @report_loop E (a :: rest) (length pre) (pre ++ post)
  = report_loop rest (length (pre ++ advertisement_bytes a))
      ((pre ++ advertisement_bytes a) ++ skipn (advertisement_size a) post).
Proof.
  intros Ht Hd Hs. assert (Hl := size_bytes a Ht).
  destruct Ht as (H1 & H2 & H3). unfold advertisement_size in Hs.
  cbn [report_loop].
  rewrite set_at by lia. cbn [bind].
  replace (1 + length pre)%nat with (length (pre ++ [advertisement_event_as_u8 (la_event_type a)]))
    by (rewrite app_length; cbn; lia).
  set (p1 := pre ++ [_]). set (q1 := skipn 1 post).
  assert (L1 : length q1 = (length post - 1)%nat) by apply skipn_length.
  replace (7 + length p1)%nat with (length p1 + 7)%nat by lia.
  rewrite (update_at p1 q1 7 _ (address_bytes (la_address a))); [|lia|].
  2:{ apply address_copied; [destruct (la_address a); apply H1|]. rewrite firstn_length_le by lia. reflexivity. }
  cbn [bind].
  assert (L7 : length (address_bytes (la_address a)) = 7%nat).
  { destruct (la_address a); cbn; destruct H1 as [-> _]; reflexivity. }
  replace (length p1 + 7)%nat with (length (p1 ++ address_bytes (la_address a)))
    by (rewrite app_length; lia).
  set (p2 := p1 ++ address_bytes (la_address a)). set (q2 := skipn 7 q1).
  assert (L2 : length q2 = (length q1 - 7)%nat) by apply skipn_length.
  rewrite set_at by lia. cbn [bind].
  set (n8 := as_u8 (N.of_nat (length (la_data a)))).
  replace (1 + length p2)%nat with (length (p2 ++ [n8])) by (rewrite app_length; cbn; lia).
  set (p3 := p2 ++ [n8]). set (q3 := skipn 1 q2).
  assert (L3 : length q3 = (length q2 - 1)%nat) by apply skipn_length.
  rewrite (update_at p3 q3 (length (la_data a)) _ (la_data a)); [|lia|].
  2:{ unfold copy_from_slice. rewrite firstn_length_le, Nat.eqb_refl by lia. reflexivity. }
  cbn [bind].
  replace (length p3 + length (la_data a))%nat with (length (p3 ++ la_data a))
    by (rewrite app_length; lia).
  set (p4 := p3 ++ la_data a). set (q4 := skipn (length (la_data a)) q3).
  assert (L4 : length q4 = (length q3 - length (la_data a))%nat) by apply skipn_length.
  rewrite set_at by lia. cbn [bind].
  assert (Er : i8_as_u8 match la_rssi a with Some r => r | None => 127%Z end = rssi_byte (la_rssi a)).
  { destruct (la_rssi a); [now apply signed_i8|reflexivity]. }
  rewrite Er.
  assert (En : n8 = N.of_nat (length (la_data a))).
  { unfold n8, as_u8. apply N.mod_small. lia. }
  assert (EP : p4 ++ [rssi_byte (la_rssi a)] = pre ++ advertisement_bytes a).
  { unfold p4, p3, p2, p1, advertisement_bytes. rewrite En.
    assert (Ee : advertisement_event_as_u8 (la_event_type a) = advertisement_event_code (la_event_type a))
      by (destruct (la_event_type a); reflexivity).
    rewrite Ee. repeat rewrite <- app_assoc. reflexivity. }
  rewrite EP.
  replace (1 + length p4)%nat with (length (pre ++ advertisement_bytes a))
    by (rewrite <- EP, app_length; cbn; lia).
  do 2 f_equal. unfold q4, q3, q2, q1. rewrite !skipn_plus. f_equal.
Qed.

Lemma loop_fits {E} l : Forall advertisement_typed l -> forall pre post,
  (report_size l <= length post)%nat -> (length post <= 253)%nat ->
  @report_loop E l (length pre) (pre ++ post)
  = Ok (Build_le_advertising_report (length (pre ++ flat_map advertisement_bytes l))
          ((pre ++ flat_map advertisement_bytes l) ++ skipn (report_size l) post)).
Proof.
  induction 1 as [|a l Ha Hl IH]; intros pre post Hs Hp.
  - cbn [report_loop flat_map]. now rewrite !app_nil_r.
  - unfold report_size in *. cbn [map list_sum fold_right] in *.
    fold (list_sum (map advertisement_size l)) in *.
    rewrite loop_step; [|exact Ha|unfold advertisement_size in Hs; lia|lia].
    rewrite IH.
    + cbn [flat_map]. rewrite !app_assoc, skipn_plus. reflexivity.
    + rewrite skipn_length. lia.
    + rewrite skipn_length. lia.
Qed.

(** One that does not. *)
Lemma set_idx_len {E} buf i v buf' : @set_idx E buf i v = Ok buf' -> length buf' = length buf.
Proof.
  unfold set_idx. destruct (Nat.ltb_spec i (length buf)); [|discriminate]. intros K.
  assert (firstn i buf ++ v :: skipn (S i) buf = buf') as <- by congruence.
  rewrite app_length. cbn [length]. rewrite firstn_length, skipn_length. lia.
Qed.
Lemma update_range_len {E} buf a b f buf' :
  (forall s s', f s = @Ok E _ s' -> length s' = length s) ->
  update_range buf a b f = Ok buf' -> length buf' = length buf.
Proof.
  intros Hf. unfold update_range, slice.
  destruct (Nat.leb_spec a b); [|discriminate]. destruct (Nat.leb_spec b (length buf)); [|discriminate].
  cbn [andb bind]. destruct (f _) eqn:Ef; cbn [bind]; try discriminate. intros [= <-].
  apply Hf in Ef. rewrite !app_length, Ef, !firstn_length, !skipn_length. lia.
Qed.
Lemma copy_len {E} src dst d : @copy_from_slice E src dst = Ok d -> length d = length dst.
Proof. unfold copy_from_slice. destruct (Nat.eqb_spec (length dst) (length src)); [|discriminate]. now intros [= <-]. Qed.
Lemma set_idx_cases {E} buf i v : @set_idx E buf i v = Panic \/ exists b, @set_idx E buf i v = Ok b.
Proof. unfold set_idx. destruct (Nat.ltb _ _); eauto. Qed.
Lemma copy_cases {E} src dst : @copy_from_slice E src dst = Panic \/ exists b, @copy_from_slice E src dst = Ok b.
Proof. unfold copy_from_slice. destruct (Nat.eqb _ _); eauto. Qed.
Lemma range_cases {E} buf a b f : (forall s, f s = Panic \/ exists b, f s = @Ok E _ b) ->
  update_range buf a b f = Panic \/ exists x, update_range buf a b f = Ok x.
Proof.
  intros Hf. unfold update_range, slice. destruct (_ && _); cbn; [|now left].
  destruct (Hf (firstn (b - a) (skipn a buf))) as [->|[x ->]]; cbn; eauto.
Qed.
Lemma address_cases {E} a buf : @bd_addr_type_copy E a buf = Panic \/ exists b, @bd_addr_type_copy E a buf = Ok b.
Proof.
  unfold bd_addr_type_copy, assert. destruct (Nat.eqb _ _); cbn; [|now left].
  destruct a as [x|x].
  - destruct (@set_idx_cases E buf 0 0) as [->|[b ->]]; cbn; [now left|]. apply range_cases, copy_cases.
  - destruct (@set_idx_cases E buf 0 1) as [->|[b ->]]; cbn; [now left|]. apply range_cases, copy_cases.
Qed.
Lemma address_len {E} a buf b : @bd_addr_type_copy E a buf = Ok b -> length b = length buf.
Proof.
  unfold bd_addr_type_copy, assert. destruct (Nat.eqb _ _); cbn; [|discriminate].
  destruct a as [x|x].
  - destruct (set_idx buf 0 0) eqn:E1; cbn; try discriminate.
    intros H. apply update_range_len in H; [|apply copy_len]. apply set_idx_len in E1. congruence.
  - destruct (set_idx buf 0 1) eqn:E1; cbn; try discriminate.
    intros H. apply update_range_len in H; [|apply copy_len]. apply set_idx_len in E1. congruence.
Qed.

Lemma loop_too_big {E} a rest n buf : (length buf < n + advertisement_size a)%nat ->
  @report_loop E (a :: rest) n buf = Panic.
Proof.
  intros H. unfold advertisement_size in H. cbn [report_loop].
  destruct (@set_idx_cases E buf n (advertisement_event_as_u8 (la_event_type a))) as [R|[b1 R]];
    rewrite R; cbn [bind]; [reflexivity|]. apply set_idx_len in R.
  destruct (@range_cases E b1 (1 + n) (7 + (1 + n)) (bd_addr_type_copy (la_address a))) as [R2|[b2 R2]];
    [apply address_cases|rewrite R2; reflexivity|]. rewrite R2. cbn [bind].
  apply update_range_len in R2; [|apply address_len].
  destruct (@set_idx_cases E b2 (7 + (1 + n)) (as_u8 (N.of_nat (length (la_data a))))) as [R3|[b3 R3]];
    rewrite R3; cbn [bind]; [reflexivity|]. apply set_idx_len in R3.
  set (i := (1 + (7 + (1 + n)))%nat) in *.
  destruct (@range_cases E b3 i (i + length (la_data a)) (copy_from_slice (la_data a))) as [R4|[b4 R4]];
    [apply copy_cases|rewrite R4; reflexivity|]. rewrite R4. cbn [bind].
  apply update_range_len in R4; [|apply copy_len].
  unfold set_idx. replace (Nat.ltb (i + length (la_data a)) (length b4)) with false; [reflexivity|].
  symmetry. apply Nat.ltb_ge. unfold i. lia.
Qed.

Lemma loop_overflows {E} l : Forall advertisement_typed l -> forall pre post,
  (length post < report_size l)%nat -> (length post <= 253)%nat ->
  @report_loop E l (length pre) (pre ++ post) = Panic.
Proof.
  induction 1 as [|a l Ha Hl IH]; intros pre post Hs Hp.
  - cbn in Hs. lia.
  - unfold report_size in *. cbn [map list_sum fold_right] in *.
    fold (list_sum (map advertisement_size l)) in *.
    destruct (Nat.le_gt_cases (advertisement_size a) (length post)) as [Hf|Hf].
    + rewrite loop_step; [|exact Ha|unfold advertisement_size in Hf; lia|exact Hf].
      apply IH; rewrite skipn_length; lia.
    + apply loop_too_big. rewrite app_length. lia.
Qed.

Lemma report_too_big {E} l : Forall advertisement_typed l ->
  (@report_with_advertisements E l = Panic <-> (report_room < report_size l)%nat).
Proof.
  intros Ht. unfold report_with_advertisements, report_room.
  change MAX_ADVERTISING_REPORT_LEN with 253%nat.
  change (report_loop l 0 (zeros 253)) with (@report_loop E l (length (@nil N)) ([] ++ zeros 253)).
  destruct (Nat.le_gt_cases (report_size l) 253) as [H|H].
  - rewrite loop_fits; [|exact Ht|cbn [length zeros repeat]; exact H|cbn; lia].
    split; [discriminate|lia].
  - rewrite loop_overflows; [|exact Ht|cbn [length zeros repeat]; exact H|cbn; lia].
    split; [lia|reflexivity].
Qed.

Lemma skipn_zeros n : skipn n (zeros 253) = zeros (253 - n).
Proof.
  unfold zeros. generalize 253%nat. induction n as [|n IH]; intros m; [now rewrite Nat.sub_0_r|].
  destruct m; [reflexivity|]. cbn [repeat skipn Nat.sub]. apply IH.
Qed.

Lemma report_made {E} l : Forall advertisement_typed l -> (report_size l <= report_room)%nat ->
  exists r, @report_with_advertisements E l = Ok r
    /\ iterates (@lar_next Empty_set r) O (map as_reported l)
    /\ forall F V count, byte count ->
       event_new F V ([0x3E; N.of_nat (2 + report_size l); 0x02; count] ++ flat_map advertisement_bytes l)
       = Ok (EvLeAdvertisingReport r).
Proof.
  intros Ht Hs. change report_room with 253%nat in Hs.
  assert (Hlen := report_size_bytes l Ht).
  set (data := flat_map advertisement_bytes l) in *.
  assert (Hbytes : bytes data).
  { unfold data. clear Hlen data. induction Ht as [|a l Ha Hl IH]; [constructor|].
    unfold report_size in Hs. cbn [map list_sum fold_right] in Hs.
    fold (list_sum (map advertisement_size l)) in Hs.
    cbn [flat_map]. apply Forall_app. split.
    - apply bytes_typed; [exact Ha|]. unfold advertisement_size in Hs. lia.
    - apply IH. unfold report_size. lia. }
  assert (Hok : Forall advertisement_ok (map as_reported l)).
  { clear - Ht. induction Ht; constructor; [now apply reported_ok|assumption]. }
  exists (Build_le_advertising_report (length data) (data ++ zeros (253 - length data))).
  split; [|split].
  - unfold report_with_advertisements. change MAX_ADVERTISING_REPORT_LEN with 253%nat.
    change (report_loop l 0 (zeros 253)) with (@report_loop E l (length (@nil N)) ([] ++ zeros 253)).
    rewrite loop_fits; [|exact Ht|cbn [length zeros repeat]; exact Hs|cbn; lia].
    cbn [app]. fold data. now rewrite skipn_zeros, <- Hlen.
  - assert (K := lar_iterates test_vendor [] _ Hok data).
    cbn [length app] in K. rewrite reported_all in K.
    eapply iterates_ext; [|exact (K eq_refl)]. intros s. apply lar_next_inner. lia.
  - intros F V count Hc.
    change ([62; N.of_nat (2 + report_size l); 2; count] ++ data)
      with (62 :: N.of_nat (2 + report_size l) :: (2 :: count :: data)).
    rewrite <- Hlen.
    change (62 :: N.of_nat (2 + length data) :: 2 :: count :: data) with (framed 0x3E (2 :: count :: data)).
    rewrite event_new_framed.
    change (event_dispatch F V 62 (2 :: count :: data))
      with (wrap V (to_le_advertising_report (2 :: count :: data)) (@EvLeAdvertisingReport V)).
    apply wrap_ok. eexists. split; [|reflexivity].
    destruct (report_result V 2 count data) as (l' & tail & [Hok' E'] & R); [assumption|lia|].
    assert (U : map as_reported l = l' /\ [] = tail).
    { apply entries_unique with (V := V); try assumption.
      - left. cbn. lia.
      - destruct R as [[-> _]|[[? _]|[? (e & R & _)]]]; [left; cbn; lia|left; lia|].
        right. rewrite R. discriminate.
      - rewrite app_nil_r, reported_all. assumption.
      - rewrite app_nil_r, reported_all. exact E'. }
    destruct U as [_ <-].
    destruct R as [[_ R]|[[R _]|[R _]]]; [exact R|cbn in R; lia|cbn in R; lia].
Qed.
