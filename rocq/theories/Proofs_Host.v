(** * Commands: one write with the specified bytes, or a rejection. *)
From Verif Require Import Base Model_Types Model_Bitflags Model_Intervals Model_EventBase
  Model_Command Model_Event Model_Host Spec_Wire Spec_Interval Spec_Flags Spec_Host
  Proofs_Base Proofs_Bits Proofs_Interval Proofs_Serialize Proofs_Flags.

(** ** Headers *)
Lemma write_command_spec {St E} H enc (C : controller St E) op params s :
  In (H, enc) header_formats -> (length params <= 255)%nat ->
  write_command H C op params s = ctl_write C s (enc op (length params)) params.
Proof.
  intros HIn Hlen. unfold write_command, abind, pure.
  assert (HL : as_u8 (N.of_nat (length params)) = N.of_nat (length params))
    by (unfold as_u8; rewrite N.mod_small; [reflexivity|change (2 ^ 8) with 256; lia]).
  destruct HIn as [HE|[HE|[HE|[]]]]; injection HE as <- <-.
  - unfold uart_header_bytes. cbn [uart_header hdr_new hdr_copy hdr_length header_fields_new].
    unfold header_fields_new. rewrite HL, le_2. reflexivity.
  - unfold cmd_link_header_bytes. cbn [cmd_link_header hdr_new hdr_copy hdr_length].
    unfold header_fields_new. rewrite HL, le_2. reflexivity.
  - reflexivity.
Qed.

(** ** Addresses *)
Lemma peer_addr_type_copy_spec {E} p : peer_typed p ->
  @writes_exactly E (peer_addr_type_copy p) (peer_address_bytes p).
Proof.
  intros Hp buf.
  assert (Hlen : length (peer_address_bytes p) = 7%nat)
    by (destruct p; destruct Hp as [Hp _]; cbn; now rewrite Hp).
  rewrite Hlen. unfold peer_addr_type_copy.
  destruct (Nat.eqb_spec (length buf) 7) as [Hl|Hl]; cbn [assert bind]; [|reflexivity].
  destruct_len Hl. destruct p as [l|l|l|l]; destruct Hp as [Hp _]; destruct_len Hp; reflexivity.
Qed.

(** ** Random addresses *)
Lemma pop_count_table : forallb (fun b =>
   Nat.eqb (pop_count_of b) (length (filter (N.testbit b) (map N.of_nat (seq 0 8))))
   && Nat.eqb (pop_count_of (N.land b 0x3F)) (length (filter (N.testbit b) (map N.of_nat (seq 0 6)))))
   (map N.of_nat (seq 0 256)) = true.
Proof. vm_compute. reflexivity. Qed.
Lemma pop_count_byte b : byte b ->
  pop_count_of b = length (filter (N.testbit b) (map N.of_nat (seq 0 8)))
  /\ pop_count_of (N.land b 0x3F) = length (filter (N.testbit b) (map N.of_nat (seq 0 6))).
Proof.
  intros H. pose proof (proj1 (forallb_forall _ _) pop_count_table b (below_cases 256 b H)) as T.
  apply andb_prop in T. destruct T as [T1%Nat.eqb_eq T2%Nat.eqb_eq]. split; assumption.
Qed.

Lemma filter_map_length {A B} (f : B -> bool) (g : A -> B) l :
  length (filter f (map g l)) = length (filter (fun x => f (g x)) l).
Proof.
  induction l as [|x l IH]; [reflexivity|]. cbn [map filter]. destruct (f (g x)); cbn [length]; auto.
Qed.
Lemma count_byte a b j n : nth_error a j = Some b -> (n <= 8)%nat ->
  length (filter (array_bit a) (map N.of_nat (seq (8 * j) n)))
  = length (filter (N.testbit b) (map N.of_nat (seq 0 n))).
Proof.
  intros Hb Hn. rewrite !filter_map_length.
  replace (8 * j)%nat with (8 * j + 0)%nat by lia.
  assert (Hs : forall k m, seq (8 * j + k) m = map (fun i => (8 * j + i)%nat) (seq k m)).
  { intros k m. revert k. induction m as [|m IH]; intros k; [reflexivity|].
    cbn [seq map]. f_equal. rewrite <- IH. f_equal. lia. }
  rewrite Hs, filter_map_length. f_equal. apply filter_ext_in. intros i [_ Hi]%in_seq.
  unfold array_bit. replace (N.to_nat (N.of_nat (8 * j + i) / 8)) with j by lia. rewrite Hb.
  f_equal. lia.
Qed.

Lemma none_counted {A} (f : A -> bool) l :
  Nat.eqb (length (filter f l)) 0 = negb (existsb f l).
Proof.
  induction l as [|x l IH]; [reflexivity|]. cbn [filter existsb]. destruct (f x); [reflexivity|exact IH].
Qed.
Lemma filter_le {A} (f : A -> bool) l : (length (filter f l) <= length l)%nat.
Proof. induction l as [|x l IH]; [reflexivity|]. cbn [filter length]. destruct (f x); cbn [length]; lia. Qed.
Lemma all_counted {A} (f : A -> bool) l :
  Nat.eqb (length (filter f l)) (length l) = negb (existsb (fun x => negb (f x)) l).
Proof.
  induction l as [|x l IH]; [reflexivity|]. cbn [filter existsb length]. destruct (f x).
  - exact IH.
  - cbn [negb orb]. apply Nat.eqb_neq. pose proof (filter_le f l). lia.
Qed.

Lemma top_bits_table : forallb (fun b =>
   N.shiftr (N.land b 0xC0) 6 =? 2 * N.b2n (N.testbit b 7) + N.b2n (N.testbit b 6))
   (map N.of_nat (seq 0 256)) = true.
Proof. vm_compute. reflexivity. Qed.

Lemma validate_random_address_spec {E VS} a : bd_addr_typed a ->
  @validate_random_address E VS a =
  if valid_random_address a then Ok tt else Err (HBadRandomAddress a).
Proof.
  intros [Hl Hb]. destruct_len Hl. unfold bytes in Hb.
  rename x into b0, x0 into b1, x1 into b2, x2 into b3, x3 into b4, x4 into b5.
  set (a := [b0; b1; b2; b3; b4; b5]) in *.
  assert (Hb' := Hb). unfold a in Hb'.
  repeat match goal with H : Forall byte (_ :: _) |- _ => apply Forall_cons_iff in H; destruct H end.
  assert (P46 : pop_count_except_top_2_bits a
    = @Ok (host_error E VS) _ (length (filter (array_bit a) (map N.of_nat (seq 0 46))))).
  { change (seq 0 46) with (seq (8 * 0) 8 ++ seq (8 * 1) 8 ++ seq (8 * 2) 8 ++ seq (8 * 3) 8
                            ++ seq (8 * 4) 8 ++ seq (8 * 5) 6).
    rewrite !map_app, !filter_app, !app_length.
    rewrite (count_byte a b0 0), (count_byte a b1 1), (count_byte a b2 2), (count_byte a b3 3),
      (count_byte a b4 4), (count_byte a b5 5) by (reflexivity || lia).
    rewrite <- !(fun b H => proj1 (pop_count_byte b H)) by assumption.
    rewrite <- (proj2 (pop_count_byte b5 ltac:(assumption))).
    unfold pop_count_except_top_2_bits. cbn -[pop_count_of N.land Nat.add]. f_equal. lia. }
  assert (P22 : pop_count_except_top_2_bits [b3; b4; b5]
    = @Ok (host_error E VS) _ (length (filter (array_bit a) (map N.of_nat (seq 24 22))))).
  { change (seq 24 22) with (seq (8 * 3) 8 ++ seq (8 * 4) 8 ++ seq (8 * 5) 6).
    rewrite !map_app, !filter_app, !app_length.
    rewrite (count_byte a b3 3), (count_byte a b4 4), (count_byte a b5 5) by (reflexivity || lia).
    rewrite <- !(fun b H => proj1 (pop_count_byte b H)) by assumption.
    rewrite <- (proj2 (pop_count_byte b5 ltac:(assumption))).
    unfold pop_count_except_top_2_bits. cbn -[pop_count_of N.land Nat.add]. f_equal. lia. }
  assert (T : N.shiftr (N.land b5 0xC0) 6
              = 2 * N.b2n (array_bit a 47) + N.b2n (array_bit a 46)).
  { change (array_bit a 47) with (N.testbit b5 7). change (array_bit a 46) with (N.testbit b5 6).
    apply N.eqb_eq.
    exact (proj1 (forallb_forall _ _) top_bits_table b5 (below_cases 256 b5 ltac:(assumption))). }
  unfold validate_random_address. change (idx a 5) with (@Ok (host_error E VS) _ b5). cbn [bind].
  cbv zeta. rewrite T.
  change (slice_from a 0) with (@Ok (host_error E VS) _ a).
  change (slice_from a 3) with (@Ok (host_error E VS) _ [b3; b4; b5]). cbn [bind].
  rewrite P46, P22. cbn [bind].
  unfold valid_random_address, random_part.
  assert (D : forall l n, length l = n ->
    (if Nat.eqb (length (filter (array_bit a) l)) 0 || Nat.eqb (length (filter (array_bit a) l)) n
     then @Err (host_error E VS) unit (HBadRandomAddress a) else Ok tt)
    = if existsb (array_bit a) l && existsb (fun i => negb (array_bit a i)) l
      then Ok tt else Err (HBadRandomAddress a)).
  { intros l n <-. rewrite none_counted, all_counted.
    destruct (existsb _ _), (existsb _ _); reflexivity. }
  destruct (array_bit a 47), (array_bit a 46); cbn [N.b2n];
    match goal with
    | |- context [2 * ?x + ?y] => let v := eval vm_compute in (2 * x + y) in change (2 * x + y) with v
    end; cbn [N.eqb Pos.eqb orb bind fst snd]; try reflexivity.
  all: try (change (0 =? 0) with true); try (change (3 =? 0) with false);
       try (change (3 =? 3) with true); try (change (2 =? 0) with false);
       try (change (2 =? 3) with false); try (change (2 =? 2) with true);
       cbn [orb bind fst snd]; apply D; reflexivity.
Qed.

(** ** Parameter blocks *)
Lemma front_fill {E} f p mid : @writes_front E f p -> length mid = length p -> f mid = Ok p.
Proof.
  intros H Hl. rewrite H, Hl, Nat.leb_refl, <- Hl, skipn_all. now rewrite app_nil_r.
Qed.
Lemma exact_fill {E} f p mid : @writes_exactly E f p -> length mid = length p -> f mid = Ok p.
Proof. intros H Hl. now rewrite H, Hl, Nat.eqb_refl. Qed.
Lemma set_idx_mid {E} pre x post i v : length pre = i ->
  @set_idx E (pre ++ x :: post) i v = Ok (pre ++ v :: post).
Proof.
  intros <-. unfold set_idx. rewrite app_length. cbn [length].
  replace (Nat.ltb (length pre) (length pre + S (length post))) with true
    by (symmetry; apply Nat.ltb_lt; lia).
  rewrite firstn_all_app by reflexivity.
  replace (skipn (S (length pre)) (pre ++ x :: post)) with post; [reflexivity|].
  change (x :: post) with ([x] ++ post). rewrite app_assoc.
  rewrite skipn_all_app; [reflexivity|]. rewrite app_length. cbn. lia.
Qed.
Lemma update_from_mid {E} pre mid post i f (r : list N) : length pre = i ->
  f (mid ++ post) = @Ok E _ (r ++ post) ->
  update_from (pre ++ mid ++ post) i f = Ok (pre ++ r ++ post).
Proof.
  intros <- Hf. unfold update_from, update_range, slice. 
  replace (Nat.leb (length pre) (length (pre ++ mid ++ post))) with true
    by (symmetry; apply Nat.leb_le; rewrite app_length; lia).
  rewrite Nat.leb_refl. cbn [andb bind]. rewrite skipn_all_app by reflexivity.
  rewrite firstn_all2 by (rewrite !app_length; lia). rewrite Hf. cbn [bind].
  rewrite firstn_all_app by reflexivity. rewrite skipn_all2 by lia. now rewrite app_nil_r.
Qed.
Lemma write_le_front {E} n v mid post : length mid = n ->
  @write_le E n v (mid ++ post) = Ok (le n v ++ post).
Proof.
  intros <-. unfold write_le. rewrite app_length.
  replace (Nat.leb (length mid) (length mid + length post)) with true
    by (symmetry; apply Nat.leb_le; lia).
  now rewrite skipn_all_app, le_bytes_le.
Qed.

Lemma conn_interval_bytes_length ci : length (conn_interval_bytes ci) = 8%nat.
Proof. unfold conn_interval_bytes. now rewrite !app_length, !le_length. Qed.
Lemma expected_length_bytes_length e : length (expected_length_bytes e) = 4%nat.
Proof. unfold expected_length_bytes. now rewrite !app_length, !le_length. Qed.
Lemma scan_window_bytes_length s : length (scan_window_bytes s) = 4%nat.
Proof. unfold scan_window_bytes. now rewrite !app_length, !le_length. Qed.
Lemma advertising_interval_bytes_length a : length (advertising_interval_bytes a) = 5%nat.
Proof.
  unfold advertising_interval_bytes. destruct (ai_type a); rewrite ?app_length, ?le_length; reflexivity.
Qed.
Lemma address_bytes_length a : address_typed a -> length (address_bytes a) = 7%nat.
Proof. destruct a; intros [H _]; cbn; now rewrite H. Qed.
Lemma peer_address_bytes_length a : peer_typed a -> length (peer_address_bytes a) = 7%nat.
Proof. destruct a; intros [H _]; cbn; now rewrite H. Qed.

Lemma ci_fill {E} ci mid : ci_reachable ci -> length mid = 8%nat ->
  @ci_copy_into_slice E ci mid = Ok (conn_interval_bytes ci).
Proof.
  intros H Hl. apply front_fill.
  - apply ci_copy_spec, ci_reachable_legal, H.
  - now rewrite conn_interval_bytes_length.
Qed.
Lemma ecl_fill {E} e mid : ecl_reachable e -> length mid = 4%nat ->
  @ecl_copy_into_slice E e mid = Ok (expected_length_bytes e).
Proof.
  intros H Hl. apply ecl_reachable_range in H. apply front_fill.
  - now apply ecl_copy_spec.
  - now rewrite expected_length_bytes_length.
Qed.
Lemma sw_fill {E} s mid : sw_reachable s -> length mid = 4%nat ->
  @sw_copy_into_slice E s mid = Ok (scan_window_bytes s).
Proof.
  intros H Hl. apply sw_reachable_range in H. apply front_fill.
  - now apply sw_copy_spec.
  - now rewrite scan_window_bytes_length.
Qed.
Lemma ai_fill {E} F a mid : ai_reachable F a -> length mid = 5%nat ->
  @ai_copy_into_slice E a mid = Ok (advertising_interval_bytes a).
Proof.
  intros H Hl. apply front_fill.
  - apply (ai_copy_spec F), ai_reachable_legal, H.
  - now rewrite advertising_interval_bytes_length.
Qed.
Lemma bd_addr_fill {E} a mid : address_typed a -> length mid = 7%nat ->
  @bd_addr_type_copy E a mid = Ok (address_bytes a).
Proof.
  intros H Hl. apply exact_fill.
  - apply bd_addr_type_copy_spec. destruct a; exact (proj1 H).
  - now rewrite address_bytes_length.
Qed.
Lemma peer_addr_fill {E} a mid : peer_typed a -> length mid = 7%nat ->
  @peer_addr_type_copy E a mid = Ok (peer_address_bytes a).
Proof.
  intros H Hl. apply exact_fill.
  - now apply peer_addr_type_copy_spec.
  - now rewrite peer_address_bytes_length.
Qed.

Lemma own_address_code_eq t : own_address_type_as_u8 t = own_address_code t.
Proof. destruct t; reflexivity. Qed.

Section Blocks.
Context {E : Type}.

Lemma ap_copy_spec {VS} F p : ai_reachable F (ap_interval p) -> address_typed (ap_peer_address p) ->
  ap_channel_map p <> 0 ->
  @ap_copy_into_slice E VS p (zeros 15)
  = Ok (advertising_interval_bytes (ap_interval p) ++ [own_address_code (ap_own_address_type p)]
        ++ address_bytes (ap_peer_address p) ++ [ap_channel_map p]
        ++ [advertising_filter_code (ap_filter_policy p)]).
Proof.
  intros Hi Ha Hm. unfold ap_copy_into_slice. cbn [zeros repeat length Nat.eqb assert bind].
  rewrite (proj2 (N.eqb_neq _ _) Hm).
  rewrite (update_range_mid [] [0; 0; 0; 0; 0] [0; 0; 0; 0; 0; 0; 0; 0; 0; 0] 0 5 _
             (advertising_interval_bytes (ap_interval p)))
    by (reflexivity || (apply (ai_fill F); [exact Hi|reflexivity])).
  cbn [bind app]. rewrite set_idx_mid by apply advertising_interval_bytes_length. cbn [bind].
  rewrite own_address_code_eq.
  change (?l ++ ?o :: [0; 0; 0; 0; 0; 0; 0; 0; 0])
    with (l ++ [o] ++ [0; 0; 0; 0; 0; 0; 0] ++ [0; 0]).
  rewrite app_assoc.
  rewrite (update_range_mid _ [0; 0; 0; 0; 0; 0; 0] [0; 0] 6 13 _ (address_bytes (ap_peer_address p)))
    by (rewrite ?app_length, ?advertising_interval_bytes_length; reflexivity
        || (apply bd_addr_fill; [exact Ha|reflexivity])).
  cbn [bind]. rewrite app_assoc.
  rewrite set_idx_mid by (rewrite !app_length, advertising_interval_bytes_length,
                            address_bytes_length by exact Ha; reflexivity).
  cbn [bind]. change (?l ++ ?o :: [0]) with (l ++ [o] ++ [0]). rewrite app_assoc.
  rewrite set_idx_mid by (rewrite !app_length, advertising_interval_bytes_length,
                            address_bytes_length by exact Ha; reflexivity).
  rewrite <- !app_assoc.
  replace (advertising_filter_policy_as_u8 (ap_filter_policy p))
    with (advertising_filter_code (ap_filter_policy p)) by (destruct (ap_filter_policy p); reflexivity).
  reflexivity.
Qed.

Lemma sp_copy_spec p : sw_reachable (sp_scan_window p) ->
  @sp_copy_into_slice E p (zeros 7)
  = Ok ([scan_type_code (sp_scan_type p)] ++ scan_window_bytes (sp_scan_window p)
        ++ [own_address_code (sp_own_address_type p)] ++ [scan_filter_code (sp_filter_policy p)]).
Proof.
  intros Hs. unfold sp_copy_into_slice. cbn [zeros repeat length Nat.eqb assert bind].
  rewrite (set_idx_mid [] 0 [0; 0; 0; 0; 0; 0] 0 _ eq_refl : set_idx [0; 0; 0; 0; 0; 0; 0] 0 _ = _).
  cbn [bind app].
  rewrite (update_range_mid [scan_type_as_u8 (sp_scan_type p)] [0; 0; 0; 0] [0; 0] 1 5 _
             (scan_window_bytes (sp_scan_window p)))
    by (reflexivity || (apply sw_fill; [exact Hs|reflexivity])).
  cbn [bind]. rewrite app_assoc.
  rewrite set_idx_mid by (rewrite app_length, scan_window_bytes_length; reflexivity).
  cbn [bind]. change (?l ++ ?o :: [0]) with (l ++ [o] ++ [0]). rewrite app_assoc.
  rewrite set_idx_mid by (rewrite !app_length, scan_window_bytes_length; reflexivity).
  rewrite <- !app_assoc, own_address_code_eq.
  replace (scan_filter_policy_as_u8 (sp_filter_policy p))
    with (scan_filter_code (sp_filter_policy p)) by (destruct (sp_filter_policy p); reflexivity).
  replace (scan_type_as_u8 (sp_scan_type p))
    with (scan_type_code (sp_scan_type p)) by (destruct (sp_scan_type p); reflexivity).
  reflexivity.
Qed.

Lemma cu_copy_spec p : ci_reachable (cu_conn_interval p) -> ecl_reachable (cu_expected_connection_length p) ->
  @cu_copy_into_slice E p (zeros 14)
  = Ok (le 2 (cu_conn_handle p) ++ conn_interval_bytes (cu_conn_interval p)
      ++ expected_length_bytes (cu_expected_connection_length p)).
Proof.
  intros Hc He. unfold cu_copy_into_slice. cbn [zeros repeat length Nat.eqb assert bind].
  rewrite (update_from_mid [] [0; 0] [0; 0; 0; 0; 0; 0; 0; 0; 0; 0; 0; 0] 0 _ (le 2 (cu_conn_handle p)))
    by (reflexivity || now apply write_le_front).
  cbn [bind app].
  rewrite (update_range_mid (le 2 (cu_conn_handle p)) [0; 0; 0; 0; 0; 0; 0; 0] [0; 0; 0; 0] 2 10 _
            (conn_interval_bytes (cu_conn_interval p)))
    by (rewrite ?le_length; reflexivity || (apply ci_fill; [exact Hc|reflexivity])).
  cbn [bind]. rewrite app_assoc. rewrite <- (app_nil_r [0; 0; 0; 0]).
  rewrite (update_range_mid _ [0; 0; 0; 0] [] 10 14 _
            (expected_length_bytes (cu_expected_connection_length p)))
    by (rewrite ?app_length, ?le_length, ?conn_interval_bytes_length; reflexivity
        || (apply ecl_fill; [exact He|reflexivity])).
  now rewrite app_nil_r, <- app_assoc.
Qed.

Lemma cp_copy_spec p : sw_reachable (cp_scan_window p) -> peer_typed (cp_peer_address p) ->
  ci_reachable (cp_conn_interval p) -> ecl_reachable (cp_expected_connection_length p) ->
  @cp_copy_into_slice E p (zeros 25)
  = Ok (scan_window_bytes (cp_scan_window p)
      ++ [initiator_filter_code (cp_initiator_filter_policy p)]
      ++ match cp_initiator_filter_policy p with
         | UseAddress => peer_address_bytes (cp_peer_address p)
         | UseWhiteList => repeat 0 7
         end
      ++ [own_address_code (cp_own_address_type p)]
      ++ conn_interval_bytes (cp_conn_interval p)
      ++ expected_length_bytes (cp_expected_connection_length p)).
Proof.
  intros Hs Hp Hc He. unfold cp_copy_into_slice. change (assert _) with (@Ok E _ tt). cbn [bind].
  change (zeros 25) with ([] ++ [0; 0; 0; 0] ++ 0 :: repeat 0 7 ++ 0 :: repeat 0 8 ++ repeat 0 4 ++ []).
  rewrite (update_range_mid [] [0; 0; 0; 0] _ 0 4 _ (scan_window_bytes (cp_scan_window p)))
    by (reflexivity || (apply sw_fill; [exact Hs|reflexivity])).
  cbn [bind app].
  rewrite set_idx_mid by apply scan_window_bytes_length. cbn [bind].
  set (code := connection_filter_policy_as_u8 _).
  set (peer := match cp_initiator_filter_policy p with
         | UseAddress => peer_address_bytes (cp_peer_address p)
         | UseWhiteList => repeat 0 7
         end).
  assert (Hpeer : length peer = 7%nat).
  { unfold peer. destruct (cp_initiator_filter_policy p); [now apply peer_address_bytes_length|reflexivity]. }
  change (?l ++ code :: ?r) with (l ++ [code] ++ r). rewrite app_assoc.
  set (pre := scan_window_bytes _ ++ [code]).
  assert (Hpre : length pre = 5%nat) by (unfold pre; rewrite app_length, scan_window_bytes_length; reflexivity).
  replace (match cp_initiator_filter_policy p with UseAddress => _ | UseWhiteList => _ end)
    with (@Ok E _ (pre ++ peer ++ 0 :: repeat 0 8 ++ repeat 0 4 ++ [])).
  2:{ symmetry. unfold peer. destruct (cp_initiator_filter_policy p).
      - apply update_range_mid; [exact Hpre|reflexivity|].
        apply peer_addr_fill; [exact Hp|reflexivity].
      - apply update_range_mid; [exact Hpre|reflexivity|reflexivity]. }
  cbn [bind]. rewrite app_assoc.
  rewrite set_idx_mid by (rewrite app_length, Hpre, Hpeer; reflexivity).
  cbn [bind]. rewrite own_address_code_eq.
  set (own := own_address_code _). change (?l ++ own :: ?r) with (l ++ [own] ++ r). rewrite app_assoc.
  rewrite (update_range_mid _ (repeat 0 8) _ 13 21 _ (conn_interval_bytes (cp_conn_interval p)))
    by (rewrite ?app_length, ?Hpre, ?Hpeer; reflexivity || (apply ci_fill; [exact Hc|reflexivity])).
  cbn [bind]. rewrite app_assoc.
  rewrite (update_range_mid _ (repeat 0 4) _ 21 25 _
             (expected_length_bytes (cp_expected_connection_length p)))
    by (rewrite ?app_length, ?Hpre, ?Hpeer, ?conn_interval_bytes_length; reflexivity
        || (apply ecl_fill; [exact He|reflexivity])).
  rewrite app_nil_r. unfold pre. rewrite <- !app_assoc.
  replace code with (initiator_filter_code (cp_initiator_filter_policy p))
    by (unfold code; destruct (cp_initiator_filter_policy p); reflexivity).
  reflexivity.
Qed.
End Blocks.

(** ** Channels *)
Lemma channels_spec F v : obtainable F channel_table v ->
  length v = 5%nat /\ bytes v
  /\ ba_is_empty v = negb (existsb (array_bit v) (map N.of_nat (seq 0 37))).
Proof.
  intros H. assert (HT : In channel_table flag_tables) by (left; reflexivity).
  pose proof (obtainable_bits F channel_table HT v H) as (Hl & Hb & Hd).
  pose proof (obtainable_is_empty F channel_table HT v H) as He.
  split; [exact Hl|]. split; [exact Hb|].
  destruct (existsb _ _) eqn:Ex.
  - apply existsb_exists in Ex. destruct Ex as (i & _ & Hi).
    destruct (ba_is_empty v); [|reflexivity]. now rewrite (proj1 He eq_refl i) in Hi.
  - apply He. intros i. destruct (array_bit v i) eqn:Hi; [|reflexivity]. exfalso.
    assert (Hx : existsb (array_bit v) (map N.of_nat (seq 0 37)) = true).
    { apply existsb_exists. exists i. split; [|exact Hi]. apply below_cases.
      specialize (Hd i Hi). cbn in Hd. unfold channel_defined in Hd. apply N.leb_le in Hd. lia. }
    congruence.
Qed.

(** ** Every call *)
Section Shape.
Context (F : features) (V : vendor) {St E : Type} (H : hci_header)
  (enc : N -> nat -> list N) (C : controller St E) (HH : In (H, enc) header_formats).

Lemma plain_spec op ps s : (length ps <= 255)%nat ->
  as_plain V (write_command H C op ps) s
  = let (s', r) := ctl_write C s (enc op (length ps)) ps in (s', Plain r).
Proof.
  intros Hl. unfold as_plain. rewrite (write_command_spec H enc) by assumption. reflexivity.
Qed.
Lemma checked_spec op ps s : (length ps <= 255)%nat ->
  as_checked V (write_command_comm V H C op ps) s
  = let (s', r) := ctl_write C s (enc op (length ps)) ps in
    (s', Checked (match r with
                  | Ok tt => Ok tt
                  | Err WouldBlock => Err WouldBlock
                  | Err (Other e) => Err (Other (HComm e))
                  | Panic => Panic
                  end)).
Proof.
  intros Hl. unfold as_checked, write_command_comm, amap_err.
  rewrite (write_command_spec H enc) by assumption.
  destruct (ctl_write C s _ _) as [s' [[]|[e|]|]]; reflexivity.
Qed.

Lemma plain_bind ps m (k : list N -> act St (nb_error E) unit) s : m = Ok ps ->
  as_plain V (abind (pure m) k) s = as_plain V (k ps) s.
Proof. intros ->. reflexivity. Qed.
Lemma checked_bind {A} (ps : A) m
    (k : A -> act St (nb_error (host_error E (VStatus V))) unit) s : m = Ok ps ->
  as_checked V (abind (pure m) k) s = as_checked V (k ps) s.
Proof. intros ->. reflexivity. Qed.

Lemma write_le_zeros {G} n v : @write_le G n v (zeros n) = Ok (le n v).
Proof.
  unfold write_le. replace (length (zeros n)) with n by (unfold zeros; now rewrite repeat_length).
  rewrite Nat.leb_refl, le_bytes_le, skipn_all2, app_nil_r; [reflexivity|].
  unfold zeros. rewrite repeat_length. lia.
Qed.

Lemma set_outbound_data_spec op data s :
  as_checked V (set_outbound_data V H C op data) s
  = match (if Nat.leb (length data) 31 then None
           else Some (HAdvertisingDataTooLong (length data))) with
    | Some e => (s, Checked (Err (Other e)))
    | None =>
        let (s', r) := ctl_write C s (enc op (length (outbound_data data))) (outbound_data data) in
        (s', Checked (match r with
                      | Ok tt => Ok tt
                      | Err WouldBlock => Err WouldBlock
                      | Err (Other e) => Err (Other (HComm e))
                      | Panic => Panic
                      end))
    end.
Proof.
  unfold set_outbound_data. rewrite Nat.ltb_antisym.
  destruct (Nat.leb_spec (length data) 31) as [Hl|Hl]; [|reflexivity]. cbn [negb].
  assert (Hz : zeros 32 = [0] ++ repeat 0 (length data) ++ repeat 0 (31 - length data)).
  { rewrite <- repeat_app. replace (length data + (31 - length data))%nat with 31%nat by lia.
    reflexivity. }
  rewrite Hz. rewrite (checked_bind ([N.of_nat (length data)] ++ repeat 0 (length data)
                                     ++ repeat 0 (31 - length data))).
  2:{ rewrite (set_idx_mid [] 0 _ 0 _ eq_refl : set_idx ([0] ++ _) 0 _ = _).
      unfold as_u8. rewrite N.mod_small by (change (2 ^ 8) with 256; lia). reflexivity. }
  rewrite (checked_bind (outbound_data data)).
  2:{ apply update_range_mid.
      - reflexivity.
      - rewrite repeat_length. lia.
      - unfold copy_from_slice. now rewrite repeat_length, Nat.eqb_refl. }
  apply checked_spec. unfold outbound_data. rewrite !app_length, repeat_length. cbn [length]. lia.
Qed.

Lemma command_shape c s : arguments_typed F c ->
  run_command F V H C c s = expected_call enc C c s.
Proof.
  destruct c; intros HA; cbn [arguments_typed] in HA; cbn [run_command];
    unfold expected_call, reported; cbn [rejection has_own_errors command_params];
    try (apply plain_spec; cbn [length]; lia);
    try (unfold read_remote_version_information, read_rssi, le_read_channel_map,
           le_read_remote_used_features, le_long_term_key_request_negative_reply;
         rewrite (plain_bind (le 2 h)) by apply (write_le_zeros 2);
         apply plain_spec; rewrite le_length; lia).
  - (* disconnect *)
    unfold disconnect, reject. cbn [rejection].
    destruct reason; cbn [disconnect_reason]; try reflexivity;
      rewrite (checked_bind (le 2 h ++ [0])) by (rewrite le_2; reflexivity);
      (erewrite checked_bind by (rewrite le_2; reflexivity));
      rewrite (checked_spec (command_opcode (@CDisconnect V h Success))) by (cbn; lia); cbn [status_into];
      unfold command_opcode; cbn [command_code fst snd]; rewrite le_2; reflexivity.
  - (* set_event_mask *)
    unfold set_event_mask. rewrite (plain_bind (le 8 mask)) by apply (write_le_zeros 8).
    apply plain_spec. rewrite le_length. lia.
  - (* read_tx_power_level *)
    unfold read_tx_power_level.
    rewrite (plain_bind (le 2 h ++ [0])) by (rewrite le_2; reflexivity).
    rewrite (plain_bind (le 2 h ++ [tx_power_level_code t])) by (rewrite le_2; destruct t; reflexivity).
    apply plain_spec. rewrite app_length, le_length. cbn. lia.
  - (* le_set_event_mask *)
    unfold le_set_event_mask. rewrite (plain_bind (le 8 mask)) by apply (write_le_zeros 8).
    apply plain_spec. rewrite le_length. lia.
  - (* le_set_random_address *)
    unfold le_set_random_address. rewrite validate_random_address_spec by exact HA.
    destruct (valid_random_address a); [|reflexivity]. cbn [map_err].
    rewrite (checked_bind tt) by reflexivity. apply checked_spec. destruct HA as [-> _]. lia.
  - (* le_set_advertising_parameters *)
    unfold le_set_advertising_parameters. destruct HA as (Hi & _ & Ha & _).
    destruct (N.eqb_spec (ap_channel_map p) 0) as [Hz|Hz].
    + unfold ap_copy_into_slice. rewrite Hz. reflexivity.
    + rewrite (ap_copy_spec F) by assumption. cbn [map_err].
      erewrite checked_bind by reflexivity. apply checked_spec.
      rewrite !app_length, advertising_interval_bytes_length, address_bytes_length by exact Ha.
      cbn. lia.
  - (* le_set_advertising_data *)
    apply set_outbound_data_spec. 
  - apply set_outbound_data_spec. 
  - (* le_set_scan_parameters *)
    unfold le_set_scan_parameters. rewrite sp_copy_spec by apply HA.
    erewrite plain_bind by reflexivity. apply plain_spec.
    rewrite !app_length, scan_window_bytes_length. cbn. lia.
  - (* le_create_connection *)
    unfold le_create_connection. destruct HA as (H1 & H2 & _ & _ & H3 & H4).
    rewrite cp_copy_spec by assumption. erewrite plain_bind by reflexivity. apply plain_spec.
    rewrite !app_length, scan_window_bytes_length, conn_interval_bytes_length,
      expected_length_bytes_length.
    destruct (cp_initiator_filter_policy p); [rewrite peer_address_bytes_length by exact H2|];
      cbn; lia.
  - (* le_add_device_to_white_list *)
    unfold le_add_device_to_white_list. rewrite bd_addr_fill by (exact HA || reflexivity).
    erewrite plain_bind by reflexivity. apply plain_spec. rewrite address_bytes_length by exact HA. lia.
  - apply plain_spec. cbn. lia.
  - unfold le_remove_device_from_white_list. rewrite bd_addr_fill by (exact HA || reflexivity).
    erewrite plain_bind by reflexivity. apply plain_spec. rewrite address_bytes_length by exact HA. lia.
  - apply plain_spec. cbn. lia.
  - (* le_connection_update *)
    unfold le_connection_update. destruct HA as (_ & H1 & H2).
    rewrite cu_copy_spec by assumption. erewrite plain_bind by reflexivity. apply plain_spec.
    rewrite !app_length, le_length, conn_interval_bytes_length, expected_length_bytes_length. lia.
  - (* le_set_host_channel_classification *)
    unfold le_set_host_channel_classification. destruct (channels_spec F channels HA) as (Hl & _ & ->).
    destruct (existsb _ _); [|reflexivity]. cbn [negb].
    rewrite (checked_bind channels) by (apply exact_fill; [apply copy_exactly|now rewrite Hl]).
    apply checked_spec. rewrite Hl. lia.
  - (* le_encrypt *)
    unfold le_encrypt. destruct HA as [[H1 _] [H2 _]].
    rewrite (plain_bind (aes_key p ++ repeat 0 16)).
    2:{ apply (update_range_mid [] (repeat 0 16) (repeat 0 16)); try reflexivity.
        unfold copy_from_slice. rewrite H1. reflexivity. }
    rewrite (plain_bind (aes_key p ++ aes_plaintext_data p)).
    2:{ rewrite <- (app_nil_r (repeat 0 16)), <- (app_nil_r (aes_plaintext_data p)).
        apply update_from_mid; [exact H1|]. unfold copy_from_slice. rewrite !app_nil_r, H2. reflexivity. }
    apply plain_spec. rewrite app_length, H1, H2. lia.
  - (* le_start_encryption *)
    unfold le_start_encryption. destruct HA as (_ & _ & _ & H1 & _).
    rewrite (plain_bind (le 2 (enc_conn_handle p) ++ repeat 0 26)).
    2:{ apply (update_from_mid [] (repeat 0 2) (repeat 0 26)); [reflexivity|].
        now apply write_le_front. }
    rewrite (plain_bind (le 2 (enc_conn_handle p) ++ le 8 (enc_random_number p) ++ repeat 0 18)).
    2:{ apply (update_from_mid _ (repeat 0 8) (repeat 0 18)); [apply le_length|].
        now apply write_le_front. }
    rewrite (plain_bind ((le 2 (enc_conn_handle p) ++ le 8 (enc_random_number p))
                         ++ le 2 (enc_encrypted_diversifier p) ++ repeat 0 16)).
    2:{ rewrite app_assoc. apply (update_from_mid _ (repeat 0 2) (repeat 0 16)).
        - now rewrite app_length, !le_length.
        - now apply write_le_front. }
    rewrite (plain_bind (((le 2 (enc_conn_handle p) ++ le 8 (enc_random_number p))
                         ++ le 2 (enc_encrypted_diversifier p)) ++ enc_long_term_key p)).
    2:{ rewrite app_assoc.
        rewrite <- (app_nil_r (repeat 0 16)), <- (app_nil_r (enc_long_term_key p)).
        apply update_from_mid.
        - now rewrite !app_length, !le_length.
        - unfold copy_from_slice. rewrite !app_nil_r, H1. reflexivity. }
    rewrite <- !app_assoc. apply plain_spec. rewrite !app_length, !le_length, H1. lia.
  - (* le_long_term_key_request_reply *)
    unfold le_long_term_key_request_reply. destruct HA as (_ & H1 & _).
    rewrite (plain_bind (le 2 h ++ repeat 0 16)).
    2:{ apply (update_from_mid [] (repeat 0 2) (repeat 0 16)); [reflexivity|].
        now apply write_le_front. }
    rewrite (plain_bind (le 2 h ++ key)).
    2:{ rewrite <- (app_nil_r (repeat 0 16)), <- (app_nil_r key).
        apply update_from_mid; [apply le_length|].
        unfold copy_from_slice. rewrite !app_nil_r, H1. reflexivity. }
    apply plain_spec. rewrite app_length, le_length, H1. lia.
  - (* le_receiver_test *)
    unfold le_receiver_test, MAX_TEST_CHANNEL. rewrite N.ltb_antisym.
    destruct (channel <=? 0x27); [|reflexivity]. cbn [negb]. apply checked_spec. cbn. lia.
  - (* le_transmitter_test *)
    unfold le_transmitter_test, MAX_TEST_CHANNEL. rewrite !N.ltb_antisym.
    destruct (channel <=? 0x27); [|reflexivity]. cbn [negb].
    destruct (N.leb_spec payload_length 0x25) as [Hn|Hn]; [|reflexivity]. cbn [negb].
    replace (as_u8 payload_length) with payload_length
      by (unfold as_u8; rewrite N.mod_small; [reflexivity|change (2 ^ 8) with 256; lia]).
    rewrite checked_spec by (cbn; lia).
    replace (test_packet_payload_as_u8 payload) with (test_payload_code payload)
      by (destruct payload; reflexivity).
    reflexivity.
Qed.
End Shape.
