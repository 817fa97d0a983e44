(** * Debug output. *)
From Verif Require Import Base Model_Types Model_Bitflags Model_EventBase Model_Command Model_Event Model_Host
  Model_Debug Spec_Wire Spec_Made Spec_Debug Spec_Flags Spec_Example Proofs_Base Proofs_Bits
  Proofs_Report Proofs_Flags.
From Coq Require Import String Ascii DecimalString DecimalN.
Open Scope list_scope.
Open Scope N_scope.
Open Scope string_scope.

(** ** Strings *)
Lemma sapp_assoc (a b c : string) : (a ++ b) ++ c = a ++ b ++ c.
Proof. induction a as [|x a IH]; [reflexivity|]. cbn. now rewrite IH. Qed.
Lemma sapp_inv (s a b : string) : s ++ a = s ++ b -> a = b.
Proof. induction s as [|x s IH]; [trivial|]. cbn. intros H. apply IH. congruence. Qed.

(** Characters of numbers. *)
Definition number_char (c : ascii) : bool :=
  let n := N_of_ascii c in
  ((48 <=? n) && (n <=? 57) || (65 <=? n) && (n <=? 70) || (n =? 45))%N%bool.
Fixpoint number_text (s : string) : bool :=
  match s with EmptyString => true | String c s => (number_char c && number_text s)%bool end.

Lemma number_end s1 s2 c d r1 r2 : number_text s1 = true -> number_text s2 = true ->
  number_char c = false -> number_char d = false ->
  s1 ++ String c r1 = s2 ++ String d r2 -> s1 = s2 /\ String c r1 = String d r2.
Proof.
  revert s2. induction s1 as [|x s1 IH]; intros [|y s2]; cbn; intros H1 H2 Hc Hd H.
  - auto.
  - apply andb_prop in H2. destruct H2 as [H2 _]. congruence.
  - apply andb_prop in H1. destruct H1 as [H1 _]. congruence.
  - apply andb_prop in H1, H2. destruct H1 as [_ H1], H2 as [_ H2].
    assert (x = y /\ s1 ++ String c r1 = s2 ++ String d r2) as [-> E] by (split; congruence).
    destruct (IH s2 H1 H2 Hc Hd E) as [-> E2]. auto.
Qed.

(** A way to write numbers that is unambiguous. *)
Record numeral {A} (P : A -> Prop) (show : A -> string) : Prop := {
  numeral_text : forall n, P n -> number_text (show n) = true;
  numeral_nonempty : forall n, P n -> show n <> "";
  numeral_inj : forall m n, P m -> P n -> show m = show n -> m = n
}.

Lemma uint_text d : number_text (NilEmpty.string_of_uint d) = true.
Proof. induction d; cbn; auto. Qed.
Lemma debug_uint_numeral : numeral (fun _ => True) debug_uint.
Proof.
  split; unfold debug_uint.
  - intros n _. apply uint_text.
  - intros n _ H. destruct (N.to_uint n) as [|u|u|u|u|u|u|u|u|u|u] eqn:E; try discriminate.
    assert (K := Unsigned.of_to n). rewrite E in K. cbn in K. subst n. discriminate.
  - intros m n _ _ H. apply Unsigned.to_uint_inj.
    assert (K : Some (N.to_uint m) = Some (N.to_uint n))
      by now rewrite <- (NilEmpty.usu (N.to_uint m)), <- (NilEmpty.usu (N.to_uint n)), H.
    congruence.
Qed.

(** The same by computation, for finitely many numbers. *)
Lemma numeral_finite {A} (dom : list A) (eqb : A -> A -> bool) (show : A -> string) (P : A -> Prop) :
  (forall a, P a -> In a dom) -> (forall a b, eqb a b = true -> a = b) ->
  forallb (fun a => (number_text (show a) && negb (String.eqb (show a) "")
                     && forallb (fun b => implb (String.eqb (show a) (show b)) (eqb a b)) dom)%bool) dom = true ->
  numeral P show.
Proof.
  intros Hd He H. rewrite forallb_forall in H.
  split.
  - intros n Hn. specialize (H n (Hd n Hn)). apply andb_prop in H. destruct H as [H _].
    apply andb_prop in H. tauto.
  - intros n Hn K. specialize (H n (Hd n Hn)). rewrite K in H. now rewrite andb_false_r in H.
  - intros m n Hm Hn K. specialize (H m (Hd m Hm)). apply andb_prop in H. destruct H as [_ H].
    rewrite forallb_forall in H. specialize (H n (Hd n Hn)). rewrite K, String.eqb_refl in H.
    now apply He.
Qed.
Definition all_bytes : list N := map N.of_nat (seq 0 256).
Lemma in_all_bytes b : byte b -> In b all_bytes.
Proof.
  unfold byte, all_bytes. intros Hb. apply in_map_iff. exists (N.to_nat b).
  split; [lia|]. apply in_seq. lia.
Qed.
Lemma debug_hex_numeral : numeral byte debug_hex.
Proof.
  apply (numeral_finite all_bytes N.eqb).
  - apply in_all_bytes.
  - intros a b. apply N.eqb_eq.
  - vm_compute. reflexivity.
Qed.
Definition i8_values : list Z := map (fun n => (Z.of_nat n - 128)%Z) (seq 0 256).
Lemma debug_int_numeral : numeral is_i8 debug_int.
Proof.
  apply (numeral_finite i8_values Z.eqb).
  - unfold is_i8, i8_values. intros z Hz. apply in_map_iff. exists (Z.to_nat (z + 128)).
    split; [lia|]. apply in_seq. lia.
  - intros a b. apply Z.eqb_eq.
  - vm_compute. reflexivity.
Qed.

(** ** Unambiguous texts: whatever follows them *)
Definition unambiguous {A} (P : A -> Prop) (show : A -> string) : Prop :=
  forall a b r1 r2, P a -> P b -> show a ++ r1 = show b ++ r2 -> a = b /\ r1 = r2.

Section Lists.
Context (P : N -> Prop) (show : N -> string) (Hs : numeral P show).
Definition list_end (l : list N) (r : string) : string :=
  match l with [] => "]" ++ r | _ => ", " ++ concat ", " (map show l) ++ "]" ++ r end.
Lemma list_body_cons a l r :
  concat ", " (map show (a :: l)) ++ "]" ++ r = show a ++ list_end l r.
Proof.
  destruct l as [|b l]; [reflexivity|].
  change (concat ", " (map show (a :: b :: l))) with (show a ++ ", " ++ concat ", " (map show (b :: l))).
  rewrite sapp_assoc. cbn [list_end]. f_equal.
Qed.
Lemma list_end_char l r : exists c t, list_end l r = String c t /\ number_char c = false.
Proof. destruct l; cbn; eauto. Qed.

Lemma list_body_inv l1 : forall l2 r1 r2, Forall P l1 -> Forall P l2 ->
  concat ", " (map show l1) ++ "]" ++ r1 = concat ", " (map show l2) ++ "]" ++ r2 ->
  l1 = l2 /\ r1 = r2.
Proof.
  assert (Nonempty : forall a l r1 r2, P a ->
    concat ", " (map show []) ++ "]" ++ r1 = concat ", " (map show (a :: l)) ++ "]" ++ r2 -> False).
  { intros a l r1 r2 Ha H. rewrite list_body_cons in H. cbn [map concat append] in H.
    assert (T := numeral_text _ _ Hs a Ha). assert (K := numeral_nonempty _ _ Hs a Ha).
    destruct (show a) as [|c s]; [now apply K|]. cbn in H, T. apply andb_prop in T.
    destruct T as [T _]. assert (c = "]"%char) by congruence. subst c. discriminate. }
  induction l1 as [|a l1 IH]; intros [|b l2] r1 r2 H1 H2 H.
  - cbn in H. split; [reflexivity|congruence].
  - exfalso. apply Forall_inv in H2. eapply Nonempty; eassumption.
  - exfalso. apply Forall_inv in H1. eapply Nonempty; [exact H1|symmetry; exact H].
  - rewrite !list_body_cons in H.
    destruct (list_end_char l1 r1) as (c & t & E1 & Hc), (list_end_char l2 r2) as (d & t' & E2 & Hd).
    assert (Ha := Forall_inv H1). assert (Hb := Forall_inv H2).
    rewrite E1, E2 in H. apply number_end in H; try assumption;
      try (now apply (numeral_text _ _ Hs)).
    destruct H as [H K]. apply (numeral_inj _ _ Hs) in H; try assumption. subst b.
    rewrite <- E1, <- E2 in K.
    apply Forall_inv_tail in H1, H2.
    assert (l1 = l2 /\ r1 = r2) as [-> ->]; [|auto].
    destruct l1 as [|x l1], l2 as [|y l2]; cbn [list_end] in K; try discriminate.
    + apply sapp_inv in K. auto.
    + apply sapp_inv in K. apply IH; assumption.
Qed.
Lemma debug_list_unambiguous : unambiguous (Forall P) (debug_list show).
Proof.
  intros l1 l2 r1 r2 H1 H2. unfold debug_list. rewrite !sapp_assoc. intros H.
  apply sapp_inv in H. now apply list_body_inv.
Qed.
End Lists.

(** A number before something that is no part of a number. *)
Lemma number_then {A} P show s (Hs : @numeral A P show) c t : s = String c t -> number_char c = false ->
  unambiguous P (fun a => show a ++ s).
Proof.
  intros -> Hc a b r1 r2 Ha Hb H. rewrite !sapp_assoc in H. cbn [append] in H.
  apply number_end in H; try assumption; try (now apply (numeral_text _ _ Hs)).
  destruct H as [H K]. apply (numeral_inj _ _ Hs) in H; try assumption. subst b.
  split; [reflexivity|]. injection K as K. now apply sapp_inv in K.
Qed.

(** ** The texts of the crate *)
Definition pair_typed (p : completed_packets_pair) : Prop := True.
Lemma pair_unambiguous : unambiguous pair_typed debug_completed_packets_pair.
Proof.
  intros [h1 n1] [h2 n2] r1 r2 _ _. unfold debug_completed_packets_pair.
  cbn [cpp_conn_handle cpp_num_completed_packets]. rewrite !sapp_assoc. intros H.
  apply sapp_inv in H.
  assert (U1 := number_then _ _ "), num_completed_packets: " debug_uint_numeral _ _ eq_refl eq_refl).
  rewrite <- (sapp_assoc (debug_uint h1)), <- (sapp_assoc (debug_uint h2)) in H.
  apply U1 in H; [|exact I|exact I]. destruct H as [-> H].
  assert (U2 := number_then _ _ " }" debug_uint_numeral _ _ eq_refl eq_refl).
  rewrite <- (sapp_assoc (debug_uint n1)), <- (sapp_assoc (debug_uint n2)) in H.
  apply U2 in H; [|exact I|exact I]. destruct H as [-> ->]. auto.
Qed.

Lemma bytes_all (l : list N) : Forall (fun _ => True) l.
Proof. induction l; constructor; auto. Qed.
Lemma list_unambiguous l1 l2 r1 r2 :
  debug_list debug_uint l1 ++ r1 = debug_list debug_uint l2 ++ r2 -> l1 = l2 /\ r1 = r2.
Proof. apply (debug_list_unambiguous _ _ debug_uint_numeral); apply bytes_all. Qed.

Lemma address_unambiguous a b r1 r2 :
  debug_bd_addr_type a ++ r1 = debug_bd_addr_type b ++ r2 -> a = b /\ r1 = r2.
Proof.
  unfold debug_bd_addr_type, debug_bd_addr.
  destruct a as [x|x], b as [y|y]; rewrite !sapp_assoc; intros H; try discriminate;
    apply sapp_inv, sapp_inv, list_unambiguous in H; destruct H as [-> H];
    apply sapp_inv, sapp_inv in H; auto.
Qed.

Lemma event_unambiguous a b r1 r2 :
  debug_advertisement_event a ++ ", " ++ r1 = debug_advertisement_event b ++ ", " ++ r2 ->
  a = b /\ r1 = r2.
Proof.
  destruct a, b; cbn [debug_advertisement_event]; intros H; try discriminate;
    apply sapp_inv, sapp_inv in H; auto.
Qed.

Definition rssi_typed (r : option Z) : Prop := match r with Some z => is_i8 z | None => True end.
Definition debug_rssi (r : option Z) : string :=
  match r with Some z => "Some(" ++ debug_int z ++ ")" | None => "None" end.
Lemma rssi_unambiguous : unambiguous rssi_typed debug_rssi.
Proof.
  intros [x|] [y|] r1 r2 Hx Hy; cbn [debug_rssi]; rewrite ?sapp_assoc; intros H; try discriminate.
  - apply sapp_inv in H.
    assert (U := number_then _ _ ")" debug_int_numeral _ _ eq_refl eq_refl).
    rewrite <- (sapp_assoc (debug_int x)), <- (sapp_assoc (debug_int y)) in H.
    apply U in H; [|assumption|assumption]. destruct H as [-> ->]. auto.
  - apply sapp_inv in H. auto.
Qed.

Definition advertisement_shown (a : le_advertisement) : Prop := rssi_typed (la_rssi a).
Lemma advertisement_unambiguous : unambiguous advertisement_shown debug_le_advertisement.
Proof.
  intros [e1 a1 d1 s1] [e2 a2 d2 s2] r1 r2 H1 H2. unfold debug_le_advertisement.
  cbn [la_event_type la_address la_data la_rssi]. fold (debug_rssi s1). fold (debug_rssi s2).
  rewrite !sapp_assoc. intros H. apply sapp_inv in H.
  change (", address: ") with (", " ++ "address: ") in H. rewrite !sapp_assoc in H.
  apply event_unambiguous in H. destruct H as [-> H].
  apply sapp_inv, address_unambiguous in H. destruct H as [-> H].
  apply sapp_inv, list_unambiguous in H. destruct H as [-> H].
  apply sapp_inv, rssi_unambiguous in H; [|assumption|assumption]. destruct H as [-> H].
  apply sapp_inv in H. auto.
Qed.

(** ** Loops *)
Section Loops.
Context {E St A : Type} (next : St -> outcome E (option A * St)) (show : A -> string).
Definition shown (l : list A) : string := fold_right (fun a t => show a ++ t) "}" l.

Lemma loop_shows s l : iterates next s l -> forall fuel, (List.length l < fuel)%nat ->
  debug_loop fuel next show s = Some (Ok (shown l)).
Proof.
  induction 1 as [s H|s x s' l H Hit IH]; intros fuel Hf; (destruct fuel as [|fuel]; [cbn in Hf; lia|]);
    cbn [debug_loop]; rewrite H.
  - reflexivity.
  - rewrite IH by (cbn in Hf; lia). reflexivity.
Qed.

Context (P : A -> Prop) (U : unambiguous P show)
  (first : ascii) (Hfirst : forall a, exists t, show a = String first t) (Hne : first <> "}"%char).
Lemma shown_inj l1 : forall l2, Forall P l1 -> Forall P l2 -> shown l1 = shown l2 -> l1 = l2.
Proof.
  induction l1 as [|a l1 IH]; intros [|b l2] H1 H2 H; cbn [shown fold_right] in H.
  - reflexivity.
  - destruct (Hfirst b) as [t Ht]. rewrite Ht in H. cbn in H. congruence.
  - destruct (Hfirst a) as [t Ht]. rewrite Ht in H. cbn in H. congruence.
  - apply U in H; [|now apply Forall_inv in H1|now apply Forall_inv in H2].
    destruct H as [-> H]. f_equal. apply IH; [now apply Forall_inv_tail in H1|now apply Forall_inv_tail in H2|exact H].
Qed.
End Loops.

Lemma completed_packets_printed e l : iterates (@ncp_next Empty_set e) O l ->
  prints (fun fuel => @debug_number_of_completed_packets Empty_set fuel e)
    ("{" ++ shown debug_completed_packets_pair l).
Proof.
  intros H. exists (S (List.length l)). intros fuel Hf. unfold debug_number_of_completed_packets.
  now rewrite (loop_shows _ _ _ _ H) by lia.
Qed.
Lemma completed_packets_shown_inj l1 l2 :
  "{" ++ shown debug_completed_packets_pair l1 = "{" ++ shown debug_completed_packets_pair l2 -> l1 = l2.
Proof.
  intros H. apply sapp_inv in H.
  apply (shown_inj _ _ pair_unambiguous "N"%char) in H; try exact H.
  - intros a. eexists. reflexivity.
  - discriminate.
  - clear. induction l1; constructor; [exact I|assumption].
  - clear. induction l2; constructor; [exact I|assumption].
Qed.

Lemma report_printed r l : iterates (@lar_next Empty_set r) O l ->
  prints (fun fuel => @debug_le_advertising_report Empty_set fuel r)
    ("{" ++ shown debug_le_advertisement l).
Proof.
  intros H. exists (S (List.length l)). intros fuel Hf. unfold debug_le_advertising_report.
  now rewrite (loop_shows _ _ _ _ H) by lia.
Qed.
Lemma report_shown_inj l1 l2 : Forall advertisement_ok l1 -> Forall advertisement_ok l2 ->
  "{" ++ shown debug_le_advertisement l1 = "{" ++ shown debug_le_advertisement l2 -> l1 = l2.
Proof.
  assert (K : forall l, Forall advertisement_ok l -> Forall advertisement_shown l).
  { intros l. apply Forall_impl. intros a [_ H]. unfold advertisement_shown, rssi_typed.
    destruct (la_rssi a); tauto. }
  intros H1 H2 H. apply sapp_inv in H.
  apply (shown_inj _ _ advertisement_unambiguous "L"%char) in H; try exact H.
  - intros a. eexists. reflexivity.
  - discriminate.
  - now apply K.
  - now apply K.
Qed.

(** ** Accepted events *)
Lemma prints_inj {E} (f : nat -> option (outcome E string)) t1 t2 : prints f t1 -> prints f t2 -> t1 = t2.
Proof.
  intros [n H] [m K]. specialize (H (n + m)%nat ltac:(lia)). specialize (K (n + m)%nat ltac:(lia)).
  congruence.
Qed.

Lemma accepted_pairs_printed F V pkt ev : bytes pkt ->
  event_new F V pkt = Ok (EvNumberOfCompletedPackets ev) ->
  exists t, prints (fun fuel => @debug_number_of_completed_packets Empty_set fuel ev) t.
Proof.
  intros Hb H. destruct (accepted_pairs_iterate F V pkt ev Hb H) as (l & It & _).
  eexists. exact (completed_packets_printed ev l It).
Qed.
Lemma pairs_text_faithful ev1 ev2 l1 l2 t :
  iterates (@ncp_next Empty_set ev1) O l1 -> iterates (@ncp_next Empty_set ev2) O l2 ->
  prints (fun fuel => @debug_number_of_completed_packets Empty_set fuel ev1) t ->
  prints (fun fuel => @debug_number_of_completed_packets Empty_set fuel ev2) t -> l1 = l2.
Proof.
  intros I1 I2 P1 P2. apply completed_packets_shown_inj.
  rewrite (prints_inj _ _ _ (completed_packets_printed _ _ I1) P1).
  now rewrite (prints_inj _ _ _ (completed_packets_printed _ _ I2) P2).
Qed.

Lemma accepted_report_printed F V pkt r : bytes pkt ->
  event_new F V pkt = Ok (EvLeAdvertisingReport r) ->
  exists t, prints (fun fuel => @debug_le_advertising_report Empty_set fuel r) t.
Proof.
  intros Hb H. destruct (accepted_report_iterates F V pkt r Hb H) as (l & It & _).
  eexists. exact (report_printed r l It).
Qed.
Lemma report_text_faithful F1 V1 F2 V2 pkt1 pkt2 r1 r2 l1 l2 t : bytes pkt1 -> bytes pkt2 ->
  event_new F1 V1 pkt1 = Ok (EvLeAdvertisingReport r1) ->
  event_new F2 V2 pkt2 = Ok (EvLeAdvertisingReport r2) ->
  iterates (@lar_next Empty_set r1) O l1 -> iterates (@lar_next Empty_set r2) O l2 ->
  prints (fun fuel => @debug_le_advertising_report Empty_set fuel r1) t ->
  prints (fun fuel => @debug_le_advertising_report Empty_set fuel r2) t -> l1 = l2.
Proof.
  intros B1 B2 A1 A2 I1 I2 P1 P2. apply report_shown_inj.
  - now apply (proj1 (advertising_report_packet F1 V1 pkt1 l1 B1) (ex_intro _ r1 (conj A1 I1))).
  - now apply (proj1 (advertising_report_packet F2 V2 pkt2 l2 B2) (ex_intro _ r2 (conj A2 I2))).
  - rewrite (prints_inj _ _ _ (report_printed _ _ I1) P1).
    now rewrite (prints_inj _ _ _ (report_printed _ _ I2) P2).
Qed.

(** ** Supported commands *)
Lemma debug_flags_text {E} v : List.length v = 64%nat -> exists t, @debug_command_flags E v = Ok t.
Proof.
  intros H. unfold debug_command_flags, slice. rewrite H. cbn [Nat.leb andb bind]. eauto.
Qed.
Lemma debug_flags_iff {E} v w : List.length v = 64%nat -> List.length w = 64%nat ->
  @debug_command_flags E v = debug_command_flags w <-> firstn 39 v = firstn 39 w.
Proof.
  intros Hv Hw. unfold debug_command_flags, slice. rewrite Hv, Hw.
  cbn [Nat.leb andb bind Nat.sub].
  change (skipn 0 v) with v. change (skipn 0 w) with w.
  assert (Split : forall l : list N, firstn 39 l = (firstn 16 l ++ firstn 16 (skipn 16 l) ++ firstn 7 (skipn 32 l))%list).
  { intros l.
    do 39 (destruct l as [|? l]; [reflexivity|]). reflexivity. }
  split.
  - intros H.
    match type of H with Ok ?a = Ok ?b => assert (K : a = b) by congruence end.
    apply list_unambiguous in K. destruct K as [E1 K]. apply sapp_inv in K.
    apply list_unambiguous in K. destruct K as [E2 K]. apply sapp_inv in K.
    apply list_unambiguous in K. destruct K as [E3 _].
    rewrite (Split v), (Split w). congruence.
  - intros H.
    assert (K : forall l : list N, firstn 16 l = firstn 16 (firstn 39 l)
       /\ firstn 16 (skipn 16 l) = firstn 16 (skipn 16 (firstn 39 l))
       /\ firstn 7 (skipn 32 l) = firstn 7 (skipn 32 (firstn 39 l))).
    { intros l. do 39 (destruct l as [|? l]; [repeat split; reflexivity|]). repeat split; reflexivity. }
    destruct (K v) as (-> & -> & ->), (K w) as (-> & -> & ->). now rewrite H.
Qed.

Lemma octet_bits v n b : nth_error v n = Some b -> forall j, j < 8 ->
  array_bit v (8 * N.of_nat n + j) = N.testbit b j.
Proof.
  intros H j Hj. unfold array_bit. replace (N.to_nat ((8 * N.of_nat n + j) / 8)) with n by lia.
  rewrite H. f_equal. lia.
Qed.
Lemma bits_octet v w n a b : bytes v -> bytes w -> nth_error v n = Some a -> nth_error w n = Some b ->
  (forall j, j < 8 -> array_bit v (8 * N.of_nat n + j) = array_bit w (8 * N.of_nat n + j)) -> a = b.
Proof.
  intros Bv Bw Ea Eb H. apply N.bits_inj. intros j. destruct (N.ltb_spec j 8) as [Hj|Hj].
  - specialize (H j Hj). now rewrite (octet_bits _ _ _ Ea), (octet_bits _ _ _ Eb) in H by exact Hj.
  - apply nth_error_In in Ea, Eb. unfold bytes in Bv, Bw. rewrite Forall_forall in Bv, Bw.
    rewrite !byte_testbit by auto. reflexivity.
Qed.

Lemma first_bits k v w : List.length v = 64%nat -> List.length w = 64%nat -> bytes v -> bytes w ->
  (k <= 64)%nat ->
  firstn k v = firstn k w <-> forall i, i < 8 * N.of_nat k -> array_bit v i = array_bit w i.
Proof.
  intros Lv Lw Bv Bw Hk.
  assert (Nth : forall (l : list N) n, List.length l = 64%nat -> (n < k)%nat -> nth_error (firstn k l) n = nth_error l n).
  { intros l n Hl Hn. rewrite <- (firstn_skipn k l) at 2. rewrite nth_error_app1; [reflexivity|].
    rewrite firstn_length. lia. }
  split.
  - intros H i Hi. unfold array_bit.
    assert (Hn : (N.to_nat (i / 8) < k)%nat) by lia.
    rewrite <- (Nth v _ Lv Hn), <- (Nth w _ Lw Hn), H. reflexivity.
  - intros H. apply nth_ext with (d := 0) (d' := 0); [rewrite !firstn_length; lia|].
    intros n Hn. rewrite firstn_length in Hn. assert (Hn' : (n < k)%nat) by lia.
    destruct (nth_error v n) as [a|] eqn:Ea; [|apply nth_error_None in Ea; lia].
    destruct (nth_error w n) as [b|] eqn:Eb; [|apply nth_error_None in Eb; lia].
    assert (a = b) as <- by (apply (bits_octet v w n); try assumption; intros j Hj; apply H; lia).
    erewrite (nth_error_nth (firstn k v)) by (rewrite Nth by assumption; exact Ea).
    erewrite (nth_error_nth (firstn k w)) by (rewrite Nth by assumption; exact Eb). reflexivity.
Qed.

Lemma command_flags_text {E} F v : obtainable F command_table v ->
  exists t, @debug_command_flags E v = Ok t.
Proof.
  intros H. apply (obtainable_bits F command_table) in H; [|cbn; tauto].
  apply debug_flags_text. apply H.
Qed.
Lemma command_flags_shown {E} F v w : obtainable F command_table v -> obtainable F command_table w ->
  @debug_command_flags E v = debug_command_flags w <->
  forall i, i < 8 * 39 -> array_bit v i = array_bit w i.
Proof.
  intros Hv Hw.
  apply (obtainable_bits F command_table) in Hv; [|cbn; tauto].
  apply (obtainable_bits F command_table) in Hw; [|cbn; tauto].
  destruct Hv as (Lv & Bv & _), Hw as (Lw & Bw & _).
  rewrite (debug_flags_iff v w Lv Lw). apply (first_bits 39 v w Lv Lw Bv Bw). lia.
Qed.

Lemma no_late_bits F i : version_5_0 F = false -> 8 * 39 <= i -> command_bit_defined F i = false.
Proof.
  intros HF Hi. unfold command_bit_defined.
  destruct (nth_error (command_octets F) (N.to_nat (i / 8))) as [b|] eqn:E; [|reflexivity].
  assert (Hl : (N.to_nat (i / 8) < List.length (command_octets F))%nat)
    by (apply nth_error_Some; congruence).
  rewrite command_octets_length in Hl. replace (N.to_nat (i / 8)) with 39%nat in E by lia.
  destruct F as [v4 v5]. cbn in HF. subst v5. destruct v4; vm_compute in E; injection E as <-; apply N.bits_0.
Qed.
Lemma command_flags_shown_before {E} F v w : version_5_0 F = false ->
  obtainable F command_table v -> obtainable F command_table w ->
  @debug_command_flags E v = debug_command_flags w -> v = w.
Proof.
  intros HF Hv Hw H. assert (K := proj1 (command_flags_shown F v w Hv Hw) H). clear H. rename K into H.
  apply (obtainable_bits F command_table) in Hv; [|cbn; tauto].
  apply (obtainable_bits F command_table) in Hw; [|cbn; tauto].
  destruct Hv as (Lv & Bv & Dv), Hw as (Lw & Bw & Dw).
  change (ft_size command_table) with 64%nat in Lv, Lw.
  rewrite <- (firstn_all v), <- (firstn_all w), Lv, Lw.
  apply (first_bits 64 v w Lv Lw Bv Bw); [lia|].
  intros i _. destruct (N.ltb_spec i (8 * 39)) as [Hi|Hi]; [auto|].
  assert (K := no_late_bits F i HF Hi).
  specialize (Dv i). specialize (Dw i). cbn [ft_defined command_table] in Dv, Dw.
  destruct (array_bit v i), (array_bit w i); try reflexivity;
    [rewrite Dv in K by reflexivity|rewrite Dw in K by reflexivity]; discriminate.
Qed.

(** ** Keys and blocks *)
Lemma hex_list_unambiguous l1 l2 r1 r2 : bytes l1 -> bytes l2 ->
  debug_list debug_hex l1 ++ r1 = debug_list debug_hex l2 ++ r2 -> l1 = l2 /\ r1 = r2.
Proof. apply (debug_list_unambiguous _ _ debug_hex_numeral). Qed.
Lemma encrypted_block_shown a b : bytes a -> bytes b ->
  debug_encrypted_block a = debug_encrypted_block b -> a = b.
Proof.
  intros Ha Hb H. unfold debug_encrypted_block in H. apply sapp_inv in H.
  apply hex_list_unambiguous in H; tauto.
Qed.
Lemma aes_parameters_shown p q : bytes (aes_key p) -> bytes (aes_key q) ->
  debug_aes_parameters p = debug_aes_parameters q <-> aes_key p = aes_key q.
Proof.
  intros Hp Hq. unfold debug_aes_parameters, debug_encryption_key. rewrite !sapp_assoc. split.
  - intros H. apply sapp_inv, sapp_inv, hex_list_unambiguous in H; tauto.
  - intros ->. reflexivity.
Qed.
Lemma plaintext_hidden a b : debug_plaintext_block a = debug_plaintext_block b.
Proof. reflexivity. Qed.
Lemma key_revealed : exists p q, aes_plaintext_data p = aes_plaintext_data q
  /\ debug_aes_parameters p <> debug_aes_parameters q.
Proof.
  exists {| aes_key := repeat 1 16; aes_plaintext_data := repeat 7 16 |},
         {| aes_key := repeat 2 16; aes_plaintext_data := repeat 7 16 |}.
  split; [reflexivity|]. intros H. apply aes_parameters_shown in H; [discriminate| |];
    cbn [aes_key]; apply Forall_forall; intros x Hx; apply repeat_spec in Hx; subst; reflexivity.
Qed.
(** LE Set Privacy Mode alone, and nothing. *)
Lemma flags_hidden : exists F v w, obtainable F command_table v /\ obtainable F command_table w
  /\ @debug_command_flags Empty_set v = debug_command_flags w /\ ba_eq v w = false.
Proof.
  exists {| version_4_2 := true; version_5_0 := true |}, (repeat 0 39 ++ [4] ++ repeat 0 24)%list, (repeat 0 64).
  repeat split.
  - exists (MFrom (39%nat, 4)). split; [|vm_compute; reflexivity].
    cbn [well_typed]. assert (K : existsb (fun x => (Nat.eqb (fst x) 39 && (snd x =? 4)%N)%bool)
      (constants {| version_4_2 := true; version_5_0 := true |} command_table) = true) by (vm_compute; reflexivity).
    apply existsb_exists in K. destruct K as ([o m] & K & E). cbn [fst snd] in E.
    apply andb_prop in E. destruct E as [E1 E2]. apply Nat.eqb_eq in E1. apply N.eqb_eq in E2. now subst.
  - exists MEmpty. split; [exact I|vm_compute; reflexivity].
Qed.
Lemma command_flags_case : obtainable F41 command_table (1 :: repeat 0 63)
  /\ exists t u, @debug_command_flags Empty_set (1 :: repeat 0 63) = Ok t
     /\ @debug_command_flags Empty_set (repeat 0 64) = Ok u /\ t <> u.
Proof.
  split.
  - exists (MFrom (0%nat, 1)). split; [|vm_compute; reflexivity].
    cbn [well_typed]. assert (K : existsb (fun x => (Nat.eqb (fst x) 0 && (snd x =? 1)%N)%bool)
      (constants F41 command_table) = true) by (vm_compute; reflexivity).
    apply existsb_exists in K. destruct K as ([o m] & K & E). cbn [fst snd] in E.
    apply andb_prop in E. destruct E as [E1 E2]. apply Nat.eqb_eq in E1. apply N.eqb_eq in E2. now subst.
  - eexists _, _. split; [vm_compute; reflexivity|]. split; [vm_compute; reflexivity|]. intros H. discriminate H.
Qed.
