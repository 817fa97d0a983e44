(** * The numbers in debug texts. *)
From Verif Require Import Base Model_Types Model_Bitflags Model_EventBase Model_Command Model_Event Model_Host
  Model_Debug Spec_Wire Spec_Flags Spec_Debug Spec_Numerals Spec_Example Proofs_Base Proofs_Flags Proofs_Debug.
From Coq Require Import String Ascii DecimalString DecimalN Lia.
Open Scope N_scope.
Open Scope list_scope.
Open Scope string_scope.

(** The text [t] has the numbers [l] in it, and the last one ends there. *)
Definition reads (base : N) (t : string) (l : list N) : Prop :=
  forall r, numbers_after base None (t ++ r) = (l ++ numbers_after base None r)%list.
(** A numeral, with a character after it that is not a digit. *)
Definition spells (base : N) (t : string) (n : N) : Prop :=
  forall c r, digit_value base c = None ->
    numbers_after base None (t ++ String c r) = n :: numbers_after base None (String c r).

Lemma reads_nil base : reads base "" [].
Proof. intros r. reflexivity. Qed.
Lemma reads_app base t u l m : reads base t l -> reads base u m -> reads base (t ++ u) (l ++ m)%list.
Proof. intros H K r. rewrite sapp_assoc, H, K. now rewrite <- app_assoc. Qed.
Lemma reads_char base c : digit_value base c = None -> reads base (String c "") [].
Proof. intros H r. cbn [append numbers_after]. now rewrite H. Qed.
Fixpoint plain (base : N) (t : string) : bool :=
  match t with
  | EmptyString => true
  | String c t => match digit_value base c with Some _ => false | None => plain base t end
  end.
Lemma reads_plain base t : plain base t = true -> reads base t [].
Proof.
  induction t as [|c t IH]; cbn [plain]; intros H; [apply reads_nil|].
  destruct (digit_value base c) as [d|] eqn:E; [discriminate|].
  apply (reads_app base (String c "") t [] []); [now apply reads_char|auto].
Qed.
Lemma spells_then base t n c u l : spells base t n -> digit_value base c = None ->
  reads base (String c u) l -> reads base (t ++ String c u) (n :: l).
Proof.
  intros Ht Hc Hu r. rewrite sapp_assoc. cbn [append]. rewrite Ht by exact Hc.
  specialize (Hu r). cbn [append] in Hu. rewrite Hu. reflexivity.
Qed.
Lemma reads_all base t l : reads base t l -> numbers base t = l.
Proof.
  intros H. specialize (H ""). assert (K : t ++ "" = t) by (clear; induction t; cbn; congruence).
  rewrite K in H. unfold numbers. rewrite H. cbn. apply app_nil_r.
Qed.

(** Decimal numerals. *)
Lemma digit_next base started c t d : digit_value base c = Some d ->
  numbers_after base started (String c t)
  = numbers_after base (Some (base * match started with Some v => v | None => 0 end + d)) t.
Proof. intros H. cbn [numbers_after]. now rewrite H. Qed.
Lemma digit_end base v c r : digit_value base c = None ->
  numbers_after base (Some v) (String c r) = v :: numbers_after base None (String c r).
Proof. intros H. cbn [numbers_after]. now rewrite H. Qed.
Lemma uint_positive d : forall p c r, digit_value 10 c = None ->
  numbers_after 10 (Some (Npos p)) (NilEmpty.string_of_uint d ++ String c r)
  = Npos (Pos.of_uint_acc d p) :: numbers_after 10 None (String c r).
Proof.
  induction d; intros p c r Hc; cbn [NilEmpty.string_of_uint append].
  { now apply digit_end. }
  all: erewrite digit_next by reflexivity; cbn [Pos.of_uint_acc]; rewrite <- IHd by exact Hc;
    apply (f_equal (fun v => numbers_after 10 (Some v) _));
    match goal with |- ?e + ?d = _ => let v := eval vm_compute in d in change d with v end; lia.
Qed.
Lemma uint_zero d : forall c r, digit_value 10 c = None ->
  numbers_after 10 (Some 0) (NilEmpty.string_of_uint d ++ String c r)
  = Pos.of_uint d :: numbers_after 10 None (String c r).
Proof.
  induction d; intros c r Hc; cbn [NilEmpty.string_of_uint append].
  { now apply digit_end. }
  all: erewrite digit_next by reflexivity; cbn [Pos.of_uint].
  { now apply IHd. }
  all: match goal with |- numbers_after _ (Some ?e) _ = _ =>
         let v := eval vm_compute in e in change e with v end; now apply uint_positive.
Qed.
Lemma uint_spells n : spells 10 (debug_uint n) n.
Proof.
  intros c r Hc. unfold debug_uint.
  assert (E : N.of_uint (N.to_uint n) = n) by apply Unsigned.of_to.
  assert (U := uint_zero (N.to_uint n) c r Hc). unfold N.of_uint in E. rewrite E in U. rewrite <- U.
  destruct (N.to_uint n) as [|u|u|u|u|u|u|u|u|u|u] eqn:D; try reflexivity.
  exfalso. assert (n = 0) by now rewrite <- E. subst n. discriminate.
Qed.

(** Hexadecimal numerals. *)
Definition spelt_hex (b : N) : bool :=
  match debug_hex b with
  | String c EmptyString => match digit_value 16 c with Some d => N.eqb d b | None => false end
  | String c (String e EmptyString) =>
      match digit_value 16 c, digit_value 16 e with
      | Some d, Some f => N.eqb (16 * d + f) b
      | _, _ => false
      end
  | _ => false
  end.
Lemma hex_spells b : byte b -> spells 16 (debug_hex b) b.
Proof.
  intros Hb. assert (H : spelt_hex b = true).
  { assert (A : forallb spelt_hex all_bytes = true) by (vm_compute; reflexivity).
    rewrite forallb_forall in A. apply A, in_all_bytes, Hb. }
  unfold spelt_hex in H. intros c r Hc.
  destruct (debug_hex b) as [|x [|y [|z t]]]; try discriminate.
  - destruct (digit_value 16 x) as [d|] eqn:X; [|discriminate].
    apply N.eqb_eq in H. cbn [append]. rewrite (digit_next _ _ _ _ _ X), digit_end by exact Hc.
    f_equal. lia.
  - destruct (digit_value 16 x) as [d|] eqn:X; [|discriminate].
    destruct (digit_value 16 y) as [f|] eqn:Y; [|discriminate].
    apply N.eqb_eq in H. cbn [append].
    rewrite (digit_next _ _ _ _ _ X), (digit_next _ _ _ _ _ Y), digit_end by exact Hc.
    f_equal. lia.
Qed.

(** Lists. *)
Lemma list_reads base show l u m :
  (forall b, In b l -> spells base (show b) b) ->
  digit_value base "," = None -> digit_value base " " = None -> digit_value base "]" = None ->
  digit_value base "[" = None ->
  reads base u m -> reads base (debug_list show l ++ u) (l ++ m)%list.
Proof.
  intros Hs H1 H2 H3 H4 Hu. unfold debug_list. rewrite !sapp_assoc.
  apply (reads_app base "[" _ [] (l ++ m)%list); [now apply reads_char|].
  assert (He : reads base ("]" ++ u) m).
  { apply (reads_app base "]" u [] m); [now apply reads_char|exact Hu]. }
  induction l as [|a l IH]; [exact He|].
  assert (Ha := Hs a (or_introl eq_refl)).
  destruct l as [|b l].
  - cbn [map concat]. now apply spells_then.
  - change (concat ", " (map show (a :: b :: l))) with (show a ++ ", " ++ concat ", " (map show (b :: l))).
    rewrite !sapp_assoc.
    apply (spells_then base (show a) a "," (" " ++ concat ", " (map show (b :: l)) ++ "]" ++ u));
      [exact Ha|exact H1|].
    apply (reads_app base ", " _ [] ((b :: l) ++ m)%list).
    + apply reads_plain. cbn. now rewrite H1, H2.
    + apply IH. intros x Hx. apply Hs. now right.
Qed.
Lemma decimal_list_reads l u m : reads 10 u m -> reads 10 (debug_list debug_uint l ++ u) (l ++ m)%list.
Proof. apply list_reads; try reflexivity. intros b _. apply uint_spells. Qed.
Lemma hex_list_reads l u m : bytes l -> reads 16 u m -> reads 16 (debug_list debug_hex l ++ u) (l ++ m)%list.
Proof.
  intros Hl. apply list_reads; try reflexivity. intros b Hb. apply hex_spells.
  unfold bytes in Hl. rewrite Forall_forall in Hl. now apply Hl.
Qed.
Lemma skip_plain base t u l : plain base t = true -> reads base u l -> reads base (t ++ u) l.
Proof. intros Ht Hu. apply (reads_app base t u [] l); [now apply reads_plain|exact Hu]. Qed.

(** Entries of events. *)
Lemma pair_reads p : reads 10 (debug_completed_packets_pair p) (pair_numbers p).
Proof.
  unfold debug_completed_packets_pair, pair_numbers.
  apply skip_plain; [reflexivity|]. cbn [append].
  apply spells_then; [apply uint_spells|reflexivity|].
  apply (skip_plain 10 "), num_completed_packets: "); [reflexivity|].
  apply spells_then; [apply uint_spells|reflexivity|].
  apply reads_plain. reflexivity.
Qed.
Lemma address_reads a u m : reads 10 u m -> reads 10 (debug_bd_addr_type a ++ u) (address_numbers a ++ m)%list.
Proof.
  intros Hu. destruct a as [x|x]; unfold debug_bd_addr_type, debug_bd_addr, address_numbers;
    rewrite !sapp_assoc; (apply skip_plain; [reflexivity|]); (apply skip_plain; [reflexivity|]);
    apply decimal_list_reads; (apply skip_plain; [reflexivity|]); (apply skip_plain; [reflexivity|]);
    exact Hu.
Qed.
Lemma int_spells z u m c : digit_value 10 c = None -> reads 10 (String c u) m ->
  reads 10 (debug_int z ++ String c u) (Z.to_N (Z.abs z) :: m).
Proof.
  intros Hc Hu. unfold debug_int. rewrite sapp_assoc. apply skip_plain.
  - now destruct (z <? 0)%Z.
  - apply spells_then; [apply uint_spells|exact Hc|exact Hu].
Qed.
Lemma advertisement_reads a : reads 10 (debug_le_advertisement a) (advertisement_numbers a).
Proof.
  destruct a as [e a d s]. unfold debug_le_advertisement, advertisement_numbers.
  cbn [la_event_type la_address la_data la_rssi].
  apply skip_plain; [reflexivity|]. apply skip_plain; [now destruct e|].
  apply skip_plain; [reflexivity|]. apply address_reads.
  apply skip_plain; [reflexivity|]. apply decimal_list_reads.
  apply skip_plain; [reflexivity|]. destruct s as [z|].
  - rewrite !sapp_assoc. apply skip_plain; [reflexivity|].
    apply (int_spells z " }" [] ")"); [reflexivity|]. apply reads_plain. reflexivity.
  - apply reads_plain. reflexivity.
Qed.

Lemma shown_reads {A} (show : A -> string) (f : A -> list N) l :
  (forall a, reads 10 (show a) (f a)) -> reads 10 ("{" ++ shown show l) (flat_map f l).
Proof.
  intros H. apply skip_plain; [reflexivity|].
  induction l as [|a l IH]; cbn [shown fold_right flat_map].
  - apply reads_plain. reflexivity.
  - now apply reads_app.
Qed.

Lemma pairs_numbers ev l t : iterates (@ncp_next Empty_set ev) O l ->
  prints (fun fuel => @debug_number_of_completed_packets Empty_set fuel ev) t ->
  numbers 10 t = flat_map pair_numbers l.
Proof.
  intros It H. rewrite (prints_inj _ _ _ H (completed_packets_printed ev l It)).
  apply reads_all, shown_reads, pair_reads.
Qed.
Lemma report_numbers r l t : iterates (@lar_next Empty_set r) O l ->
  prints (fun fuel => @debug_le_advertising_report Empty_set fuel r) t ->
  numbers 10 t = flat_map advertisement_numbers l.
Proof.
  intros It H. rewrite (prints_inj _ _ _ H (report_printed r l It)).
  apply reads_all, shown_reads, advertisement_reads.
Qed.
Lemma encrypted_block_numbers b : bytes b ->
  exists t, debug_encrypted_block b = "AES-128 Encrypted Data (" ++ t /\ numbers 16 t = b.
Proof.
  intros Hb. unfold debug_encrypted_block. eexists. split; [reflexivity|].
  apply reads_all. rewrite <- (app_nil_r b) at 2. apply hex_list_reads; [exact Hb|].
  apply reads_plain. reflexivity.
Qed.
Lemma key_numbers k : bytes k ->
  exists t, debug_encryption_key k = "AES-128 Key (" ++ t /\ numbers 16 t = k.
Proof.
  intros Hb. unfold debug_encryption_key. eexists. split; [reflexivity|].
  apply reads_all. rewrite <- (app_nil_r k) at 2. apply hex_list_reads; [exact Hb|].
  apply reads_plain. reflexivity.
Qed.
Lemma flags_numbers {E} v t : List.length v = 64%nat -> @debug_command_flags E v = Ok t ->
  numbers 10 t = firstn 39 v.
Proof.
  intros Hv H. unfold debug_command_flags, slice in H. rewrite Hv in H.
  cbn [Nat.leb andb bind Nat.sub] in H.
  assert (K : forall a b c, numbers 10 (debug_list debug_uint a ++ newline
      ++ debug_list debug_uint b ++ newline ++ debug_list debug_uint c ++ newline) = (a ++ b ++ c)%list).
  { intros a b c. apply reads_all. apply decimal_list_reads. apply skip_plain; [reflexivity|].
    apply decimal_list_reads. apply skip_plain; [reflexivity|].
    rewrite <- (app_nil_r c) at 2. apply decimal_list_reads. apply reads_plain. reflexivity. }
  assert (T : forall x y, @Ok E string x = Ok y -> y = x) by congruence.
  apply T in H. rewrite H, K. clear - Hv.
  do 64 (destruct v as [|? v]; [discriminate|]). reflexivity.
Qed.
Lemma command_flags_numbers {E} F v t : obtainable F command_table v ->
  @debug_command_flags E v = Ok t -> numbers 10 t = firstn 39 v.
Proof.
  intros H. apply (obtainable_bits F command_table) in H; [|cbn; tauto].
  apply flags_numbers. apply H.
Qed.
