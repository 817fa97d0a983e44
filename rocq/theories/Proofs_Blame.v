(** * What an error says about the packet. *)
From Verif Require Import Base Model_Types Model_Bitflags Model_Intervals Model_EventBase Model_Command
  Model_Event Spec_Wire Spec_Interval Spec_Errors Spec_Report Spec_Example Spec_Pass Spec_Blame
  Proofs_Base Proofs_Bits Proofs_Interval Proofs_Event Proofs_Errors Proofs_Command Proofs_Report Proofs_Panic.
Open Scope list_scope.
Open Scope N_scope.

Section Blame.
Context (F : features) (V : vendor).
Local Notation VE := (VError V).
Context (HV : vendor_total V) (HN : vendor_names_status V).

Lemma at_framed c p i : at_ (framed c p) (2 + i) = at_ p i.
Proof. reflexivity. Qed.
Lemma at_framed_0 c p : at_ (framed c p) 0 = c.
Proof. reflexivity. Qed.
Lemma slice_framed c p i n : slice (2 + i) n (framed c p) = slice i n p.
Proof. reflexivity. Qed.

Lemma length_is_some p n e : length_is V p n = Some e -> e = EBadLength (length p) n /\ length p <> n.
Proof.
  unfold length_is. destruct (Nat.eqb_spec (length p) n); [discriminate|].
  intros H. injection H as <-. auto.
Qed.
Lemma status_is_some mk b e : status_is F V mk b = Some e -> e = mk b /\ no_status F V b.
Proof.
  unfold status_is, no_status. destruct (nth_error _ _); [discriminate|].
  destruct (vstatus_try_from V b) as [|x|] eqn:E; try discriminate.
  intros H. injection H as <-. rewrite (HN _ _ E). eauto.
Qed.
Lemma code_is_some m mk b e : code_is V m mk b = Some e -> e = mk b /\ m < b.
Proof.
  unfold code_is. destruct (N.leb_spec b m); [discriminate|]. intros K. injection K as <-. auto.
Qed.
Lemma bits_are_some n d b e e' : bits_are V n d b e = Some e' -> e' = e /\ undefined_bit d b.
Proof.
  unfold bits_are. destruct (forallb _ _) eqn:E; [discriminate|]. intros K. injection K as <-.
  split; [reflexivity|].
  assert (K : existsb (fun i => b i && negb (d i)) (map N.of_nat (seq 0 n)) = true).
  { clear e. induction (map N.of_nat (seq 0 n)) as [|i l IH]; [discriminate|]. cbn in *.
    destruct (b i), (d i); cbn in *; auto. }
  apply existsb_exists in K. destruct K as (i & _ & K). apply andb_true_iff in K. exists i.
  destruct (d i); cbn in K; intuition congruence.
Qed.
Lemma interval_is_some c p i e : interval_is V p i = Some e ->
  exists e', e = EBadConnectionInterval e' /\ blames_interval (framed c p) (2 + i) e'.
Proof.
  unfold interval_is. destruct (first_failure _) as [e'|] eqn:E; [|discriminate].
  intros K. injection K as <-. exists e'. split; [reflexivity|].
  change (u16_le p i) with (u16_le (framed c p) (2 + i)) in E.
  change (u16_le p (i + 2)) with (u16_le (framed c p) (2 + i + 2)) in E.
  change (u16_le p (i + 4)) with (u16_le (framed c p) (2 + i + 4)) in E.
  unfold blames_interval.
  set (d := u16_le (framed c p) (2 + i) * interval_unit) in *.
  set (l := u16_le (framed c p) (2 + i + 2)) in *.
  set (t := u16_le (framed c p) (2 + i + 4) * timeout_unit) in *.
  cbv zeta. set (needed := 2 * (1 + l) * d) in *.
  unfold interval_checks in E. fold needed in E. cbn [first_failure] in E.
  destruct (N.ltb_spec d (us 7500)); [injection E as <-; auto|].
  destruct (N.ltb_spec (ms 4000) d); [injection E as <-; auto|].
  rewrite N.ltb_irrefl in E.
  destruct (N.ltb_spec 499 l); [injection E as <-; auto|].
  destruct (N.leb_spec (ms 32000) needed); [injection E as <-; auto|].
  destruct (N.leb_spec t (N.max needed (ms 100))).
  { injection E as <-. split; [reflexivity|]. split; [assumption|]. destruct (N.max_spec needed (ms 100)); intuition. }
  destruct (N.ltb_spec (ms 32000) t); [injection E as <-; auto|discriminate].
Qed.

Lemma skipn_slice (p : list N) i n : length p = (i + n)%nat -> skipn i p = slice i n p.
Proof. intros L. unfold slice. symmetry. apply firstn_all2. rewrite skipn_length. lia. Qed.

Ltac field_error K :=
  first
  [ apply length_is_some in K; destruct K as [-> K]
  | apply status_is_some in K; destruct K as [-> K]
  | apply code_is_some in K; destruct K as [-> K]
  | apply bits_are_some in K; destruct K as [-> K] ].

Lemma first_error_cases {E} (c : option E) l e : first_error (c :: l) = Some e ->
  c = Some e \/ (c = None /\ first_error l = Some e).
Proof. destruct c; cbn; auto. Qed.
Lemma length_is_none p n : length_is V p n = None -> length p = n.
Proof. unfold length_is. destruct (Nat.eqb_spec (length p) n); [auto|discriminate]. Qed.

Lemma event_blames code p cs e : event_checks F V code p = Some cs -> first_error cs = Some e ->
  blames F V (framed code p) e.
Proof.
  intros Hc H. unfold event_checks in Hc.
  repeat match type of Hc with
  | match ?t with _ => _ end = _ => destruct t eqn:?; try discriminate Hc
  end; injection Hc as <-; subst;
  (apply first_error_cases in H; destruct H as [K|[L H]];
   [apply length_is_some in K; destruct K as [-> K];
    apply (not_of_event _ (length _)); [reflexivity|reflexivity|exact K]|apply length_is_none in L]).
  all: apply first_error_in in H; cbn [In] in H.
  all: repeat (destruct H as [K|H];
     [ first
       [ apply status_is_some in K; destruct K as [-> K]; split; [reflexivity|]; first [exact K|split; [reflexivity|exact K]]
       | apply code_is_some in K; destruct K as [-> K]; cbn [blames];
         first [ split; [split; reflexivity|]; split; [reflexivity|exact K]
               | split; [reflexivity|]; split; [reflexivity|exact K]
               | split; [exact K|]; left; split; [first [reflexivity|split; reflexivity]|reflexivity]
               | split; [exact K|]; right; split; reflexivity
               | split; [split; reflexivity|]; split; [exact K|]; first [left; reflexivity|right; reflexivity] ]
       | apply (interval_is_some 0x3E) in K; destruct K as (e' & -> & K); cbn [blames];
         first [ left; split; [split; reflexivity|]; exact K
               | right; split; [split; reflexivity|]; exact K ]
       | apply bits_are_some in K; destruct K as [-> K]; split; [split; reflexivity|];
         split; [exact (f_equal number_le (skipn_slice _ 4 8 L))|exact K] ] |]).
  all: destruct H.
Qed.

(** ** Return parameters *)
Definition complete (n op : N) (ret : list N) : list N := framed 0x0E ([n] ++ le 2 op ++ ret).
Lemma complete_opcode n op ret : u16 op -> is_return op (complete n op ret).
Proof.
  intros U. split; [reflexivity|]. unfold complete, framed, u16_le, at_. rewrite le_2. cbn [app nth].
  unfold u16 in U. change (2 ^ 16) with 65536 in U. cbn [Nat.add nth]. lia.
Qed.
Lemma complete_at n op ret i : at_ (complete n op ret) (5 + i) = at_ ret i.
Proof. reflexivity. Qed.
Lemma complete_slice n op ret i k : slice (5 + i) k (complete n op ret) = slice i k ret.
Proof. reflexivity. Qed.
Lemma complete_length n op ret : length (complete n op ret) = (5 + length ret)%nat.
Proof. reflexivity. Qed.

Lemma return_blames n op ret cs e : u16 op -> return_checks F V op ret = Some cs -> first_error cs = Some e ->
  blames F V (complete n op ret) e.
Proof.
  intros U Hc H. assert (R := complete_opcode n op ret U). unfold return_checks in Hc. cbv zeta in Hc.
  repeat match type of Hc with
  | (if op =? ?c then _ else _) = _ =>
      destruct (N.eqb_spec op c) as [Eo|_];
      [injection Hc as <-;
       apply first_error_cases in H; destruct H as [K|[L H]];
       [apply length_is_some in K; destruct K as [-> K];
        apply (not_of_return _ c (length ret)); [rewrite <- Eo; exact R|reflexivity| |exact K];
        cbn [return_lengths In]; tauto
       |apply length_is_none in L];
       apply first_error_cases in H; destruct H as [K|[S H]];
       [apply status_is_some in K; destruct K as [-> K]; split; [reflexivity|exact K]|];
       apply first_error_in in H; cbn [In] in H; try now destruct H|]
  end; [..|discriminate Hc].
  - destruct H as [K|[]]. apply bits_are_some in K. destruct K as [-> K].
    split; [rewrite <- Eo; exact R|]. change (slice 6 64 (complete n op ret)) with (slice 1 64 ret).
    now rewrite <- (skipn_slice ret 1 64 L).
  - destruct H as [K|[]]. apply bits_are_some in K. destruct K as [-> K].
    split; [rewrite <- Eo; exact R|]. change (slice 8 5 (complete n op ret)) with (slice 3 5 ret).
    now rewrite <- (skipn_slice ret 3 5 L).
  - destruct H as [K|[]]. apply bits_are_some in K. destruct K as [-> K].
    split; [rewrite <- Eo; exact R|]. change (slice 6 8 (complete n op ret)) with (slice 1 8 ret).
    now rewrite <- (skipn_slice ret 1 8 L).
Qed.

Lemma complete_blames p e : bytes p -> command_complete_new F V p = Err e ->
  blames F V (framed 0x0E p) e
  \/ (vendor_packet (framed 0x0E p) /\ vreturn_new V p = Err e).
Proof.
  intros Hb. destruct p as [|n [|o0 [|o1 ret]]].
  1-3: rewrite command_complete_short by (cbn; lia); intros H; injection H as <-; left;
       apply no_opcode; [reflexivity|reflexivity|cbn; lia].
  bytes_inv. rewrite command_complete_cons. set (op := o0 + 256 * o1).
  assert (Hop : u16 op) by (apply u16_of_bytes; assumption).
  assert (Ec : framed 0x0E (n :: o0 :: o1 :: ret) = complete n op ret)
    by (unfold complete, op; rewrite le_2_of_bytes by assumption; reflexivity).
  intros HE.
  assert (K : return_params_of F V op (n :: o0 :: o1 :: ret) = Err e)
    by (destruct (return_params_of F V op (n :: o0 :: o1 :: ret)); cbn in HE; congruence).
  clear HE.
  destruct (opcode_kinds F V op ret) as [E0|[H'|[E0|[[cs H']|H']]]].
  - rewrite E0 in K. discriminate K.
  - left. destruct ret as [|sb rest]; [rewrite status_only_panic in K by exact H'; discriminate K|].
    assert (A := status_only_agrees F V HV n o0 o1 op sb rest H').
    apply agrees_err in A. destruct A as (A & _). apply A in K.
    apply status_is_some in K. destruct K as [-> K]. split; [reflexivity|exact K].
  - left. rewrite E0 in K. destruct ret as [|sb [|size rest]].
    + discriminate K.
    + assert (A := status_of_agrees F V HV sb). apply agrees_err in A. destruct A as (A & _).
      change (return_params_of F V white_list_size_opcode [n; o0; o1; sb])
        with (let! s := @status_of VE F V sb in @Panic (event_error VE) (return_parameters V)) in K.
      destruct (@status_of VE F V sb) eqn:E; cbn in K; try discriminate K. injection K as ->.
      assert (K := proj1 (A e) eq_refl). apply status_is_some in K. destruct K as [-> K].
      split; [reflexivity|exact K].
    + assert (A := white_list_agrees F V HV n o0 o1 sb size rest).
      apply agrees_err in A. destruct A as (A & _). apply A in K.
      apply status_is_some in K. destruct K as [-> K]. split; [reflexivity|exact K].
  - left. rewrite Ec. assert (A := return_agrees F V HV n o0 o1 op ret cs ltac:(assumption) H').
    apply agrees_err in A. destruct A as (A & _). apply A in K.
    eapply return_blames; eassumption.
  - rewrite return_unknown in K by exact H'.
    assert (Og : opcode_ogf op = op / 1024) by (unfold opcode_ogf; rewrite N.shiftr_div_pow2; reflexivity).
    rewrite Og in K. destruct (N.eqb_spec (op / 1024) 0x3F) as [E3|E3]; cbn [negb] in K.
    + right. split.
      * right. split; [reflexivity|]. split; [cbn; lia|]. exact E3.
      * destruct (vreturn_new V _); cbn in K; congruence.
    + injection K as <-. left. split; [rewrite Ec; now apply complete_opcode|auto].
Qed.

(** ** All events *)
Lemma entry_blames count data l tail e : entries_then l tail data -> (9 <= length tail)%nat ->
  first_error (entry_checks V tail) = Some e -> blames F V (framed 0x3E (0x02 :: count :: data)) e.
Proof.
  intros (Hl & ->) L H. set (body := flat_map advertisement_bytes l).
  set (pkt := framed 0x3E (0x02 :: count :: body ++ tail)).
  assert (At : forall i, at_ pkt (4 + length body + i) = at_ tail i).
  { intros i. unfold pkt, framed, at_. change (4 + length body + i)%nat with (S (S (S (S (length body + i))))).
    cbn [nth]. rewrite app_nth2 by lia. f_equal. lia. }
  assert (En : entry_at pkt (4 + length body)).
  { split; [split; reflexivity|]. split.
    - unfold pkt, framed. cbn [length]. rewrite app_length. lia.
    - exists l. split; [exact Hl|]. split; [|lia]. fold body.
      replace (4 + length body - 4)%nat with (length body) by lia.
      change (slice 4 (length body) pkt) with (slice 0 (length body) (body ++ tail)).
      unfold slice. cbn [skipn]. rewrite firstn_app, Nat.sub_diag, firstn_all. apply app_nil_r. }
  unfold entry_checks in H. apply first_error_in in H. cbn [In] in H. destruct H as [H|[H|[H|[]]]].
  - destruct (Nat.ltb_spec (length tail) (9 + N.to_nat (at_ tail 8) + 1)) as [K|K]; [|discriminate].
    injection H as <-. exists (4 + length body)%nat. split; [exact En|]. rewrite At.
    unfold pkt, framed. cbn [length]. rewrite app_length. lia.
  - apply code_is_some in H. destruct H as [-> H]. exists (4 + length body)%nat. split; [exact En|].
    split; [|exact H]. rewrite <- (At O). f_equal. lia.
  - apply code_is_some in H. destruct H as [-> H]. split; [exact H|]. right. exists (4 + length body)%nat.
    split; [exact En|]. now rewrite At.
Qed.

Lemma error_blames pkt e : bytes pkt -> event_new F V pkt = Err e ->
  blames F V pkt e \/ (vendor_packet pkt /\ vendor_says V pkt e).
Proof.
  intros Hb H. destruct (event_new_cases F V pkt) as [[L K]|[(c & n & r & -> & L & K)|(c & p & -> & _)]].
  - rewrite K in H. injection H as <-. left. now apply no_header.
  - rewrite K in H. injection H as <-. left.
    apply (not_as_announced (c :: n :: r)); [cbn; lia|]. change (at_ (c :: n :: r) 1) with n. cbn [length]. lia.
  - assert (Hp := framed_bytes _ _ Hb).
    assert (Fixed : forall code q cs, bytes q -> event_checks F V code q = Some cs ->
      event_new F V (framed code q) = Err e -> blames F V (framed code q) e).
    { intros code q cs Hq Hc HE. assert (K := event_agrees F V HV code q cs Hq Hc).
      destruct (agrees_err _ _ K) as (K' & _). apply K' in HE. eapply event_blames; eassumption. }
    destruct (in_dec N.eq_dec c known_events) as [Hc|Hc].
    2:{ rewrite unknown_event in H by exact Hc. injection H as <-. left. left. now split. }
    cbn [known_events In] in Hc.
    repeat match type of Hc with ?y = c \/ _ => destruct Hc as [<-|Hc] end; [..|destruct Hc].
    all: try (left; refine (Fixed _ _ _ Hp _ H); reflexivity).
    + rewrite event_new_framed in H.
      change (event_dispatch F V 0x0E p) with (wrap V (command_complete_new F V p) EvCommandComplete) in H.
      apply wrap_err in H. destruct (complete_blames p e Hp H) as [B|[B B']]; [now left|right].
      split; [exact B|]. right. now split.
    + left. destruct p as [|c bs].
      { injection H as <-. apply no_pairs; reflexivity. }
      destruct (Nat.eq_dec (length bs) (4 * N.to_nat c)) as [E|E].
      * destruct (proj2 (completed_packets_accepted F V (c :: bs) Hp (framed_payload_length _ _ Hb)))
          as [ev K].
        { exists (N.to_nat c), bs. rewrite N2Nat.id. auto. }
        rewrite K in H. discriminate.
      * rewrite (proj2 (completed_packets_errors F V _ (framed_payload_length _ _ Hb)) c bs) in H;
          [|reflexivity|exact E].
        injection H as <-. apply (not_of_pairs (framed 0x13 (c :: bs))); [reflexivity|reflexivity|cbn; lia|].
        change (at_ (framed 0x13 (c :: bs)) 2) with c. cbn [length]. lia.
    + left. destruct p as [|sub rest].
      { injection H as <-. apply no_subevent; reflexivity. }
      destruct (in_dec N.eq_dec sub known_subevents) as [Hs|Hs].
      2:{ rewrite unknown_subevent in H by exact Hs. injection H as <-. right. split; [split; reflexivity|exact Hs]. }
      cbn [known_subevents In] in Hs.
      repeat match type of Hs with ?y = sub \/ _ => destruct Hs as [<-|Hs] end; [..|destruct Hs].
      all: try (refine (Fixed _ _ _ Hp _ H); reflexivity).
      destruct rest as [|count data]; [discriminate|].
      assert (Hl := framed_payload_length _ _ Hb). cbn [length] in Hl. bytes_inv.
      destruct (advertising_report_failures F V data) with (count := count) as [_ K]; [assumption|lia|].
      apply K in H. destruct H as (l & tail & A1 & A2 & A3). now apply (entry_blames count data l tail).
    + right. rewrite event_new_framed in H.
      change (event_dispatch F V 0xFF p) with (wrap V (vevent_new V p) EvVendor) in H.
      apply wrap_err in H. split; [now left|]. left. now split.
Qed.
End Blame.
