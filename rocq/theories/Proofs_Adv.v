(** * Advertising data. *)
From Verif Require Import Base Model_Types Model_Intervals Spec_Wire Spec_Adv
  Proofs_Base Proofs_Serialize.

Lemma ad_len_content a : ad_len a = (2 + length (ad_content a))%nat.
Proof. destruct a; cbn [ad_len ad_content]; rewrite ?app_length, ?le_length; reflexivity. Qed.

Lemma buffer_split {A} (buf : list A) n : (n <= length buf)%nat ->
  exists front back, buf = front ++ back /\ length front = n.
Proof.
  intros H. exists (firstn n buf), (skipn n buf). split; [symmetry; apply firstn_skipn|].
  rewrite firstn_length. lia.
Qed.

Lemma update_range_app {E} (pre mid post : list N) a b f :
  length pre = a -> (b = a + length mid)%nat ->
  @update_range E (pre ++ mid ++ post) a b f =
  match f mid with Ok m => Ok (pre ++ m ++ post) | Err e => Err e | Panic => Panic end.
Proof.
  intros <- ->. unfold update_range, slice. rewrite !app_length.
  rewrite (proj2 (Nat.leb_le (length pre) (length pre + length mid)) ltac:(lia)).
  rewrite (proj2 (Nat.leb_le (length pre + length mid) (length pre + (length mid + length post))) ltac:(lia)). cbn [andb bind].
  replace (length pre + length mid - length pre)%nat with (length mid) by lia.
  rewrite skipn_all_app by reflexivity. rewrite firstn_all_app by reflexivity.
  rewrite firstn_all_app by reflexivity.
  rewrite (app_assoc pre mid post), (skipn_all_app (pre ++ mid)) by (rewrite app_length; lia).
  destruct (f mid); reflexivity.
Qed.

Lemma update_range_short {E} buf a b f : (length buf < b)%nat -> @update_range E buf a b f = Panic.
Proof.
  intros H. unfold update_range, slice. replace (Nat.leb b (length buf)) with false
    by (symmetry; apply Nat.leb_gt; lia). rewrite andb_false_r. reflexivity.
Qed.

Lemma update_from_le {E} n v (pre : list N) buf : 
  @update_from E (pre ++ buf) (length pre) (write_le n v)
  = if Nat.leb n (length buf) then Ok (pre ++ le n v ++ skipn n buf) else Panic.
Proof.
  unfold update_from. rewrite <- (app_nil_r buf) at 1.
  rewrite update_range_app by (rewrite ?app_length; reflexivity || lia).
  unfold write_le. destruct (Nat.leb n (length buf)); [|reflexivity].
  now rewrite le_bytes_le, app_nil_r.
Qed.

(** The uuid and data part of the structures that have both. *)
Lemma write_uuid {E} n u data (x y : N) buf :
  (let! buf := @update_from E (x :: y :: buf) 2 (write_le n u) in
   update_range buf (2 + n) (2 + n + length data) (copy_from_slice data))
  = if Nat.leb (n + length data) (length buf)
    then Ok (x :: y :: (le n u ++ data) ++ skipn (n + length data) buf) else Panic.
Proof.
  change (x :: y :: buf) with ([x; y] ++ buf). change 2%nat with (length [x; y]) at 1.
  rewrite update_from_le.
  destruct (Nat.leb_spec n (length buf)) as [H|H]; cbn [bind].
  2:{ replace (Nat.leb (n + length data) (length buf)) with false
        by (symmetry; apply Nat.leb_gt; lia). reflexivity. }
  destruct (Nat.leb_spec (n + length data) (length buf)) as [H'|H'].
  - destruct (buffer_split buf n H) as (b1 & b2 & -> & L1). rewrite app_length in H'.
    destruct (buffer_split b2 (length data) ltac:(lia)) as (b3 & b4 & -> & L2).
    rewrite (skipn_all_app b1) by assumption.
    rewrite (app_assoc [x; y] (le n u)).
    rewrite update_range_app; [|rewrite app_length, le_length; reflexivity|lia].
    unfold copy_from_slice. rewrite L2, Nat.eqb_refl.
    rewrite (app_assoc b1 b3), (skipn_all_app (b1 ++ b3)) by (rewrite app_length; lia).
    rewrite <- !app_assoc. reflexivity.
  - apply update_range_short. rewrite !app_length, le_length, skipn_length. cbn [length]. lia.
Qed.

Lemma ad_copy_spec {E} a buf :
  @ad_copy_into_slice E a buf =
  let len := (2 + length (ad_content a))%nat in
  if Nat.leb len (length buf)
  then Ok ([N.of_nat (len - 1) mod 256; ad_code a] ++ ad_content a ++ skipn len buf, len)
  else Panic.
Proof.
  cbv zeta. rewrite <- ad_len_content. unfold ad_copy_into_slice. set (len := ad_len a).
  change (as_u8 (N.of_nat (len - 1))) with (N.of_nat (len - 1) mod 256).
  assert (Hl : len = (2 + length (ad_content a))%nat) by apply ad_len_content.
  destruct buf as [|x buf]; [rewrite Hl; reflexivity|].
  destruct buf as [|y buf]; [rewrite Hl; reflexivity|].
  generalize (N.of_nat (len - 1) mod 256) as first. intros first.
  change (set_idx (x :: y :: buf) 0 first) with (@Ok E _ (first :: y :: buf)). cbn [bind].
  change (set_idx (first :: y :: buf) 1 (ad_type a)) with (@Ok E _ (first :: ad_type a :: buf)).
  cbn [bind].
  assert (Hc : ad_type a = ad_code a) by (destruct a; reflexivity). rewrite Hc. clear Hc.
  match goal with |- bind ?m _ = _ => assert (K : m =
    if Nat.leb (length (ad_content a)) (length buf)
    then Ok (first :: ad_code a :: ad_content a ++ skipn (length (ad_content a)) buf) else Panic) end.
  { destruct a as [name|u data|u data|u data|u data]; cbn [ad_content ad_code];
      rewrite ?app_length, ?le_length.
    - change (first :: 9 :: buf) with ([first; 9] ++ buf).
      destruct (Nat.leb_spec (length name) (length buf)) as [H|H].
      + destruct (buffer_split buf _ H) as (b1 & b2 & -> & L).
        rewrite update_range_app by (reflexivity || (cbn [length]; lia)).
        unfold copy_from_slice. rewrite L, Nat.eqb_refl.
        now rewrite (skipn_all_app b1) by assumption.
      + apply update_range_short. rewrite app_length. cbn [length]. lia.
    - apply (write_uuid 2).
    - apply (write_uuid 4).
    - apply (write_uuid 16).
    - apply (write_uuid 2). }
  rewrite K. rewrite Hl. cbn [length]. change (Nat.leb (2 + ?n) (S (S ?m))) with (Nat.leb n m).
  destruct (Nat.leb (length (ad_content a)) (length buf)); reflexivity.
Qed.

(** ** Recovering *)
Lemma parse_more fuel l : (length l <= fuel)%nat -> parse_structures fuel l = parse_ad l.
Proof.
  unfold parse_ad. generalize (le_n (length l)). generalize (length l) at 2 4 as k.
  intros k Hk Hf. revert fuel l Hf Hk.
  induction k as [|k IH]; intros fuel l Hf Hk.
  - destruct l; [destruct fuel; reflexivity|cbn in Hk; lia].
  - destruct l as [|n rest]; [destruct fuel; reflexivity|]. cbn [length] in *.
    destruct fuel as [|fuel]; [lia|]. cbn [parse_structures].
    destruct (n =? 0) eqn:E; [reflexivity|]. destruct (_ <? n) eqn:E2; [reflexivity|].
    destruct (firstn (N.to_nat n) rest) as [|t c] eqn:Ef; [reflexivity|].
    assert (Hs : (length (skipn (N.to_nat n) rest) <= length rest)%nat) by (rewrite skipn_length; lia).
    rewrite (IH fuel) by lia. reflexivity.
Qed.

Lemma parse_cons a rest : ad_fits a ->
  parse_ad (ad_structure a ++ rest)
  = match parse_ad rest with
    | Some more => Some ((ad_code a, ad_content a) :: more)
    | None => None
    end.
Proof.
  intros Hf. unfold ad_fits in Hf. unfold parse_ad at 1, ad_structure.
  set (c := ad_content a) in *. rewrite <- !app_assoc. cbn [app length].
  rewrite app_length. assert (K : (length rest <= S (length c + length rest))%nat) by lia.
  revert K. generalize (S (length c + length rest)) at 1 2 as fuel. intros fuel K.
  cbn [parse_structures].
  destruct (N.eqb_spec (N.of_nat (1 + length c)) 0); [lia|].
  cbn [length]. rewrite app_length.
  destruct (N.ltb_spec (N.of_nat (S (length c + length rest))) (N.of_nat (1 + length c))); [lia|].
  replace (N.to_nat (N.of_nat (1 + length c))) with (S (length c)) by lia.
  cbn [firstn skipn]. rewrite firstn_all_app, skipn_all_app by reflexivity.
  rewrite parse_more by lia. reflexivity.
Qed.

Lemma parse_padding k : parse_ad (repeat 0 k) = Some [].
Proof. destruct k; reflexivity. Qed.

Lemma parse_all ads k : Forall ad_fits ads ->
  parse_ad (flat_map ad_structure ads ++ repeat 0 k)
  = Some (map (fun a => (ad_code a, ad_content a)) ads).
Proof.
  induction 1 as [|a ads Ha _ IH]; [apply parse_padding|].
  cbn [flat_map map]. rewrite <- app_assoc, parse_cons, IH by assumption. reflexivity.
Qed.

Lemma number_of_le n v : v < 256 ^ N.of_nat n -> number (le n v) = v.
Proof.
  revert v. induction n as [|n IH]; intros v Hv.
  - cbn in *. lia.
  - rewrite le_S. cbn [number fold_right]. fold (number (le n (v / 256))). rewrite IH.
    + lia.
    + rewrite Nat2N.inj_succ, N.pow_succ_r' in Hv. apply N.div_lt_upper_bound; lia.
Qed.

Lemma interpret_spec a : ad_typed a -> interpret (ad_code a, ad_content a) = Some a.
Proof.
  destruct a as [name|u data|u data|u data|u data]; cbn [ad_typed ad_code ad_content]; intros H;
    [reflexivity| | | |]; destruct H as [Hu _].
  - change (interpret (0x16, ?c)) with (Some (ServiceData16BitUuid (number (firstn 2 c)) (skipn 2 c))).
    rewrite firstn_all_app, skipn_all_app, number_of_le by (apply le_length || exact Hu). reflexivity.
  - change (interpret (0x20, ?c)) with (Some (ServiceData32BitUuid (number (firstn 4 c)) (skipn 4 c))).
    rewrite firstn_all_app, skipn_all_app, number_of_le by (apply le_length || exact Hu). reflexivity.
  - change (interpret (0x21, ?c)) with (Some (ServiceData128BitUuid (number (firstn 16 c)) (skipn 16 c))).
    rewrite firstn_all_app, skipn_all_app, number_of_le by (apply le_length || exact Hu). reflexivity.
  - change (interpret (0xFF, ?c)) with (Some (ManufacturerSpecificData (number (firstn 2 c)) (skipn 2 c))).
    rewrite firstn_all_app, skipn_all_app, number_of_le by (apply le_length || exact Hu). reflexivity.
Qed.

Lemma interpret_all ads : Forall ad_typed ads ->
  map interpret (map (fun a => (ad_code a, ad_content a)) ads) = map Some ads.
Proof.
  induction 1 as [|a ads Ha _ IH]; [reflexivity|]. cbn [map]. now rewrite interpret_spec, IH.
Qed.

(** ** Writing several *)
Lemma structure_written a : ad_fits a ->
  ad_structure a = [N.of_nat (2 + length (ad_content a) - 1) mod 256; ad_code a] ++ ad_content a.
Proof.
  intros H. unfold ad_fits in H. unfold ad_structure. cbn [app].
  rewrite N.mod_small by lia. f_equal.
Qed.
Lemma structure_length a : length (ad_structure a) = ad_len a.
Proof. rewrite ad_len_content. unfold ad_structure. reflexivity. Qed.

Lemma ad_copy_fits {E} a buf : ad_fits a ->
  @ad_copy_into_slice E a buf =
  if Nat.leb (ad_len a) (length buf)
  then Ok (ad_structure a ++ skipn (ad_len a) buf, ad_len a) else Panic.
Proof.
  intros H. rewrite ad_copy_spec. cbv zeta. rewrite (structure_written a H), ad_len_content.
  destruct (Nat.leb _ _); [|reflexivity]. now rewrite <- app_assoc.
Qed.

Lemma skipn_plus {A} n m (l : list A) : skipn n (skipn m l) = skipn (m + n) l.
Proof.
  revert l. induction m as [|m IH]; intros l; [reflexivity|].
  destruct l; cbn [skipn Nat.add]; [apply skipn_nil|apply IH].
Qed.

Lemma write_ads_spec ads buf : Forall ad_fits ads ->
  write_ads ads buf =
  let total := flat_map ad_structure ads in
  if Nat.leb (length total) (length buf)
  then Ok (total ++ skipn (length total) buf, length total) else Panic.
Proof.
  intros H. revert buf. induction H as [|a ads Ha _ IH]; intros buf; cbv zeta.
  - reflexivity.
  - cbn [write_ads flat_map]. rewrite ad_copy_fits by assumption.
    rewrite app_length, structure_length.
    destruct (Nat.leb_spec (ad_len a) (length buf)) as [L|L]; cbn [bind].
    2:{ replace (Nat.leb _ (length buf)) with false by (symmetry; apply Nat.leb_gt; lia). reflexivity. }
    rewrite (skipn_all_app (ad_structure a)), (firstn_all_app (ad_structure a))
      by apply structure_length.
    rewrite IH. cbv zeta. rewrite skipn_length.
    destruct (Nat.leb_spec (ad_len a + length (flat_map ad_structure ads)) (length buf)) as [L'|L'].
    + rewrite (proj2 (Nat.leb_le _ _)) by lia. cbn [bind].
      now rewrite skipn_plus, <- app_assoc.
    + replace (Nat.leb _ (length buf - ad_len a)) with false by (symmetry; apply Nat.leb_gt; lia).
      reflexivity.
Qed.

(** ** Longer payloads *)
Lemma ok_pair {E A B} (a c : A) (b d : B) : @Ok E _ (a, b) = Ok (c, d) -> a = c.
Proof. congruence. Qed.

Lemma too_long_lost a buf out n : ~ ad_fits a ->
  @ad_copy_into_slice Empty_set a buf = Ok (out, n) ->
  forall more, parse_ad out <> Some ((ad_code a, ad_content a) :: more).
Proof.
  intros Hf Hc more Hp. rewrite ad_copy_spec in Hc. cbv zeta in Hc.
  destruct (Nat.leb _ _) in Hc; [|discriminate]. apply ok_pair in Hc. subst out.
  unfold ad_fits in Hf. set (c := ad_content a) in *.
  set (w := N.of_nat (2 + length c - 1) mod 256) in *.
  assert (Hw : w < 256) by (apply N.mod_lt; discriminate). clearbody w.
  unfold parse_ad in Hp. cbn [app length] in Hp. revert Hp.
  generalize (S (length (c ++ skipn (2 + length c) buf))) as fuel. intros fuel.
  cbn [parse_structures].
  destruct (w =? 0); [discriminate|]. destruct (_ <? w); [discriminate|].
  destruct (firstn (N.to_nat w) _) as [|t c'] eqn:Ef; [discriminate|].
  destruct (parse_structures _ _); [|discriminate]. intros Hp. injection Hp as E1 E2 _.
  apply (f_equal (@length _)) in Ef. rewrite firstn_length in Ef. cbn [length] in Ef.
  rewrite E2 in Ef. lia.
Qed.
