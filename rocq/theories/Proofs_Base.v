(** * Basic lemmas: bytes, little-endian numbers, statuses, lists. *)
From Verif Require Import Base Model_Types Model_Bitflags Model_Intervals
  Model_EventBase Model_Command Model_Event Spec_Wire.

Ltac Zify.zify_post_hook ::= Z.div_mod_to_equations.
Global Arguments N.add : simpl never.
Global Arguments N.mul : simpl never.
Global Arguments N.div : simpl never.
Global Arguments N.modulo : simpl never.
Global Arguments N.pow : simpl never.
Global Arguments N.eqb : simpl never.
Global Arguments N.ltb : simpl never.
Global Arguments N.leb : simpl never.
Global Arguments N.of_nat : simpl never.
Global Arguments N.to_nat : simpl never.

(** ** Outcomes *)
Lemma bind_ok {E A B} (m : outcome E A) (k : A -> outcome E B) b :
  bind m k = Ok b <-> exists a, m = Ok a /\ k a = Ok b.
Proof.
  destruct m; simpl; split; intros H.
  - eauto.
  - destruct H as (a' & Ha & Hk). now injection Ha as ->.
  - discriminate.
  - destruct H as (a' & Ha & _). discriminate.
  - discriminate.
  - destruct H as (a' & Ha & _). discriminate.
Qed.

(** ** Lists *)
Lemma below_cases n b : b < N.of_nat n -> In b (map N.of_nat (seq 0 n)).
Proof.
  intros H. apply in_map_iff. exists (N.to_nat b). split; [lia|].
  apply in_seq. lia.
Qed.

Lemma bytes_cons b l : bytes (b :: l) <-> byte b /\ bytes l.
Proof. unfold bytes. rewrite Forall_cons_iff. tauto. Qed.
Lemma bytes_app l1 l2 : bytes (l1 ++ l2) <-> bytes l1 /\ bytes l2.
Proof. unfold bytes. apply Forall_app. Qed.
Lemma bytes_nil : bytes [].
Proof. constructor. Qed.

Ltac bytes_inv :=
  repeat match goal with
  | H : bytes (_ :: _) |- _ => apply bytes_cons in H; destruct H
  | H : bytes (_ ++ _) |- _ => apply bytes_app in H; destruct H
  | H : bytes [] |- _ => clear H
  end.

(** Splits a list of known length into its elements. *)
Ltac list_of_length l H :=
  repeat (let x := fresh "x" in
          destruct l as [|x l]; [simpl in H; try discriminate H | simpl in H; try (injection H as H)]);
  try discriminate H;
  try clear H.

Lemma length_S {A} (l : list A) n :
  length l = S n -> exists x l', l = x :: l' /\ length l' = n.
Proof. destruct l; simpl; intros H; [discriminate|]. injection H as H. eauto. Qed.
Lemma length_O {A} (l : list A) : length l = O -> l = [].
Proof. destruct l; [auto|discriminate]. Qed.

Ltac destruct_len H :=
  repeat match type of H with
  | length _ = S _ =>
      let x := fresh "x" in let l := fresh "l" in let E := fresh "E" in
      apply length_S in H; destruct H as (x & l & E & H); subst
  end;
  match type of H with
  | length _ = O => apply length_O in H; subst
  end.

(** ** Little-endian numbers *)
Lemma le_2 v : le 2 v = [v mod 256; v / 256 mod 256].
Proof. unfold le. cbn [map seq]. rewrite N.pow_0_r, N.div_1_r. reflexivity. Qed.

Lemma le_8 v :
  le 8 v = [v mod 256; v / 2 ^ 8 mod 256; v / 2 ^ 16 mod 256; v / 2 ^ 24 mod 256;
            v / 2 ^ 32 mod 256; v / 2 ^ 40 mod 256; v / 2 ^ 48 mod 256; v / 2 ^ 56 mod 256].
Proof. unfold le. cbn [map seq]. rewrite N.pow_0_r, N.div_1_r. reflexivity. Qed.

Lemma le_length n v : length (le n v) = n.
Proof. unfold le. now rewrite map_length, seq_length. Qed.

Lemma le_is_bytes n v : bytes (le n v).
Proof.
  unfold le, bytes. rewrite Forall_map. apply Forall_forall. intros i _.
  unfold byte. apply N.mod_lt. discriminate.
Qed.

Lemma le_2_of_bytes a b : byte a -> byte b -> le 2 (a + 256 * b) = [a; b].
Proof. unfold byte. intros Ha Hb. rewrite le_2. f_equal; [lia|]. f_equal. lia. Qed.

Lemma u16_of_bytes a b : byte a -> byte b -> u16 (a + 256 * b).
Proof. unfold byte, u16. intros. change (2 ^ 16) with 65536. lia. Qed.

Lemma read_le_2 v : u16 v -> v mod 256 + 256 * (v / 256 mod 256) = v.
Proof. unfold u16. change (2 ^ 16) with 65536. intros. lia. Qed.

Ltac pow2 :=
  change (2 ^ 8) with 256 in *; change (2 ^ 16) with 65536 in *;
  change (2 ^ 24) with 16777216 in *; change (2 ^ 32) with 4294967296 in *;
  change (2 ^ 40) with 1099511627776 in *; change (2 ^ 48) with 281474976710656 in *;
  change (2 ^ 56) with 72057594037927936 in *;
  change (2 ^ 64) with 18446744073709551616 in *.

Lemma div_256_add a b : byte a -> (a + 256 * b) / 256 = b.
Proof. unfold byte. intros. lia. Qed.
Lemma mod_256_add a b : byte a -> (a + 256 * b) mod 256 = a.
Proof. unfold byte. intros. lia. Qed.

(** Horner form of the model's 64-bit value. *)
Lemma u64_horner b0 b1 b2 b3 b4 b5 b6 b7 :
  b0 + 2 ^ 8 * b1 + 2 ^ 16 * b2 + 2 ^ 24 * b3
  + 2 ^ 32 * b4 + 2 ^ 40 * b5 + 2 ^ 48 * b6 + 2 ^ 56 * b7
  = b0 + 256 * (b1 + 256 * (b2 + 256 * (b3 + 256 * (b4 + 256 * (b5 + 256 * (b6 + 256 * b7)))))).
Proof. pow2. lia. Qed.

Lemma le_S n v : le (S n) v = v mod 256 :: le n (v / 256).
Proof.
  unfold le. cbn [seq map]. rewrite N.pow_0_r, N.div_1_r. f_equal.
  rewrite <- seq_shift, map_map. apply map_ext. intros i.
  rewrite Nat2N.inj_succ, N.pow_succ_r', N.div_div by (try apply N.pow_nonzero; discriminate).
  reflexivity.
Qed.

Lemma le_O v : le 0 v = [].
Proof. reflexivity. Qed.

Lemma le_8_of_bytes b0 b1 b2 b3 b4 b5 b6 b7 :
  byte b0 -> byte b1 -> byte b2 -> byte b3 -> byte b4 -> byte b5 -> byte b6 -> byte b7 ->
  le 8 (b0 + 2 ^ 8 * b1 + 2 ^ 16 * b2 + 2 ^ 24 * b3
        + 2 ^ 32 * b4 + 2 ^ 40 * b5 + 2 ^ 48 * b6 + 2 ^ 56 * b7)
  = [b0; b1; b2; b3; b4; b5; b6; b7].
Proof.
  intros. rewrite u64_horner.
  do 7 (rewrite le_S, mod_256_add, div_256_add by assumption).
  rewrite le_S, N.mod_small by assumption. reflexivity.
Qed.

Lemma u64_of_bytes b0 b1 b2 b3 b4 b5 b6 b7 :
  byte b0 -> byte b1 -> byte b2 -> byte b3 -> byte b4 -> byte b5 -> byte b6 -> byte b7 ->
  u64 (b0 + 2 ^ 8 * b1 + 2 ^ 16 * b2 + 2 ^ 24 * b3
        + 2 ^ 32 * b4 + 2 ^ 40 * b5 + 2 ^ 48 * b6 + 2 ^ 56 * b7).
Proof. unfold byte, u64. intros. pow2. lia. Qed.

Lemma read_le_8 v : u64 v ->
  v mod 256 + 2 ^ 8 * (v / 2 ^ 8 mod 256) + 2 ^ 16 * (v / 2 ^ 16 mod 256)
  + 2 ^ 24 * (v / 2 ^ 24 mod 256) + 2 ^ 32 * (v / 2 ^ 32 mod 256)
  + 2 ^ 40 * (v / 2 ^ 40 mod 256) + 2 ^ 48 * (v / 2 ^ 48 mod 256)
  + 2 ^ 56 * (v / 2 ^ 56 mod 256) = v.
Proof.
  unfold u64. intros H. rewrite u64_horner.
  assert (D : forall k, v / 2 ^ (k + 8) = (v / 2 ^ k) / 256).
  { intros k. rewrite N.pow_add_r, N.div_div by (try apply N.pow_nonzero; discriminate).
    reflexivity. }
  change (2 ^ 16) with (2 ^ (8 + 8)). change (2 ^ 24) with (2 ^ (16 + 8)).
  change (2 ^ 32) with (2 ^ (24 + 8)). change (2 ^ 40) with (2 ^ (32 + 8)).
  change (2 ^ 48) with (2 ^ (40 + 8)). change (2 ^ 56) with (2 ^ (48 + 8)).
  rewrite (D 8), (D 16), (D 24), (D 32), (D 40), (D 48).
  change (2 ^ 16) with (2 ^ (8 + 8)). change (2 ^ 24) with (2 ^ (16 + 8)).
  change (2 ^ 32) with (2 ^ (24 + 8)). change (2 ^ 40) with (2 ^ (32 + 8)).
  change (2 ^ 48) with (2 ^ (40 + 8)).
  rewrite (D 8), (D 16), (D 24), (D 32), (D 40).
  change (2 ^ 16) with (2 ^ (8 + 8)). change (2 ^ 24) with (2 ^ (16 + 8)).
  change (2 ^ 32) with (2 ^ (24 + 8)). change (2 ^ 40) with (2 ^ (32 + 8)).
  rewrite (D 8), (D 16), (D 24), (D 32).
  change (2 ^ 16) with (2 ^ (8 + 8)). change (2 ^ 24) with (2 ^ (16 + 8)).
  change (2 ^ 32) with (2 ^ (24 + 8)).
  rewrite (D 8), (D 16), (D 24).
  change (2 ^ 16) with (2 ^ (8 + 8)). change (2 ^ 24) with (2 ^ (16 + 8)).
  rewrite (D 8), (D 16).
  change (2 ^ 16) with (2 ^ (8 + 8)).
  rewrite (D 8).
  change (2 ^ 8) with 256 in *.
  assert (S : forall x, x mod 256 + 256 * (x / 256) = x).
  { intros x. rewrite N.add_comm. symmetry. apply N.div_mod. discriminate. }
  rewrite (N.mod_small (v / 256 / 256 / 256 / 256 / 256 / 256 / 256)).
  2:{ rewrite !N.div_div by discriminate.
      apply N.div_lt_upper_bound; [discriminate|]. exact H. }
  rewrite !S. reflexivity.
Qed.

Lemma le_bytes_le n v : le_bytes n v = le n v.
Proof.
  revert v. induction n as [|n IH]; intros v; [reflexivity|].
  rewrite le_S. cbn [le_bytes]. now rewrite IH.
Qed.

Lemma le_inj n v w : v < 256 ^ N.of_nat n -> w < 256 ^ N.of_nat n -> le n v = le n w -> v = w.
Proof.
  revert v w. induction n as [|n IH]; intros v w Hv Hw H.
  - change (256 ^ N.of_nat 0) with 1 in *. lia.
  - rewrite !le_S in H. injection H as Hm Hd.
    rewrite Nat2N.inj_succ, N.pow_succ_r' in Hv, Hw.
    apply IH in Hd.
    + rewrite (N.div_mod v 256), (N.div_mod w 256) by discriminate. now rewrite Hm, Hd.
    + apply N.div_lt_upper_bound; [discriminate|exact Hv].
    + apply N.div_lt_upper_bound; [discriminate|exact Hw].
Qed.

(** ** Signed bytes *)
Lemma signed_of_byte b : byte b -> is_i8 (u8_as_i8 b) /\ signed (u8_as_i8 b) = b.
Proof.
  unfold byte, is_i8, signed, u8_as_i8. intros H. destruct (N.ltb_spec b 128); lia.
Qed.
Lemma byte_of_signed z : is_i8 z -> u8_as_i8 (signed z) = z /\ byte (signed z).
Proof.
  unfold byte, is_i8, signed, u8_as_i8. intros H.
  destruct (N.ltb_spec (Z.to_N (z mod 256)) 128); lia.
Qed.
Lemma i8_as_u8_signed z : is_i8 z -> i8_as_u8 z = signed z.
Proof.
  unfold is_i8, signed, i8_as_u8. intros H. destruct (Z.ltb_spec z 0); lia.
Qed.

(** ** Status bytes *)
Lemma status_try_from_spec {VS} F (vt : N -> outcome bad_status_error VS) b :
  status_try_from F vt b =
  match nth_error (assigned_statuses F) (N.to_nat b) with
  | Some s => Ok s
  | None => let! v := vt b in Ok (Vendor v)
  end.
Proof.
  destruct F as [v42 v50]. destruct (N.ltb_spec b 69) as [Hlt|Hge].
  - apply (below_cases 69) in Hlt. cbn -[status_try_from N.of_nat N.to_nat nth_error assigned_statuses] in Hlt.
    destruct v50.
    all: repeat (destruct Hlt as [<-|Hlt]; [reflexivity|]); destruct Hlt.
  - replace (nth_error (assigned_statuses {| version_4_2 := v42; version_5_0 := v50 |}) (N.to_nat b))
      with (@None (status VS)).
    2:{ symmetry. apply nth_error_None. unfold assigned_statuses. rewrite app_length.
        destruct v50; simpl length; lia. }
    destruct b as [|p]; [lia|].
    do 7 (destruct p as [p|p|]; try reflexivity; try (exfalso; lia)).
Qed.

Lemma status_try_from_ok F V b s :
  status_try_from F (vstatus_try_from V) b = Ok s <-> status_byte F V b s.
Proof.
  rewrite status_try_from_spec. unfold status_byte.
  destruct (nth_error _ _).
  - split; [intros H; now injection H|intros ->; reflexivity].
  - rewrite bind_ok. split.
    + intros (v & Hv & H). injection H as <-. eauto.
    + intros (v & Hv & ->). eauto.
Qed.

Lemma status_of_ok {VE} F V b s :
  @status_of VE F V b = Ok s <-> status_byte F V b s.
Proof.
  rewrite <- status_try_from_ok. unfold status_of.
  destruct (status_try_from _ _ _); simpl; split; intros H; try discriminate; congruence.
Qed.
Lemma reason_of_ok {VE} F V b s :
  @reason_of VE F V b = Ok s <-> status_byte F V b s.
Proof.
  rewrite <- status_try_from_ok. unfold reason_of.
  destruct (status_try_from _ _ _); simpl; split; intros H; try discriminate; congruence.
Qed.

(** ** Slices of the form prefix/suffix *)
Lemma firstn_all_app {A} (l1 l2 : list A) n : length l1 = n -> firstn n (l1 ++ l2) = l1.
Proof. intros <-. rewrite firstn_app, firstn_all, Nat.sub_diag. simpl. apply app_nil_r. Qed.
Lemma skipn_all_app {A} (l1 l2 : list A) n : length l1 = n -> skipn n (l1 ++ l2) = l2.
Proof. intros <-. rewrite skipn_app, skipn_all, Nat.sub_diag. reflexivity. Qed.

Lemma slice_all {E} l n : length l = n -> @slice E l 0 n = Ok l.
Proof.
  intros <-. unfold slice. rewrite Nat.leb_refl. simpl. rewrite Nat.sub_0_r.
  cbn [skipn]. now rewrite firstn_all.
Qed.
