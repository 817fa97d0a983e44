(** * Status codes and opcodes. *)
From Verif Require Import Base Model_Types Model_EventBase Spec_Wire Proofs_Base.

(** ** Status codes *)
Definition standard {VS} (s : status VS) : Prop := forall v, s <> Vendor v.

Lemma status_into_assigned {VS} F (vi : VS -> N) s : standard s -> status_exists F s ->
  nth_error (assigned_statuses F) (N.to_nat (status_into F vi s)) = Some s.
Proof.
  intros H E. destruct s; cbn [status_into]; try reflexivity.
  1-4: cbn in E; unfold assigned_statuses; rewrite E; reflexivity.
  now elim (H v).
Qed.

Lemma assigned_exists {VS} F b (s : status VS) :
  nth_error (assigned_statuses F) b = Some s -> standard s /\ status_exists F s.
Proof.
  intros H. apply nth_error_In in H. unfold assigned_statuses in H.
  apply in_app_iff in H. destruct H as [H|H].
  - repeat (destruct H as [<-|H]; [split; [intros v Hv; discriminate Hv|exact I]|]). destruct H.
  - destruct (version_5_0 F) eqn:E; [|destruct H].
    repeat (destruct H as [<-|H]; [split; [intros v Hv; discriminate Hv|exact E]|]). destruct H.
Qed.

Lemma assigned_into {VS} F (vi : VS -> N) b s :
  nth_error (assigned_statuses F) b = Some s -> status_into F vi s = N.of_nat b.
Proof.
  intros H. unfold assigned_statuses in H. destruct (version_5_0 F) eqn:E.
  - do 69 (destruct b as [|b]; [injection H as <-; cbn [status_into]; rewrite ?E; reflexivity|]).
    now destruct b.
  - do 65 (destruct b as [|b]; [injection H as <-; reflexivity|]). now destruct b.
Qed.

Lemma status_round_trip {VS} F (vt : N -> outcome bad_status_error VS) vi b s :
  (forall v, vt b = Ok v -> vi v = b) ->
  status_try_from F vt b = Ok s -> status_into F vi s = b.
Proof.
  intros Hv H. rewrite status_try_from_spec in H.
  destruct (nth_error _ _) as [s'|] eqn:E.
  - injection H as <-. rewrite (assigned_into F vi _ _ E). lia.
  - destruct (vt b) eqn:D; try discriminate. injection H as <-. cbn. now apply Hv.
Qed.

Lemma status_back {VS} F (vt : N -> outcome bad_status_error VS) vi s :
  standard s -> status_exists F s -> status_try_from F vt (status_into F vi s) = Ok s.
Proof.
  intros H E. rewrite status_try_from_spec, (status_into_assigned F vi s H E). reflexivity.
Qed.

Lemma status_code_injective {VS} F (vi : VS -> N) s s' :
  standard s -> status_exists F s -> standard s' -> status_exists F s' ->
  status_into F vi s = status_into F vi s' -> s = s'.
Proof.
  intros H E H' E' K. assert (A := status_into_assigned F vi s H E).
  rewrite K, (status_into_assigned F vi s' H' E') in A. now injection A.
Qed.

Lemma status_fails {VS} F (vt : N -> outcome bad_status_error VS) b e :
  status_try_from F vt b = Err e <->
  nth_error (@assigned_statuses VS F) (N.to_nat b) = None /\ vt b = Err e.
Proof.
  rewrite status_try_from_spec. destruct (nth_error _ _) as [s|].
  - split; [discriminate|]. intros [H _]. discriminate H.
  - destruct (vt b) as [v|e'|]; cbn; split; try (intros [_ H]); intros; try discriminate; try easy.
    + now injection H as ->.
    + now injection H as ->.
Qed.

Lemma status_unassigned {VS} F b :
  nth_error (@assigned_statuses VS F) (N.to_nat b) = None <->
  (if version_5_0 F then 0x44 else 0x40) < b.
Proof.
  rewrite nth_error_None. unfold assigned_statuses. destruct (version_5_0 F); cbn [length app]; lia.
Qed.

Lemma status_vendor {VS} F (vt : N -> outcome bad_status_error VS) b :
  ((if version_5_0 F then 0x44 else 0x40) < b ->
     status_try_from F vt b = let! v := vt b in Ok (Vendor v))
  /\ (b <= (if version_5_0 F then 0x44 else 0x40) ->
     exists s, standard s /\ status_try_from F vt b = Ok s).
Proof.
  rewrite status_try_from_spec. split; intros H.
  - apply (@status_unassigned VS) in H. now rewrite H.
  - destruct (nth_error (@assigned_statuses VS F) (N.to_nat b)) as [s|] eqn:E.
    + exists s. split; [exact (proj1 (assigned_exists _ _ _ E))|reflexivity].
    + apply status_unassigned in E. lia.
Qed.

(** ** Opcodes *)
Lemma opcode_new_eq ogf ocf :
  opcode_new ogf ocf = ogf mod 64 * 1024 + ocf mod 1024.
Proof.
  unfold opcode_new, as_u16. change 0x03ff with (N.ones 10). rewrite N.land_ones.
  rewrite N.shiftl_mul_pow2.
  change (2 ^ 16) with (64 * 2 ^ 10). rewrite N.mul_mod_distr_r by discriminate.
  change 1024 with (2 ^ 10).
  rewrite N.lor_comm.
  rewrite <- N.lxor_lor.
  - rewrite <- N.add_nocarry_lxor; [apply N.add_comm|].
    apply N.bits_inj_0. intros i. rewrite N.land_spec.
    destruct (N.lt_ge_cases i 10).
    + rewrite N.mul_pow2_bits_low by assumption. apply andb_false_r.
    + rewrite N.mod_pow2_bits_high by assumption. reflexivity.
  - apply N.bits_inj_0. intros i. rewrite N.land_spec.
    destruct (N.lt_ge_cases i 10).
    + rewrite N.mul_pow2_bits_low by assumption. apply andb_false_r.
    + rewrite N.mod_pow2_bits_high by assumption. reflexivity.
Qed.

Lemma opcode_ogf_eq o : opcode_ogf o = o / 1024.
Proof. unfold opcode_ogf. rewrite N.shiftr_div_pow2. reflexivity. Qed.

Lemma opcode_ocf_eq o : opcode_ocf o = o mod 1024.
Proof. unfold opcode_ocf. change 0x03ff with (N.ones 10). apply N.land_ones. Qed.

Lemma opcode_parts ogf ocf :
  opcode_ogf (opcode_new ogf ocf) = ogf mod 64 /\ opcode_ocf (opcode_new ogf ocf) = ocf mod 1024.
Proof. rewrite opcode_ogf_eq, opcode_ocf_eq, opcode_new_eq. split; lia. Qed.

Lemma opcode_join o : u16 o ->
  opcode_new (opcode_ogf o) (opcode_ocf o) = o /\ opcode_ogf o < 64 /\ opcode_ocf o < 1024.
Proof.
  unfold u16. intros H. rewrite opcode_new_eq, opcode_ogf_eq, opcode_ocf_eq.
  change (2 ^ 16) with 65536 in H. lia.
Qed.

Lemma opcode_is_u16 ogf ocf : u16 (opcode_new ogf ocf).
Proof. rewrite opcode_new_eq. unfold u16. change (2 ^ 16) with 65536. lia. Qed.

Lemma opcode_new_hci ogf ocf : ogf < 64 -> ocf < 1024 -> opcode_new ogf ocf = hci_opcode ogf ocf.
Proof. intros. rewrite opcode_new_eq. unfold hci_opcode. lia. Qed.
