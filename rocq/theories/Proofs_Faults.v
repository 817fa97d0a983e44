(** * Failures of the controller in a read (proofs). *)
From Verif Require Import Base Model_Types Model_EventBase Model_Event Model_Host Spec_Wire Spec_Errors Spec_Host Spec_Link
  Spec_Faults Proofs_Base.
Open Scope list_scope.

Section Reads.
Context (F : features) (V : vendor) {St E : Type} (C : controller St E).

Lemma slice_no_error {X} (l : list N) a b (e : X) : slice l a b <> Err e.
Proof. unfold slice. destruct (_ && _)%bool; discriminate. Qed.
Ltac simplify_ := cbn [map_err uart_rewrap_error link_rewrap_error app fst snd].
Ltac done_ := solve [split; [reflexivity | cbn; first [reflexivity | left; reflexivity | right; eexists; reflexivity]]].

Lemma uart_faults s :
  let '((s', errors), r) := uart_read F V (watched C) (s, []) in
  uart_read F V C s = (s', r) /\ uart_says errors r.
Proof.
  unfold uart_read, uart_read_event, read_into_prefix, abind, amap_err, pure, watched, failing.
  cbn [ctl_peek ctl_read_into fst snd].
  destruct (ctl_peek C s 0) as [s1 [t|[e|]|]]; simplify_; try done_.
  destruct (t =? 0x04)%N; [|done_].
  simplify_. destruct (ctl_peek C s1 2) as [s2 [n|[e|]|]]; simplify_; try done_.
  simplify_. destruct (slice (zeros _) _ _) as [b|x|] eqn:Eb; [|now apply slice_no_error in Eb|simplify_; done_].
  simplify_. destruct (ctl_read_into C s2 _) as [s3 [d|[e|]|]]; simplify_; try done_.
  simplify_. destruct (slice (d ++ _) _ _) as [p|x|] eqn:Es; [|now apply slice_no_error in Es|simplify_; done_].
  destruct (event_new F V p); simplify_; done_.
Qed.
Lemma link_faults s :
  let '((s', errors), r) := link_read F V (watched C) (s, []) in
  link_read F V C s = (s', r) /\ link_says errors r.
Proof.
  unfold link_read, read_into_prefix, abind, amap_err, pure, watched, failing.
  cbn [ctl_peek ctl_read_into fst snd].
  destruct (ctl_peek C s 1) as [s2 [n|[e|]|]]; simplify_; try done_.
  simplify_. destruct (slice (zeros _) _ _) as [b|x|] eqn:Eb; [|now apply slice_no_error in Eb|simplify_; done_].
  simplify_. destruct (ctl_read_into C s2 _) as [s3 [d|[e|]|]]; simplify_; try done_.
  simplify_. destruct (slice (d ++ _) _ _) as [p|x|] eqn:Es; [|now apply slice_no_error in Es|simplify_; done_].
  destruct (event_new F V p); simplify_; done_.
Qed.
End Reads.
