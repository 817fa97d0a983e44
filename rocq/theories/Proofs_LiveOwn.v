(** * Every command gets its answer (proofs). *)
From Coq Require Import Lia.
From Verif Require Import Base Model_Types Model_Intervals Model_EventBase Model_Command Model_Event Model_Host
  Spec_Wire Spec_Errors Spec_Report Spec_Host Spec_Link Spec_Split Spec_Conform Spec_Follow Spec_Credit Spec_Facts Spec_Data Spec_Window Spec_Turns
  Spec_Own Spec_Live Spec_LiveOwn Spec_Example
  Proofs_Base Proofs_Event Proofs_Report Proofs_Panic Proofs_Complete Proofs_Command Proofs_Link Proofs_Conform Proofs_Follow Proofs_Credit
  Proofs_Facts Proofs_Data Proofs_Window Proofs_Turns Proofs_Own Proofs_Live.
Open Scope list_scope.
Open Scope N_scope.

Lemma same_length {A B} (P : A -> B -> Prop) l m : Forall2 P l m -> length l = length m.
Proof. induction 1 as [|? ? ? ? _ _ IH]; cbn; congruence. Qed.

Section Answer.
Context (F : features) (V : vendor) {St E : Type} (C : controller St E) (h : history St) (HB : buffering C h).
Context (calls : nat -> data_operation V) (states : nat -> St) (results : nat -> @data_report V E).
Context (run : endless (data_perform F V C) calls states results) (typed : forall n, typed_data_operation F V (calls n)) (start : possible h (states 0%nat)).
Context (d : nat -> list device_step) (c : command V).
Context (all : replies_to_all F (command_opcode c) h states d) (reads : again_and_again (fun n => calls n = Fetch)).
Let HC : contract C h := buffering_contract _ _ HB.
Let con : connected h states d := all_connected _ _ _ _ _ all.
Let op := command_opcode c.

Lemma device_packets k : Forall outgoing_packet (taken (d k)) /\ Forall incoming_packet (sent_by (d k)).
Proof. pose proof (device_orderly _ _ _ _ _ all k) as H. split; [apply H|apply (orderly_packets F _ H)]. Qed.

Lemma enough_answers n : exists m, (n <= m)%nat
  /\ (length (filter (command_with op) (put_out V (until calls results n)))
      <= length (filter (answer_to op) (events_got (until calls results m))))%nat.
Proof.
  destruct (commands_get_there _ _ _ con n) as (n1 & more1 & L1 & W1).
  destruct (replies_come _ _ _ _ _ all n1) as (n2 & L2 & A2).
  destruct (events_get_there _ _ _ con n2) as (n3 & more3 & L3 & P3).
  destruct (data_some_day F V C h HB calls states results run typed start n3 (sent_by (d n2)) more3 reads
    (proj2 (device_packets n2)) P3) as (m & more & L4 & G).
  exists m. split; [lia|].
  pose proof (there_by F V C h HB calls states results run typed start d con (command_with op) n n1 more1 L1 device_packets W1) as B1.
  assert (G' : events_got (until calls results m) = flat_map (one F V) (events_in (sent_by (d n2)))
     ++ flat_map (fun a => match a with Reported (Ok (PEvent ev)) => [ev] | _ => [] end) more)
    by (unfold events_got; rewrite G, flat_map_app, events_are; reflexivity).
  destruct (own_opcode c) as [Z NV]. fold op in Z, NV.
  destruct (orderly_packets F _ (device_orderly _ _ _ _ _ all n2)) as [_ D2].
  assert (Q : Forall (fun p => reserved_address_commands p = false) (events_in (sent_by (d n2)))).
  { apply Forall_forall. intros p I. unfold events_in in I. apply in_map_iff in I. destruct I as (w & <- & I).
    apply filter_In in I. exact (proj1 (Forall_forall _ _) (all_usual _ _ _ _ _ all n2) w (proj1 I)). }
  pose proof (own_answers F V op _ Z NV D2 Q) as A.
  rewrite G', filter_app, app_length. apply same_length in A. rewrite <- A.
  unfold how_many in *. rewrite own_replies, map_length in A2. fold op in A2. lia.
Qed.

Lemma own_answer_comes n k cmd :
  nth_error (filter (command_with op) (put_out V (until calls results n))) k = Some cmd ->
  exists m ev pkt, (n <= m)%nat
  /\ nth_error (filter (answer_to op) (events_got (until calls results m))) k = Some ev
  /\ event_new F V pkt = Ok ev
  /\ nth_error (filter (reply_with op) (sent_by (d m))) k = Some (0x04, pkt)
  /\ nth_error (filter (command_with op) (taken (d m))) k = Some cmd.
Proof.
  intros H. destruct (enough_answers n) as (m & L & A).
  assert (Hk : (k < length (filter (command_with op) (put_out V (until calls results n))))%nat) by (apply nth_error_Some; congruence).
  destruct (nth_error (filter (answer_to op) (events_got (until calls results m))) k) as [ev|] eqn:Ev; [|apply nth_error_None in Ev; lia].
  pose proof (own_answer F V C h HC (map calls (seq 0 m)) (states 0%nat) (d m) c
    (typed_until F V calls typed m) start (device_orderly _ _ _ _ _ all m) (all_usual _ _ _ _ _ all m)) as K.
  rewrite (data_until F V C calls states results run) in K.
  destruct (K (commands_on_the_way _ _ _ con m) (events_on_the_way _ _ _ con m)) as [K1 _].
  fold op in K1. destruct (K1 k ev Ev) as (pkt & cmd' & R & N & P & T).
  assert (cmd' = cmd).
  { destruct (until_le calls results n m L) as [l Hl].
    assert (Q : put_out V (until calls results m) = put_out V (until calls results n) ++ put_out V l)
      by (rewrite Hl; unfold put_out; apply flat_map_app).
    rewrite Q, filter_app, nth_error_app1 in P by exact Hk. congruence. }
  subst cmd'. exists m, ev, pkt. auto.
Qed.
End Answer.

(** ** The example: Reset and its answer, for ever *)
Section Resets.
Context (V : vendor).
Let dev := answered (fun _ => reset_packet) (fun _ => reset_answer).
Lemma own_resets_count op k : how_many (reply_with op) (sent_by (dev k)) = how_many (command_with op) (taken (dev k)).
Proof.
  induction k as [|k IH]; [reflexivity|]. destruct (answered_S (fun _ => reset_packet) (fun _ => reset_answer) k) as [E1 E2].
  unfold dev in *. rewrite E1, E2, !how_many_app, IH. f_equal.
  assert (R : reply_with op (0x04, reset_answer) = (0x0C03 =? op)).
  { unfold reply_with. cbn [fst snd]. change (at_ reset_answer 0 =? 0x0E) with true. change (at_ reset_answer 0 =? 0x0F) with false.
    change (u16_le reset_answer 3) with 0x0C03. now rewrite orb_false_r. }
  unfold how_many. cbn [filter]. rewrite R. change (command_with op reset_packet) with (0x0C03 =? op). now destruct (0x0C03 =? op).
Qed.
Lemma resets_orderly k : orderly F41 (dev k).
Proof.
  split.
  - apply answered_taken. intros _. right. exists 0x03, 0x0C, []. split; reflexivity.
  - intros before w after H. destruct (answered_at _ _ _ _ _ _ H) as (j & _ & -> & ->).
    split; [left; split; [reflexivity|exact (conforming_event_packet F41 _ reset_answer_ok)]|]. split; [intros _; exact reset_answer_ok|].
    intros op _ R. pose proof (own_resets_count op j) as J. unfold dev in J. rewrite sent_by_app, taken_app, !how_many_app, J.
    assert (op = 0x0C03) as ->.
    { unfold reply_with in R. cbn [fst snd reset_answer] in R. change (u16_le reset_answer 3) with 0x0C03 in R.
      apply orb_prop in R. destruct R as [R|R]; [|discriminate R]. apply andb_prop in R. destruct R as [_ R]. apply N.eqb_eq in R. now symmetry. }
    change (how_many (reply_with 0x0C03) (sent_by [Takes reset_packet])) with 0.
    change (how_many (command_with 0x0C03) (taken [Takes reset_packet])) with 1. lia.
Qed.
Lemma resets_answered : replies_to_all F41 0x0C03 queue_history
  (states_of (data_perform F41 V reset_controller) reset_calls empty_queue) reset_device.
Proof.
  destruct (resets_go_on V) as [R1 _ R3 _ _]. split; [exact R1| |exact R3|].
  - intros n. apply resets_orderly.
  - intros n. exists n. split; [lia|]. unfold reset_device. pose proof (own_resets_count 0x0C03 (Nat.div2 (S n))) as J. unfold dev in J. lia.
Qed.
End Resets.
