(** * Going by the answers (proofs). *)
From Coq Require Import Lia.
From Verif Require Import Base Model_Types Model_Intervals Model_EventBase Model_Command Model_Event Model_Host
  Spec_Wire Spec_Errors Spec_Host Spec_Link Spec_Split Spec_FlagNames Spec_Conform Spec_Follow Spec_Credit Spec_Data Spec_Window Spec_Turns
  Spec_Own Spec_Apart Spec_Device Spec_Air Spec_Enabled Spec_Watch Spec_Scan Spec_Meet Spec_Refuse Spec_Several Spec_Approved
  Proofs_Base Proofs_Link Proofs_Queue Proofs_Calls Proofs_Retry Proofs_Dialogue Proofs_Device Proofs_Air Proofs_Enabled Proofs_Watch
  Proofs_Scan Proofs_Meet Proofs_Several.
Open Scope list_scope.
Open Scope N_scope.

Section Approved.
Context (F : features) (V : vendor).

Lemma approved_fit evs (all : list (command V)) : Forall (fit F) all -> forall before, Forall (fit F) (approved evs before all).
Proof.
  induction 1 as [|c cs Hc _ IH]; intros before; [constructor|]. cbn [approved]. apply Forall_app. split; [|apply IH].
  destruct (nth_error _ _) as [ev|]; [|constructor]. destruct (event_confirms ev); [constructor; [exact Hc|constructor]|constructor].
Qed.
Lemma answers_tell d (cs : list (command V)) : by_answers F V d cs -> d = after cs /\ Forall (fit F) cs.
Proof.
  intros [St E C h accepts os s steps s' log HC Ho Hs Hd Hr HT X W R HA -> ->
         |St E C h accepts os s steps s' log HC Ho Hs Hd Hap Hr HT X W R HA -> ->].
  - pose proof (several_settled F V C h HC accepts os s steps after_reset Ho Hs Hd Hr HT) as K.
    pose proof (proj2 (ordered_taken F V C os s Ho)) as Kf. rewrite X in K, Kf. split; [exact (K W R HA)|].
    now apply approved_fit.
  - pose proof (split_settled F V C h HC accepts os s steps after_reset Ho Hs Hd Hap Hr HT) as K.
    pose proof (sent_fits F V C os s Ho) as Kf. rewrite X in K, Kf. split; [exact (K W R HA)|].
    now apply approved_fit.
Qed.

(** A controller that takes all. *)
Definition taking (n : nat) (w : list N) : queue :=
  {| q_received := []; q_consumed := 0; q_arrivals := []; q_written := w; q_ready := repeat Ready n |}.
Lemma taking_possible n w : possible queue_history (taking n w).
Proof. split; [constructor|]. split; [apply Nat.le_refl|constructor]. Qed.
Lemma all_taken (cs : list (command V)) : Forall (fit F) cs -> forall w,
  sent_commands (snd (session F V queue_controller (map (@Send V) cs) (taking (length cs) w))) = cs.
Proof.
  induction 1 as [|c cs [HT HR] _ IH]; intros w; [reflexivity|]. cbn [map session perform length].
  rewrite (call_written F V uart_header uart_header_bytes queue_controller (or_introl eq_refl)) by (auto; now apply (rejection_any (E := unit))).
  cbn [ctl_write queue_controller]. unfold q_arrive at 1 2 3. cbn [taking q_arrivals q_ready repeat].
  unfold q_write. cbn [q_received q_consumed q_arrivals q_written].
  match goal with |- context [session F V queue_controller _ ?st] =>
    match st with {| q_written := ?w' |} => change st with (taking (length cs) w') end end.
  match goal with |- context [taking _ ?w'] => specialize (IH w') end.
  destruct (session F V queue_controller _ _) as [s' log]. cbn [snd] in *. unfold sent_commands. cbn [flat_map].
  destruct (reported_ok V c) as [-> _]. cbn [app]. f_equal. exact IH.
Qed.
Lemma as_if_never_sent d (cs : list (command V)) : by_answers F V d cs ->
  exists s, Forall (typed_operation F) (map (@Send V) cs) /\ possible queue_history s
    /\ told F V queue_controller queue_history (map (@Send V) cs) s d cs.
Proof.
  intros H. destruct (answers_tell d cs H) as [-> Hf]. exists (taking (length cs) []).
  assert (Ho : Forall (typed_operation F) (map (@Send V) cs)).
  { apply Forall_map. eapply Forall_impl; [|exact Hf]. now intros c [HT _]. }
  split; [exact Ho|]. split; [apply taking_possible|]. left.
  pose proof (session_carried F V queue_controller queue_history (map (@Send V) cs) (taking (length cs) []) after_reset
    (buffering_contract _ _ queue_buffering) Ho (taking_possible _ _)) as K.
  pose proof (all_taken cs Hf []) as T. destruct (session F V queue_controller _ _) as [s' log]. cbn [snd] in T. rewrite T in K.
  split; [now symmetry|]. destruct K as (w & ps & K1 & K2 & K3). exists w, ps. split; [exact K1|]. split; [exact K2|].
  symmetry. exact K3.
Qed.

Context (d : settings) (cs : list (command V)) (H : by_answers F V d cs).
Lemma approved_white_list x : In x (white_list d) <-> stays x [] cs.
Proof. destruct (answers_tell d cs H) as [-> _]. exact (asked_history V x cs after_reset). Qed.
Lemma approved_attempts x : attempts d x <-> wants_connection cs x.
Proof.
  destruct (as_if_never_sent d cs H) as (s & Ho & Hs & HT).
  exact (attempts_told F V _ _ _ s d cs (buffering_contract _ _ queue_buffering) Ho Hs HT x).
Qed.
Lemma approved_admits x : admits d x <-> allows_connection cs x.
Proof.
  destruct (as_if_never_sent d cs H) as (s & Ho & Hs & HT).
  exact (admits_told F V _ _ _ s d cs (buffering_contract _ _ queue_buffering) Ho Hs HT x).
Qed.
Lemma approved_events pkt ev : event_new F V pkt = Ok ev -> le_event_known F ev = true -> lets_through d pkt = wants_event F cs ev.
Proof.
  destruct (as_if_never_sent d cs H) as (s & Ho & Hs & HT).
  exact (enabled_told F V _ _ _ s d cs (buffering_contract _ _ queue_buffering) Ho Hs HT pkt ev).
Qed.
Lemma approved_watched : watches F d <-> wants_connections F cs.
Proof.
  destruct (as_if_never_sent d cs H) as (s & Ho & Hs & HT).
  exact (watched F V _ _ _ s d cs (buffering_contract _ _ queue_buffering) Ho Hs HT).
Qed.
End Approved.

Lemma approved_hears F V d cs F' V' a cs' public public' : by_answers F V d cs -> by_answers F' V' a cs' ->
  hears public d public' a <-> is_to_hear public cs public' cs'.
Proof.
  intros H H'. destruct (as_if_never_sent F V d cs H) as (s & Ho & Hs & HT).
  destruct (as_if_never_sent F' V' a cs' H') as (s' & Ho' & Hs' & HT').
  exact (heard_told F V _ _ _ s d cs (buffering_contract _ _ queue_buffering) Ho Hs HT
           F' V' _ _ _ s' a cs' (buffering_contract _ _ queue_buffering) Ho' Hs' HT' public public').
Qed.
Lemma approved_connect F V d cs F' V' a cs' public public' : by_answers F V d cs -> by_answers F' V' a cs' ->
  connect public d public' a <-> is_to_connect public cs public' cs'.
Proof.
  intros H H'. destruct (as_if_never_sent F V d cs H) as (s & Ho & Hs & HT).
  destruct (as_if_never_sent F' V' a cs' H') as (s' & Ho' & Hs' & HT').
  exact (connect_told F V _ _ _ s d cs (buffering_contract _ _ queue_buffering) Ho Hs HT
           F' V' _ _ _ s' a cs' (buffering_contract _ _ queue_buffering) Ho' Hs' HT' public public').
Qed.
