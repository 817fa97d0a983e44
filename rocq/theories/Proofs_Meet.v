(** * Who is connected with whom (proofs). *)
From Verif Require Import Base Model_Types Model_Bitflags Model_Intervals Model_EventBase Model_Command
  Model_Event Model_Host Spec_Wire Spec_Interval Spec_Flags Spec_Errors Spec_Report Spec_Host Spec_Link Spec_Split Spec_Pass
  Spec_Conform Spec_Sent Spec_Device Spec_Air Spec_Meet
  Proofs_Base Proofs_Interval Proofs_Flags Proofs_Calls Proofs_Time Proofs_Host Proofs_Complete Proofs_Report Proofs_Link Proofs_Sent
  Proofs_Streams Proofs_Split Proofs_Device Proofs_Air.
Open Scope list_scope.
Open Scope N_scope.

Section History.
Context {V : vendor}.
Implicit Types cs : list (command V).
(** What the initiator was given. *)
Definition given (p : connection_parameters) : initiating :=
  match connecting (Spec_Device.asked after_reset (CLeCreateConnection (V := V) p)) with
  | Some i => i
  | None => Build_initiating 0 0 None 0 (0, 0) 0 0 (0, 0)
  end.
Lemma given_after cs : connecting (after cs) = option_map given (wanted_connection cs).
Proof. rewrite connection_after. now destruct (wanted_connection cs). Qed.
Lemma initiator_after public cs p :
  initiator_address public (after cs) (given p) = address_bytes (initiates_as public cs p).
Proof.
  unfold initiator_address, initiates_as, address_used, given. rewrite address_after.
  cbn [Spec_Device.asked with_connecting connecting ini_own]. destruct (cp_own_address_type p); reflexivity.
Qed.
Lemma initiates_typed F public cs p : bd_addr_typed public -> Forall (fit F) cs -> address_typed (initiates_as public cs p).
Proof.
  intros Hp H. unfold initiates_as. pose proof (address_ok_after F cs H) as K.
  destruct (cp_own_address_type p); cbn [address_typed]; assumption.
Qed.
Lemma wanted_typed F cs p : Forall (fit F) cs -> wanted_connection cs = Some p ->
  arguments_typed F (CLeCreateConnection (V := V) p).
Proof.
  intros H. unfold wanted_connection. induction cs as [|c cs IH] using rev_ind; [discriminate|].
  apply Forall_app in H. destruct H as [H1 H2]. specialize (IH H1). inversion H2 as [|? ? [A R] _]; subst.
  rewrite latest_snoc. destruct c; try exact IH; try discriminate. intros Q. injection Q as <-. exact A.
Qed.
End History.

Lemma connect_after {V V'} public (cs : list (command V)) public' (cs' : list (command V')) :
  connect public (after cs) public' (after cs') <-> is_to_connect public cs public' cs'.
Proof.
  unfold connect, is_to_connect. rewrite attempts_after, known_after, given_after.
  destruct (wanted_connection cs) as [p|] eqn:W; cbn [option_map].
  - split; intros (H1 & x & H2 & H3); injection H2 as <-; (split; [exact H1|]).
    + exists p. split; [reflexivity|]. now rewrite <- admits_after, <- initiator_after.
    + exists (given (V := V) p). split; [reflexivity|]. now rewrite initiator_after, admits_after.
  - split; intros (_ & x & H & _); discriminate H.
Qed.

Lemma reportable_choice p interval t :
  t = {| asked_min := sent_interval (fst (ci_interval (cp_conn_interval p)));
         asked_max := sent_interval (snd (ci_interval (cp_conn_interval p)));
         asked_latency := ci_latency (cp_conn_interval p);
         asked_timeout := ci_timeout (cp_conn_interval p) / timeout_unit |} ->
  reportable p interval <-> reported_choice t interval.
Proof.
  intros ->. unfold reportable, reported_choice, timeout_suffices. cbn [asked_timeout asked_latency].
  set (t := ci_timeout (cp_conn_interval p) / timeout_unit). clearbody t.
  rewrite N.mul_assoc. set (x := 2 * (1 + ci_latency (cp_conn_interval p)) * interval). clearbody x.
  unfold interval_unit, timeout_unit, ms. lia.
Qed.

Section Two.
Context (F : features) (V : vendor) {St E : Type} (C : controller St E) (h : history St) (os : list (operation V)) (s : St)
  (d : settings) (cs : list (command V)).
Hypothesis (HC : contract C h) (Ho : Forall (typed_operation F) os) (Hs : possible h s) (HT : told F V C h os s d cs).
Context (F' : features) (V' : vendor) {St' E' : Type} (C' : controller St' E') (h' : history St') (os' : list (operation V')) (s' : St')
  (a : settings) (cs' : list (command V')).
Hypothesis (HC' : contract C' h') (Ho' : Forall (typed_operation F') os') (Hs' : possible h' s') (HT' : told F' V' C' h' os' s' a cs').

Lemma connect_told public public' : connect public d public' a <-> is_to_connect public cs public' cs'.
Proof.
  destruct (told_after F V C h os s d cs HC Ho Hs HT) as [-> _].
  destruct (told_after F' V' C' h' os' s' a cs' HC' Ho' Hs' HT') as [-> _]. apply connect_after.
Qed.

Lemma announced_told public public' x x' interval accuracy : bd_addr_typed public -> bd_addr_typed public' -> u16 x -> u16 x' ->
  (forall p, is_to_connect public cs public' cs' -> wanted_connection cs = Some p -> in_range p interval ->
     exists to to', announced public d public' a x x' interval (clock_accuracy_code accuracy) to to')
  /\ forall to to', announced public d public' a x x' interval (clock_accuracy_code accuracy) to to' ->
     exists p, is_to_connect public cs public' cs' /\ wanted_connection cs = Some p /\ in_range p interval
       /\ (reportable p interval ->
           event_new F V to = Ok (EvLeConnectionComplete (Build_le_connection_complete Success x Central
             (known_as public' cs') (agreed p interval) Ppm500))
           /\ event_new F' V' to' = Ok (EvLeConnectionComplete (Build_le_connection_complete Success x' Peripheral
             (initiates_as public cs p) (agreed p interval) accuracy)))
       /\ (~ reportable p interval -> exists e e', event_new F V to = Err e /\ event_new F' V' to' = Err e')
       /\ (ample (cp_conn_interval p) -> reportable p interval).
Proof.
  intros Hp Hp' Hx Hx'. pose proof (connect_told public public') as K.
  destruct (told_after F V C h os s d cs HC Ho Hs HT) as [Ed Hf].
  destruct (told_after F' V' C' h' os' s' a cs' HC' Ho' Hs' HT') as [Ea Hf']. split.
  - intros p H1 H2 H3. unfold announced. do 2 eexists. split; [now apply K|].
    exists (given (V := V) p). split; [now rewrite Ed, given_after, H2|]. split; [exact H3|]. split; reflexivity.
  - intros to to' (H1 & i & H2 & H3 & -> & ->). apply K in H1. rewrite Ed, given_after in H2.
    destruct (wanted_connection cs) as [p|] eqn:W; [|discriminate H2]. injection H2 as <-.
    exists p. split; [exact H1|]. split; [reflexivity|]. split; [exact H3|].
    pose proof (wanted_typed F cs p Hf W) as HA.
    set (t := {| asked_min := sent_interval (fst (ci_interval (cp_conn_interval p)));
         asked_max := sent_interval (snd (ci_interval (cp_conn_interval p)));
         asked_latency := ci_latency (cp_conn_interval p);
         asked_timeout := ci_timeout (cp_conn_interval p) / timeout_unit |}).
    destruct (choice_legal (cp_conn_interval p) t interval) as (R & U1 & U2 & U3 & Am);
      [exact (proj1 (proj2 (proj2 (proj2 (proj2 HA)))))|reflexivity|exact (proj1 H3)|exact (proj2 H3)|].
    rewrite (reportable_choice p interval t eq_refl), R.
    rewrite Ed, Ea, initiator_after, known_after.
    destruct (connected_is F V t interval x Central (known_as public' cs') Ppm500 U1 U2 U3 Hx
      (known_typed F' public' cs' Hp' Hf')) as [K1 K2].
    destruct (connected_is F' V' t interval x' Peripheral (initiates_as public cs p) accuracy U1 U2 U3 Hx'
      (initiates_typed F public cs p Hp Hf)) as [K3 K4].
    split; [intros L; split; [exact (K1 L)|exact (K3 L)]|].
    split; [|intros A; now apply R, Am].
    intros L. destruct (K2 L) as [e Q]. destruct (K4 L) as [e' Q']. exists e, e'. split; [exact Q|exact Q'].
Qed.
End Two.
