(** * Commands and their answers. *)
From Verif Require Import Base Model_Types Model_Bitflags Model_Intervals Model_EventBase Model_Command
  Model_Event Model_Host Spec_Wire Spec_Errors Spec_Report Spec_Interval Spec_Flags Spec_Host Spec_Link
  Spec_Retry Spec_Dialogue Spec_Example Proofs_Base Proofs_Event Proofs_Errors Proofs_Report Proofs_Complete Proofs_Host Proofs_Calls
  Proofs_Streams Proofs_Link Proofs_Queue Proofs_Retry Proofs_Panic.
Open Scope list_scope.
Open Scope N_scope.

Lemma framed_octets code p : byte code -> bytes p -> (length p <= 255)%nat -> bytes (framed code p).
Proof.
  intros Hc Hp Hl. unfold framed. apply bytes_cons. split; [exact Hc|].
  apply bytes_cons. split; [unfold byte; lia|exact Hp].
Qed.

Section Dialogue.
Context (F : features) (V : vendor) (respond : list N -> list N -> list (list N)).
Notation C := (device respond).

Lemma device_read s : uart_read F V C s = uart_read F V queue_controller s.
Proof. reflexivity. Qed.
Lemma device_waits n s :
  waiting blocked (uart_read F V C) n s = waiting blocked (uart_read F V queue_controller) n s.
Proof. reflexivity. Qed.

(** What reading leaves alone. *)
Lemma read_keeps s : let s' := fst (uart_read F V queue_controller s) in
  q_ready s' = q_ready s /\ q_written s' = q_written s
  /\ (length (q_arrivals s') <= length (q_arrivals s))%nat.
Proof.
  cbv zeta.
  assert (A : forall x, q_ready (q_arrive x) = q_ready x /\ q_written (q_arrive x) = q_written x
                        /\ (length (q_arrivals (q_arrive x)) <= length (q_arrivals x))%nat).
  { intros x. unfold q_arrive. destruct (q_arrivals x) as [|c l] eqn:E; cbn; [rewrite E; auto|auto]. }
  apply (uart_read_keeps F V queue_controller
    (fun x => q_ready x = q_ready s /\ q_written x = q_written s
              /\ (length (q_arrivals x) <= length (q_arrivals s))%nat)).
  - cbn. apply A.
  - intros x n (H1 & H2 & H3). cbn. destruct (A x) as (-> & -> & ?). repeat split; auto; lia.
  - intros x buf (H1 & H2 & H3). cbn. destruct (A x) as (A1 & A2 & ?).
    destruct (Nat.leb _ _); cbn; rewrite A1, A2; repeat split; auto; lia.
Qed.
Lemma wait_keeps n : forall s, let s' := fst (waiting blocked (uart_read F V queue_controller) n s) in
  q_ready s' = q_ready s /\ q_written s' = q_written s
  /\ (length (q_arrivals s') <= length (q_arrivals s))%nat.
Proof.
  induction n as [|n IH]; intros s; cbn [waiting fst]; [auto|].
  pose proof (read_keeps s) as K. destruct (uart_read F V queue_controller s) as [s1 r]. cbn [fst] in K.
  destruct (blocked r); [|exact K]. cbv zeta in *. specialize (IH s1).
  destruct K as (K1 & K2 & K3), IH as (I1 & I2 & I3). repeat split; [congruence..|lia].
Qed.

Lemma opcode_not_zero (c : command V) : command_opcode c <> 0.
Proof. destruct c; vm_compute; discriminate. Qed.

Lemma answered_packet (c : command V) a p : answered F V (command_opcode c) a p -> event_packet p.
Proof.
  intros H. destruct H as [n r ret Hn Hr Hl _|n sb s Hn Hs _].
  - exists 0x0E. eexists. split; [reflexivity|]. split; [reflexivity|]. split.
    + apply bytes_app. split; [now constructor|]. apply bytes_app. split; [apply bytes_le|exact Hr].
    + rewrite !app_length, le_length. cbn [length]. lia.
  - exists 0x0F. eexists. split; [reflexivity|]. split; [reflexivity|]. split.
    + apply bytes_app. split; [repeat constructor; assumption|apply bytes_le].
    + rewrite app_length, le_length. cbn [length]. lia.
Qed.
Lemma answered_event (c : command V) a p : answered F V (command_opcode c) a p ->
  exists ev, event_new F V p = Ok ev /\ is_answer V (command_opcode c) ev = Some a.
Proof.
  intros H. pose proof (answered_packet c a p H) as Hp. pose proof (opcode_not_zero c) as Hz.
  destruct H as [n r ret Hn Hr Hl HW|n sb s Hn Hs HS].
  - exists (EvCommandComplete (Build_command_complete n r)).
    split; [exact (complete_accepted F V n _ ret r Hn (command_opcode_u16 c) Hr Hl HW)|].
    cbn [is_answer cc_return_params]. destruct r; try reflexivity. cbn [wire_return] in HW. contradiction.
  - eexists (EvCommandStatus (Build_command_status s n (command_opcode c))). split.
    + apply (command_status_packet F V).
      * destruct Hp as (code & q & -> & Hc & Hq & Hl). now apply framed_octets.
      * exists sb. split; [exact HS|]. split; [apply command_opcode_u16|]. unfold framed.
        now rewrite app_length, le_length.
    + cbn [is_answer cst_opcode cst_status]. now rewrite N.eqb_refl.
Qed.
Lemma unrelated_event (c : command V) p ev : unrelated F V p -> event_new F V p = Ok ev ->
  is_answer V (command_opcode c) ev = None.
Proof.
  intros (Hp & _ & H) He. pose proof (opcode_not_zero c) as Hz.
  assert (Hb : bytes p) by (destruct Hp as (? & ? & -> & Hc & Hq & Hl); now apply framed_octets).
  destruct H as [(code & q & -> & H1 & H2)|[(n & ->)|(sb & n & ->)]].
  - destruct (event_of_code F V _ ev He) as (q' & Hq & _). unfold framed in Hq. apply cons_inv in Hq.
    destruct Hq as [Hq _]. destruct ev; cbn [is_answer event_code] in *; congruence.
  - assert (X : event_new F V (framed 0x0E ([n] ++ le 2 0 ++ []))
                = Ok (EvCommandComplete (Build_command_complete n RetSpontaneous))).
    { apply (complete_accepted F V); [|reflexivity|constructor|cbn; lia|reflexivity].
      unfold framed in Hb. cbn [app] in Hb. bytes_inv. assumption. }
    rewrite app_nil_r in X. rewrite X in He. injection He as <-. reflexivity.
  - destruct (event_of_code F V _ ev He) as (q' & Hq & _). unfold framed in Hq. apply cons_inv in Hq.
    destruct Hq as [Hq _].
    destruct ev; cbn [event_code] in Hq; try discriminate Hq; [|destruct (event_subcode _); discriminate Hq..].
    destruct e as [s n' o]. apply (command_status_packet F V) in He; [|exact Hb].
    destruct He as (sb' & _ & Ho & He). cbn [framed app] in He.
    repeat (apply cons_inv in He; destruct He as [? He]).
    cbn [is_answer cst_opcode].
    destruct (N.eqb_spec o (command_opcode c)) as [->|_]; [|reflexivity]. exfalso.
    assert (le 2 0 = le 2 (command_opcode c)) as K by (unfold le; cbn; congruence). clear He.
    destruct c; vm_compute in K; discriminate K.
Qed.

Lemma await_gets (c : command V) a p m : answered F V (command_opcode c) a p ->
  forall ps n s rest, Forall (unrelated F V) ps -> possible queue_history s ->
  q_pending s ++ concat (q_arrivals s) = flat_map uart_frame (ps ++ [p]) ++ rest ->
  (length (q_arrivals s) < m)%nat -> (length ps < n)%nat ->
  exists s', await F V C (command_opcode c) m n s = (s', Some a) /\ possible queue_history s'
    /\ q_pending s' ++ concat (q_arrivals s') = rest
    /\ q_ready s' = q_ready s /\ q_written s' = q_written s
    /\ (length (q_arrivals s') <= length (q_arrivals s))%nat.
Proof.
  intros HA. induction ps as [|q ps IH]; intros n s rest Hps Hs Ht Hm Hn;
    (destruct n as [|n]; [lia|]); cbn [await]; rewrite device_waits.
  - cbn [app flat_map] in Ht. rewrite app_nil_r in Ht.
    destruct (queue_wait_read F V m s p rest Hs (answered_packet c a p HA) Ht Hm) as (s' & Hw & HT & HR).
    pose proof (wait_keeps m s) as K. rewrite Hw in *. cbn [fst] in K. destruct K as (K1 & K2 & K3).
    destruct (answered_event c a p HA) as (ev & He & Ha). unfold uart_result. rewrite He, Ha.
    exists s'. split; [reflexivity|]. split; [apply HT|]. auto.
  - inversion Hps as [|? ? Hq Hps']; subst. cbn [app flat_map] in Ht. rewrite <- app_assoc in Ht.
    assert (Hp : event_packet q) by apply Hq.
    destruct (queue_wait_read F V m s q _ Hs Hp Ht Hm) as (s1 & Hw & HT & HR).
    pose proof (wait_keeps m s) as K. rewrite Hw in *. cbn [fst] in K. destruct K as (K1 & K2 & K3).
    assert (Hs1 : possible queue_history s1) by apply HT. cbn [length] in Hn.
    destruct (IH n s1 rest Hps' Hs1 HR) as (s' & HI & J1 & J2 & J3 & J4 & J5); [lia..|].
    exists s'. split; [|split; [exact J1|split; [exact J2|split; [congruence|split; [congruence|lia]]]]].
    unfold uart_result. destruct (event_new F V q) as [ev|e|] eqn:Ee; [|exact HI|].
    + now rewrite (unrelated_event c q ev Hq Ee).
    + exfalso. now apply Hq.
Qed.

Lemma arrive_pending s : possible queue_history s ->
  q_pending (q_arrive s) ++ concat (q_arrivals (q_arrive s)) = q_pending s ++ concat (q_arrivals s).
Proof.
  intros Hs. destruct (q_arrive_spec s Hs) as (A1 & A2 & A3 & _).
  pose proof (queue_after s (q_arrive s) Hs A2 (proj1 (q_arrive_total s))) as K.
  rewrite <- K. unfold q_pending, pending. cbn. now rewrite A3.
Qed.

Lemma reported_ok (c : command V) : succeeded (reported (E := N) c (Ok tt)) = true
  /\ method_blocked (reported (E := N) c (Ok tt)) = false
  /\ method_blocked (reported (E := N) c (Err WouldBlock)) = true.
Proof. unfold reported. now destruct (has_own_errors c). Qed.

Lemma device_takes (c : command V) later n : arguments_typed F c -> @rejection V N c = None ->
  forall k s, possible queue_history s -> Forall bytes (respond (q_written s) (command_bytes c)) ->
  q_ready s = repeat Busy k ++ Ready :: later -> (k < n)%nat ->
  exists s', waiting method_blocked (run_command F V uart_header C c) n s = (s', Some (reported c (Ok tt)))
    /\ possible queue_history s'
    /\ q_pending s' ++ concat (q_arrivals s')
       = (q_pending s ++ concat (q_arrivals s)) ++ concat (respond (q_written s) (command_bytes c))
    /\ q_ready s' = later /\ q_written s' = q_written s ++ command_bytes c
    /\ (length (q_arrivals s') <= length (q_arrivals s) + length (respond (q_written s) (command_bytes c)))%nat.
Proof.
  assert (HH : In (uart_header, uart_header_bytes) header_formats) by (left; reflexivity).
  intros HA HR. induction n as [|n IH]; intros k s Hs Hb Hq Hn; [lia|]. cbn [waiting].
  rewrite (call_written F V uart_header uart_header_bytes C HH) by assumption.
  fold (command_bytes c).
  cbn [ctl_write device]. rewrite q_arrive_ready, Hq.
  destruct (reported_ok c) as (R1 & R2 & R3).
  destruct (q_arrive_spec s Hs) as (A1 & A2 & A3 & A4). pose proof (arrive_pending s Hs) as A5.
  pose proof (proj2 (q_arrive_total s)) as A6.
  destruct k as [|k]; cbn [repeat app].
  - rewrite R2. eexists. split; [reflexivity|].
    change (uart_header_bytes (command_opcode c) (length (command_params c)) ++ command_params c)
      with (command_bytes c).
    split; [|split; [|split; [reflexivity|split]]].
    + destruct A1 as (B1 & B2 & B3). split; [exact B1|]. split; [exact B2|]. cbn. apply Forall_app. auto.
    + rewrite <- A5. cbn [q_expect q_write q_arrivals]. rewrite concat_app, app_assoc. reflexivity.
    + cbn. now rewrite A4.
    + cbn. rewrite app_length, A6. lia.
  - rewrite R3. cbn [repeat app] in *.
    assert (W : q_written (q_write [] (repeat Busy k ++ Ready :: later) (q_arrive s)) = q_written s)
      by (cbn; now rewrite app_nil_r).
    destruct (IH k (q_write [] (repeat Busy k ++ Ready :: later) (q_arrive s))) as (s' & J0 & J1 & J2 & J3 & J4 & J5).
    + exact A1.
    + now rewrite W.
    + reflexivity.
    + lia.
    + exists s'. split; [exact J0|]. rewrite W in J2, J4, J5. split; [exact J1|].
      split; [|split; [exact J3|split; [exact J4|]]].
      * rewrite J2. f_equal. exact A5.
      * cbn [q_write q_arrivals] in J5. lia.
Qed.

Lemma dialogue cs : Forall (fun c => arguments_typed F c /\ @rejection V N c = None) cs ->
  forall answers w ready k b, serves F V respond w cs answers -> takes (length cs) ready ->
  exists m, forall n, (m <= n)%nat ->
  forall ps s, possible queue_history s -> q_written s = w -> q_ready s = ready ->
  (length (q_arrivals s) <= k)%nat -> Forall (unrelated F V) ps -> (length ps <= b)%nat ->
  q_pending s ++ concat (q_arrivals s) = flat_map uart_frame ps ->
  exists s', asks F V C n cs s = (s', map Some answers)
    /\ q_written s' = w ++ flat_map command_bytes cs.
Proof.
  induction 1 as [|c cs [HA HR] _ IH]; intros answers w ready k b HS HK.
  - inversion HS; subst. exists 0%nat. intros n _ ps s _ <- _ _ _ _ _. exists s. cbn. now rewrite app_nil_r.
  - inversion HS as [|? ? ? a rest before p after HB HC Hb Ha HP HS']; subst. cbn [length] in HK.
    inversion HK as [|? busy l HK' E1 E2]; subst.
    set (r := respond w (command_bytes c)) in *.
    destruct (IH rest _ l (k + length r)%nat (length after) HS' HK') as [m Hm].
    exists (m + S busy + S (k + length r) + S (b + length before))%nat. intros n Hn ps s Hs Hw Hq Hk Hps Hl Ht.
    cbn [asks]. unfold ask.
    destruct (device_takes c l n HA HR busy s Hs) as (s1 & -> & S1 & S2 & S3 & S4 & S5).
    { now rewrite Hw. } { exact Hq. } { lia. }
    destruct (reported_ok c) as (-> & _).
    rewrite Hw in S2, S4, S5. fold r in S2, S5. rewrite Ht, HC in S2.
    destruct (await_gets c a p n HP (ps ++ before) n s1 (flat_map uart_frame after)) as (s2 & -> & T1 & T2 & T3 & T4 & T5).
    + apply Forall_app. auto.
    + exact S1.
    + rewrite S2, <- !flat_map_app. f_equal. now rewrite <- !app_assoc.
    + lia.
    + rewrite app_length. lia.
    + destruct (Hm n) with (ps := after) (s := s2) as (s3 & -> & U).
      * lia. * exact T1. * congruence. * congruence. * lia. * exact Ha. * lia. * exact T2.
      * exists s3. split; [reflexivity|]. cbn [flat_map]. now rewrite app_assoc.
Qed.
End Dialogue.

Lemma dialogues F V respond cs answers s ps :
  Forall (fun c => arguments_typed F c /\ @rejection V N c = None) cs ->
  possible queue_history s -> takes (length cs) (q_ready s) ->
  q_pending s ++ concat (q_arrivals s) = flat_map uart_frame ps -> Forall (unrelated F V) ps ->
  serves F V respond (q_written s) cs answers ->
  exists m, forall n, (m <= n)%nat ->
  exists s', asks F V (device respond) n cs s = (s', map Some answers)
    /\ q_written s' = q_written s ++ flat_map command_bytes cs.
Proof.
  intros Hcs Hs HT Hp Hps HS.
  destruct (dialogue F V respond cs Hcs answers _ _ (length (q_arrivals s)) (length ps) HS HT) as [m Hm].
  exists m. intros n Hn. exact (Hm n Hn ps s Hs eq_refl eq_refl (Nat.le_refl _) Hps (Nat.le_refl _) Hp).
Qed.

Lemma answered_variant F V (c : command V) ans r p : command_exists F c = true -> answers c = Some ans ->
  answered F V (command_opcode c) (Completed r) p -> ans r.
Proof.
  intros HX Ha H. remember (Completed r) as a eqn:Ea. destruct H as [n r' ret _ _ _ HW|]; [|discriminate Ea].
  injection Ea as <-. exact (wire_answer F V c ans r' ret HX Ha HW).
Qed.

Ltac unrelated_packet code params :=
  split; [exists code, params; split; [reflexivity|]; split; [reflexivity|]; split; [repeat constructor|cbn; lia]|];
  split; [vm_compute; discriminate|].

Lemma dialogue_case :
  let cs := [CReset; CReadRssi 0x0201; CDisconnect 0x0001 RemoteTerminationByUser] in
  let answers :=
    [Completed (RetReset Success);
     Completed (RetReadRssi {| rssi_status := Success; rssi_conn_handle := 0x0201; rssi_rssi := (-16)%Z |});
     Accepted CommandDisallowed] in
  Forall (fun c => arguments_typed F41 c /\ @rejection test_vendor N c = None) cs
  /\ possible queue_history example_device /\ takes (length cs) (q_ready example_device)
  /\ serves F41 test_vendor example_respond [] cs answers
  /\ snd (asks F41 test_vendor (device example_respond) 50 cs example_device) = map Some answers.
Proof.
  cbv zeta. split; [repeat (constructor; [split; vm_compute; reflexivity|]); constructor|].
  split; [split; [constructor|split; [cbn; lia|constructor]]|].
  split; [apply (takes_more 2 1), (takes_more 1 0), (takes_more 0 2), takes_none|].
  split; [|vm_compute; reflexivity].
  apply (serves_one F41 test_vendor example_respond [] CReset _ _ _ [[0x77; 0]] [0x0E; 4; 1; 0x03; 0x0C; 0] [[0x10; 1; 0x42]]).
  - vm_compute. repeat constructor.
  - vm_compute. reflexivity.
  - constructor; [|constructor]. unrelated_packet 0x77 (@nil N). left. exists 0x77, []. repeat split; discriminate.
  - constructor; [|constructor]. unrelated_packet 0x10 [0x42]. left. exists 0x10, [0x42]. repeat split; discriminate.
  - apply (by_completion F41 test_vendor (command_opcode (V := test_vendor) CReset) 1 (RetReset Success) [0]);
      [reflexivity|repeat constructor|cbn; lia|]. split; [reflexivity|]. exists 0, []. split; reflexivity.
  - apply (serves_one F41 test_vendor example_respond _ (CReadRssi 0x0201) _ _ _ [[0x0E; 3; 1; 0; 0]]
             [0x0E; 7; 1; 0x05; 0x14; 0; 0x01; 0x02; 0xF0] []).
    + vm_compute. repeat constructor.
    + vm_compute. reflexivity.
    + constructor; [|constructor]. unrelated_packet 0x0E [1; 0; 0]. right. left. exists 1. reflexivity.
    + constructor.
    + apply (by_completion F41 test_vendor (command_opcode (V := test_vendor) (CReadRssi 0x0201)) 1
        (RetReadRssi {| rssi_status := Success; rssi_conn_handle := 0x0201; rssi_rssi := (-16)%Z |})
        [0; 0x01; 0x02; 0xF0]); [reflexivity|repeat constructor|cbn; lia|].
      split; [reflexivity|]. split; [reflexivity|]. split; [split; cbn [rssi_rssi]; lia|]. exists 0. split; reflexivity.
    + apply (serves_one F41 test_vendor example_respond _ (CDisconnect 0x0001 RemoteTerminationByUser) _ _ _ []
             [0x0F; 4; 0x0C; 1; 0x06; 0x04] []).
      * vm_compute. repeat constructor.
      * vm_compute. reflexivity.
      * constructor.
      * constructor.
      * apply (by_status F41 test_vendor (command_opcode (V := test_vendor) (CDisconnect 0x0001 RemoteTerminationByUser)) 1 0x0C);
          [reflexivity|reflexivity|]. reflexivity.
      * constructor.
Qed.
