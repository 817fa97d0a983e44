(** * Events: framing, dispatch, layouts and errors. *)
From Verif Require Import Base Model_Types Model_Bitflags Model_Intervals
  Model_EventBase Model_Command Model_Event Spec_Wire Spec_Interval Spec_Errors
  Proofs_Base Proofs_Bits Proofs_Interval.

(** ** Small codes *)
Ltac code_ok :=
  intros; repeat match goal with |- context [?b =? ?c] => destruct (N.eqb_spec b c) end;
  (split; intros HH;
   [ try discriminate HH; injection HH as <-; subst; reflexivity
   | match goal with x : ?T |- _ =>
      lazymatch T with N => fail | Type => fail | _ => destruct x; cbn in HH; try lia; reflexivity end end ]).

Lemma link_type_ok {VE} b (l : link_type) :
  @link_type_try_from VE b = Ok l <-> b = link_type_code l.
Proof. unfold link_type_try_from. code_ok. Qed.
Lemma encryption_enabled_ok {VE} b (l : bool) :
  @try_into_encryption_enabled VE b = Ok l <-> b = flag l.
Proof. unfold try_into_encryption_enabled. code_ok. Qed.
Lemma encryption_ok {VE} b (l : encryption) :
  @encryption_try_from VE b = Ok l <-> b = encryption_code l.
Proof. unfold encryption_try_from. code_ok. Qed.
Lemma role_ok {VE} b (l : connection_role) :
  @connection_role_try_from VE b = Ok l <-> b = role_code l.
Proof. unfold connection_role_try_from. code_ok. Qed.
Lemma clock_accuracy_ok {VE} b (l : clock_accuracy) :
  @clock_accuracy_try_from VE b = Ok l <-> b = clock_accuracy_code l.
Proof. unfold clock_accuracy_try_from. code_ok. Qed.
Lemma phy_ok {VE} b (l : phy) : @phy_try_from VE b = Ok l <-> b = phy_code l.
Proof. unfold phy_try_from. code_ok. Qed.
Lemma advertisement_event_ok {VE} b (l : advertisement_event) :
  @advertisement_event_try_from VE b = Ok l <-> b = advertisement_event_code l.
Proof. unfold advertisement_event_try_from. code_ok. Qed.
Lemma bd_addr_type_ok_iff {VE} b a (l : bd_addr_type) :
  @bd_addr_type_of VE b a = Ok l <-> b :: a = address_bytes l.
Proof.
  unfold bd_addr_type_of, to_bd_addr_type.
  destruct (N.eqb_spec b 0); [|destruct (N.eqb_spec b 1)]; cbn [map_err]; split; intros HH;
    try discriminate HH.
  - injection HH as <-. subst. reflexivity.
  - destruct l; cbn in HH; injection HH as H1 <-; [reflexivity|lia].
  - injection HH as <-. subst. reflexivity.
  - destruct l; cbn in HH; injection HH as H1 <-; [lia|reflexivity].
  - destruct l; cbn in HH; injection HH as H1 <-; lia.
Qed.

(** ** Tactics for decoders *)
Ltac invert_binds HH :=
  repeat (apply bind_ok in HH; let a := fresh "a" in let Ha := fresh "Ha" in
          destruct HH as (a & Ha & HH)).

Ltac codes :=
  repeat match goal with
  | H : status_of _ _ _ = Ok _ |- _ => apply status_of_ok in H
  | H : reason_of _ _ _ = Ok _ |- _ => apply reason_of_ok in H
  | H : link_type_try_from _ = Ok _ |- _ => apply link_type_ok in H; subst
  | H : try_into_encryption_enabled _ = Ok _ |- _ => apply encryption_enabled_ok in H; subst
  | H : encryption_try_from _ = Ok _ |- _ => apply encryption_ok in H; subst
  | H : connection_role_try_from _ = Ok _ |- _ => apply role_ok in H; subst
  | H : clock_accuracy_try_from _ = Ok _ |- _ => apply clock_accuracy_ok in H; subst
  | H : phy_try_from _ = Ok _ |- _ => apply phy_ok in H; subst
  end.

Ltac use_status :=
  repeat match goal with
  | H : status_byte _ _ ?b _ |- context [status_of _ _ ?b] =>
      rewrite (proj2 (status_of_ok _ _ _ _) H); cbn [bind]
  | H : status_byte _ _ ?b _ |- context [reason_of _ _ ?b] =>
      rewrite (proj2 (reason_of_ok _ _ _ _) H); cbn [bind]
  | |- context [link_type_try_from (link_type_code ?l)] =>
      rewrite (proj2 (link_type_ok _ l) eq_refl); cbn [bind]
  | |- context [try_into_encryption_enabled (flag ?l)] =>
      rewrite (proj2 (encryption_enabled_ok _ l) eq_refl); cbn [bind]
  | |- context [encryption_try_from (encryption_code ?l)] =>
      rewrite (proj2 (encryption_ok _ l) eq_refl); cbn [bind]
  | |- context [connection_role_try_from (role_code ?l)] =>
      rewrite (proj2 (role_ok _ l) eq_refl); cbn [bind]
  | |- context [clock_accuracy_try_from (clock_accuracy_code ?l)] =>
      rewrite (proj2 (clock_accuracy_ok _ l) eq_refl); cbn [bind]
  | |- context [phy_try_from (phy_code ?l)] =>
      rewrite (proj2 (phy_ok _ l) eq_refl); cbn [bind]
  end.

Ltac reads :=
  cbn -[status_of reason_of link_type_try_from try_into_encryption_enabled encryption_try_from
        connection_role_try_from clock_accuracy_try_from phy_try_from bd_addr_type_of
        fci_from_bytes bf_from_bits bf_from_bits_truncate u8_as_i8 status_byte le].
Ltac reads_in HH :=
  cbn -[status_of reason_of link_type_try_from try_into_encryption_enabled encryption_try_from
        connection_role_try_from clock_accuracy_try_from phy_try_from bd_addr_type_of
        fci_from_bytes bf_from_bits bf_from_bits_truncate u8_as_i8 status_byte le] in HH.

Ltac forward n :=
  let HH := fresh "HH" in
  intros HH; unfold require_len in HH;
  match type of HH with context [Nat.eqb (length ?p) n] =>
    let H := fresh "Hlen" in
    destruct (Nat.eqb_spec (length p) n) as [H|H]; [|discriminate HH];
    try (cbn [length] in H; injection H as H);
    destruct_len H; bytes_inv; reads_in HH; invert_binds HH; codes;
    try (injection HH as HH); subst
  end.

Ltac finish := rewrite ?le_2_of_bytes, ?le_8_of_bytes by assumption; cbn [app]; reflexivity.

(** ** Framing *)
Section Framing.
Context (F : features) (V : vendor).

Lemma event_new_framed code payload :
  event_new F V (framed code payload) = event_dispatch F V code payload.
Proof.
  unfold event_new, framed, require_len_at_least, require_len, packet_full_length.
  cbn [length Nat.ltb Nat.leb bind idx nth_error].
  rewrite Nat2N.id.
  change (S (S (length payload))) with (2 + length payload)%nat.
  rewrite Nat.eqb_refl. cbn [bind].
  unfold slice. cbn [length]. change (S (S (length payload))) with (2 + length payload)%nat.
  rewrite Nat.leb_refl. cbn [Nat.leb Nat.add andb bind Nat.sub skipn].
  now rewrite Nat.sub_0_r, firstn_all.
Qed.

Lemma event_new_short pkt : (length pkt < 2)%nat ->
  event_new F V pkt = Err (EBadLength (length pkt) 2).
Proof.
  intros H. unfold event_new, require_len_at_least.
  destruct (Nat.ltb_spec (length pkt) 2); [reflexivity|lia].
Qed.

Lemma event_new_bad_length code n rest : length rest <> N.to_nat n ->
  event_new F V (code :: n :: rest)
  = Err (EBadLength (2 + length rest) (2 + N.to_nat n)).
Proof.
  intros H. unfold event_new, require_len_at_least, require_len, packet_full_length.
  cbn [length Nat.ltb Nat.leb bind idx nth_error].
  destruct (Nat.eqb_spec (S (S (length rest))) (2 + N.to_nat n)); [lia|reflexivity].
Qed.

Lemma event_new_cases pkt :
  ((length pkt < 2)%nat /\ event_new F V pkt = Err (EBadLength (length pkt) 2))
  \/ (exists code n rest, pkt = code :: n :: rest /\ length rest <> N.to_nat n
        /\ event_new F V pkt = Err (EBadLength (2 + length rest) (2 + N.to_nat n)))
  \/ (exists code p, pkt = framed code p /\ event_new F V pkt = event_dispatch F V code p).
Proof.
  destruct pkt as [|code [|n rest]].
  - left. split; [simpl; lia|]. apply event_new_short. simpl. lia.
  - left. split; [simpl; lia|]. apply event_new_short. simpl. lia.
  - right. destruct (Nat.eq_dec (length rest) (N.to_nat n)) as [e|H].
    + right. exists code, rest.
      assert (n = N.of_nat (length rest)) by lia. subst n.
      split; [reflexivity|]. apply event_new_framed.
    + left. exists code, n, rest. split; [reflexivity|]. split; [exact H|].
      now apply event_new_bad_length.
Qed.

Lemma event_new_ok pkt ev :
  event_new F V pkt = Ok ev <->
  exists code p, pkt = framed code p /\ event_dispatch F V code p = Ok ev.
Proof.
  split.
  - intros H. destruct (event_new_cases pkt) as [[_ K]|[(c & n & r & _ & _ & K)|(c & p & -> & K)]].
    + congruence.
    + congruence.
    + exists c, p. split; [reflexivity|congruence].
  - intros (c & p & -> & H). now rewrite event_new_framed.
Qed.

Lemma accepted_framed pkt ev : event_new F V pkt = Ok ev ->
  exists code n rest, pkt = code :: n :: rest /\ length rest = N.to_nat n.
Proof.
  intros H. apply event_new_ok in H. destruct H as (code & p & -> & _).
  exists code, (N.of_nat (length p)), p. split; [reflexivity|]. now rewrite Nat2N.id.
Qed.

Lemma framed_bytes code p : bytes (framed code p) -> bytes p.
Proof. unfold framed. intros H. bytes_inv. assumption. Qed.

(** A byte packet has a payload of at most 255 bytes. *)
Lemma framed_payload_length code p : bytes (framed code p) -> (length p <= 255)%nat.
Proof.
  unfold framed. intros H. bytes_inv. unfold byte in *. lia.
Qed.

(** ** Dispatch *)
Lemma wrap_ok {A} (m : outcome (event_error (VError V)) A) k (ev : event V) :
  wrap V m k = Ok ev <-> exists a, m = Ok a /\ ev = k a.
Proof.
  unfold wrap. rewrite bind_ok. split; intros (a & H & K); exists a; (split; [exact H|]).
  - now injection K.
  - now rewrite K.
Qed.

Local Notation dispatch := (event_dispatch F V).

Lemma meta_ok p ev : to_le_meta_event F V p = Ok ev ->
  exists c rest, p = c :: rest /\
  match ev with
  | EvLeConnectionComplete e => c = 0x01 /\ to_le_connection_complete F V p = Ok e
  | EvLeAdvertisingReport e => c = 0x02 /\ @to_le_advertising_report (VError V) p = Ok e
  | EvLeConnectionUpdateComplete e => c = 0x03 /\ to_le_connection_update_complete F V p = Ok e
  | EvLeReadRemoteUsedFeaturesComplete e =>
      c = 0x04 /\ to_le_read_remote_used_features_complete F V p = Ok e
  | EvLeLongTermKeyRequest e => c = 0x05 /\ to_le_ltk_request V p = Ok e
  | EvLeDataLengthChangeEvent e => c = 0x07 /\ to_le_data_length_change_event V p = Ok e
  | EvLePhyUpdateComplete e => c = 0x0C /\ to_le_phy_update_complete F V p = Ok e
  | _ => False
  end.
Proof.
  unfold to_le_meta_event. destruct p as [|c rest]; [discriminate|].
  intros H. exists c, rest. split; [reflexivity|].
  cbn [require_len_at_least length Nat.ltb Nat.leb bind idx nth_error] in H.
  unfold require_len_at_least in H. cbn [length Nat.ltb Nat.leb bind] in H.
  repeat match type of H with
  | (if ?b =? ?c then _ else _) = _ =>
      destruct (N.eqb_spec b c) as [->|];
      [apply wrap_ok in H; destruct H as (a & H & ->); split; [reflexivity|exact H]|]
  end.
  discriminate.
Qed.

Lemma dispatch_ok code p ev : dispatch code p = Ok ev ->
  match ev with
  | EvConnectionComplete e => code = 0x03 /\ to_connection_complete F V p = Ok e
  | EvDisconnectionComplete e => code = 0x05 /\ to_disconnection_complete F V p = Ok e
  | EvEncryptionChange e => code = 0x08 /\ to_encryption_change F V p = Ok e
  | EvReadRemoteVersionInformationComplete e => code = 0x0C /\ to_remote_version_info F V p = Ok e
  | EvCommandComplete e => code = 0x0E /\ command_complete_new F V p = Ok e
  | EvCommandStatus e => code = 0x0F /\ to_command_status F V p = Ok e
  | EvHardwareError e => code = 0x10 /\ to_hardware_error V p = Ok e
  | EvNumberOfCompletedPackets e => code = 0x13 /\ to_number_of_completed_packets V p = Ok e
  | EvDataBufferOverflow e => code = 0x1A /\ to_data_buffer_overflow V p = Ok e
  | EvEncryptionKeyRefreshComplete e =>
      code = 0x30 /\ to_encryption_key_refresh_complete F V p = Ok e
  | EvVendor e => code = 0xFF /\ vevent_new V p = Ok e
  | _ => code = 0x3E /\ to_le_meta_event F V p = Ok ev
  end.
Proof.
  unfold event_dispatch. intros H.
  repeat match type of H with
  | (if ?b =? ?c then _ else _) = _ =>
      destruct (N.eqb_spec b c) as [->|];
      [first [ apply wrap_ok in H; destruct H as (a & H & ->); split; [reflexivity|exact H]
             | idtac ]|]
  end.
  - assert (K := meta_ok _ _ H). destruct K as (c & rest & _ & K).
    destruct ev; try (destruct K; fail); split; try reflexivity; exact H.
  - discriminate.
Qed.

(** A subevent is an LE meta event whose payload starts with its code. *)
Lemma meta_event_ok p sub A (decode : list N -> outcome (event_error (VError V)) A) mk rest :
  p = sub :: rest ->
  to_le_meta_event F V (sub :: rest) = wrap V (decode (sub :: rest)) mk ->
  dispatch 0x3E p = wrap V (decode p) mk.
Proof. intros -> H. exact H. Qed.

Lemma meta_cons sub rest :
  to_le_meta_event F V (sub :: rest) =
  if sub =? 0x01 then wrap V (to_le_connection_complete F V (sub :: rest)) EvLeConnectionComplete else
  if sub =? 0x02 then wrap V (to_le_advertising_report (sub :: rest)) EvLeAdvertisingReport else
  if sub =? 0x03 then wrap V (to_le_connection_update_complete F V (sub :: rest)) EvLeConnectionUpdateComplete else
  if sub =? 0x04 then
    wrap V (to_le_read_remote_used_features_complete F V (sub :: rest)) EvLeReadRemoteUsedFeaturesComplete else
  if sub =? 0x05 then wrap V (to_le_ltk_request V (sub :: rest)) EvLeLongTermKeyRequest else
  if sub =? 0x07 then wrap V (to_le_data_length_change_event V (sub :: rest)) EvLeDataLengthChangeEvent else
  if sub =? 0x0C then wrap V (to_le_phy_update_complete F V (sub :: rest)) EvLePhyUpdateComplete else
  Err (EUnknownEvent sub).
Proof. reflexivity. Qed.

(** Shape of the property "this event is decoded iff the payload has this
    layout", for ordinary events and for subevents. *)
Lemma event_iff pkt code A (decode : list N -> outcome (event_error (VError V)) A)
    (mk : A -> event V) (layout : list N -> Prop) a :
  (forall p, dispatch code p = wrap V (decode p) mk) ->
  (forall c p, dispatch c p = Ok (mk a) -> c = code) ->
  (forall x y, mk x = mk y -> x = y) ->
  (forall p, bytes p -> (decode p = Ok a <-> layout p)) ->
  bytes pkt ->
  (event_new F V pkt = Ok (mk a) <-> exists p, layout p /\ pkt = framed code p).
Proof.
  intros Hd Hc Hinj Hl Hb. rewrite event_new_ok. split.
  - intros (c & p & -> & H). assert (c = code) by eauto. subst c.
    rewrite Hd in H. apply wrap_ok in H. destruct H as (a' & H & K). apply Hinj in K. subst a'.
    exists p. split; [|reflexivity]. apply Hl; [|exact H]. eapply framed_bytes; eassumption.
  - intros (p & Hp & ->). exists code, p. split; [reflexivity|].
    rewrite Hd. apply wrap_ok. exists a. split; [|reflexivity].
    apply Hl; [|exact Hp]. eapply framed_bytes; eassumption.
Qed.

Lemma meta_iff pkt sub A (decode : list N -> outcome (event_error (VError V)) A)
    (mk : A -> event V) (layout : list N -> Prop) a :
  (forall rest, to_le_meta_event F V (sub :: rest) = wrap V (decode (sub :: rest)) mk) ->
  (forall c p, dispatch c p = Ok (mk a) -> c = 0x3E /\ exists rest, p = sub :: rest) ->
  (forall x y, mk x = mk y -> x = y) ->
  (forall rest, bytes rest -> (decode (sub :: rest) = Ok a <-> layout rest)) ->
  bytes pkt ->
  (event_new F V pkt = Ok (mk a) <->
   exists rest, layout rest /\ pkt = framed 0x3E (sub :: rest)).
Proof.
  intros Hd Hc Hinj Hl Hb. rewrite event_new_ok. split.
  - intros (c & p & -> & H). destruct (Hc _ _ H) as (-> & rest & ->).
    change (dispatch 0x3E (sub :: rest)) with (to_le_meta_event F V (sub :: rest)) in H.
    rewrite Hd in H. apply wrap_ok in H. destruct H as (a' & H & K). apply Hinj in K. subst a'.
    exists rest. split; [|reflexivity]. apply Hl; [|exact H].
    apply framed_bytes in Hb. bytes_inv. assumption.
  - intros (rest & Hp & ->). exists 0x3E, (sub :: rest). split; [reflexivity|].
    change (dispatch 0x3E (sub :: rest)) with (to_le_meta_event F V (sub :: rest)).
    rewrite Hd. apply wrap_ok. exists a. split; [|reflexivity].
    apply Hl; [|exact Hp]. apply framed_bytes in Hb. bytes_inv. assumption.
Qed.

Ltac by_dispatch :=
  let c := fresh "c" in let p := fresh "p" in let H := fresh "H" in
  intros c p H; apply dispatch_ok in H; cbn beta iota in H; exact (proj1 H).
Ltac by_meta :=
  let c := fresh "c" in let p := fresh "p" in let H := fresh "H" in
  intros c p H; apply dispatch_ok in H; cbn beta iota in H; destruct H as [-> H];
  apply meta_ok in H; destruct H as (? & ? & -> & -> & _); eauto.

(** ** Payload layouts *)

Lemma connection_complete_layout p s h a lt en : bytes p ->
  (to_connection_complete F V p = Ok (Build_connection_complete s h a lt en) <->
   exists sb, status_byte F V sb s /\ u16 h /\ length a = 6%nat
     /\ p = [sb] ++ le 2 h ++ a ++ [link_type_code lt; flag en]).
Proof.
  intros Hb. unfold to_connection_complete. split.
  - forward 11%nat. eexists. split; [eassumption|]. split; [now apply u16_of_bytes|].
    split; [reflexivity|]. finish.
  - intros (sb & Hs & Hh & Ha & ->). destruct_len Ha. rewrite le_2. reads.
    use_status. rewrite read_le_2 by assumption. reflexivity.
Qed.

Lemma disconnection_complete_layout p s h r : bytes p ->
  (to_disconnection_complete F V p = Ok (Build_disconnection_complete s h r) <->
   exists sb rb, status_byte F V sb s /\ u16 h /\ status_byte F V rb r
     /\ p = [sb] ++ le 2 h ++ [rb]).
Proof.
  intros Hb. unfold to_disconnection_complete. split.
  - forward 4%nat. eexists _, _. split; [eassumption|]. split; [now apply u16_of_bytes|].
    split; [eassumption|]. finish.
  - intros (sb & rb & Hs & Hh & Hr & ->). rewrite le_2. reads.
    use_status. rewrite read_le_2 by assumption. reflexivity.
Qed.

Lemma encryption_change_layout p s h e : bytes p ->
  (to_encryption_change F V p = Ok (Build_encryption_change s h e) <->
   exists sb, status_byte F V sb s /\ u16 h /\ p = [sb] ++ le 2 h ++ [encryption_code e]).
Proof.
  intros Hb. unfold to_encryption_change. split.
  - forward 4%nat. eexists. split; [eassumption|]. split; [now apply u16_of_bytes|]. finish.
  - intros (sb & Hs & Hh & ->). rewrite le_2. reads.
    use_status. rewrite read_le_2 by assumption. reflexivity.
Qed.

Lemma remote_version_layout p s h v m sv : bytes p ->
  (to_remote_version_info F V p = Ok (Build_remote_version_information s h v m sv) <->
   exists sb, status_byte F V sb s /\ u16 h /\ u16 m /\ u16 sv
     /\ p = [sb] ++ le 2 h ++ [v] ++ le 2 m ++ le 2 sv).
Proof.
  intros Hb. unfold to_remote_version_info. split.
  - forward 8%nat. eexists. split; [eassumption|].
    do 3 (split; [now apply u16_of_bytes|]). finish.
  - intros (sb & Hs & Hh & Hm & Hv & ->). rewrite !le_2. reads.
    use_status. rewrite !read_le_2 by assumption. reflexivity.
Qed.

Lemma command_status_layout p s n o : bytes p ->
  (to_command_status F V p = Ok (Build_command_status s n o) <->
   exists sb, status_byte F V sb s /\ u16 o /\ p = [sb; n] ++ le 2 o).
Proof.
  intros Hb. unfold to_command_status. split.
  - forward 4%nat. eexists. split; [eassumption|]. split; [now apply u16_of_bytes|]. finish.
  - intros (sb & Hs & Hh & ->). rewrite le_2. reads.
    use_status. rewrite read_le_2 by assumption. reflexivity.
Qed.

Lemma hardware_error_layout p c : bytes p ->
  (to_hardware_error V p = Ok (Build_hardware_error c) <-> p = [c]).
Proof.
  intros Hb. unfold to_hardware_error. split.
  - forward 1%nat. reflexivity.
  - intros ->. reflexivity.
Qed.

Lemma data_buffer_overflow_layout p lt : bytes p ->
  (to_data_buffer_overflow V p = Ok (Build_data_buffer_overflow lt) <-> p = [link_type_code lt]).
Proof.
  intros Hb. unfold to_data_buffer_overflow. split.
  - forward 1%nat. reflexivity.
  - intros ->. reads. use_status. reflexivity.
Qed.

Lemma encryption_key_refresh_layout p s h : bytes p ->
  (to_encryption_key_refresh_complete F V p = Ok (Build_encryption_key_refresh_complete s h) <->
   exists sb, status_byte F V sb s /\ u16 h /\ p = [sb] ++ le 2 h).
Proof.
  intros Hb. unfold to_encryption_key_refresh_complete. split.
  - forward 3%nat. eexists. split; [eassumption|]. split; [now apply u16_of_bytes|]. finish.
  - intros (sb & Hs & Hh & ->). rewrite le_2. reads.
    use_status. rewrite read_le_2 by assumption. reflexivity.
Qed.

(** *** LE meta events: the payload after the subevent code *)
Lemma fci_bytes_length ci iv : fixed_interval_bytes ci iv -> length iv = 6%nat /\ bytes iv.
Proof.
  intros (i & t & _ & _ & _ & ->). rewrite !app_length, !le_length.
  split; [reflexivity|]. rewrite !bytes_app. auto using le_is_bytes.
Qed.

Lemma interval_decoded {VE} sl ci : bytes sl -> length sl = 6%nat ->
  (map_err (@EBadConnectionInterval VE) (fci_from_bytes sl) = Ok ci <-> fixed_interval_bytes ci sl).
Proof.
  intros Hb Hl. rewrite <- fci_from_bytes_ok by assumption.
  destruct (fci_from_bytes sl); cbn; split; intros H; try discriminate; congruence.
Qed.

Lemma le_connection_complete_layout rest s h role peer ci acc : bytes rest ->
  (to_le_connection_complete F V (0x01 :: rest)
     = Ok (Build_le_connection_complete s h role peer ci acc) <->
   exists sb iv, status_byte F V sb s /\ u16 h /\ address_ok peer /\ fixed_interval_bytes ci iv
     /\ rest = [sb] ++ le 2 h ++ [role_code role] ++ address_bytes peer ++ iv
               ++ [clock_accuracy_code acc]).
Proof.
  intros Hb. unfold to_le_connection_complete. split.
  - forward 19%nat.
    match goal with H : bd_addr_type_of _ _ = Ok _ |- _ => rename H into Hpeer end.
    match goal with H : map_err EBadConnectionInterval _ = Ok _ |- _ => rename H into Hci end.
    apply bd_addr_type_ok_iff in Hpeer.
    apply interval_decoded in Hci; [|repeat (constructor; [assumption|]); constructor|reflexivity].
    eexists _, _. split; [eassumption|]. split; [now apply u16_of_bytes|].
    split; [|split; [eassumption|]].
    + unfold address_ok. destruct peer; cbn in Hpeer; injection Hpeer as _ <-; reflexivity.
    + rewrite <- Hpeer. finish.
  - intros (sb & iv & Hs & Hh & Hp & Hi & ->).
    destruct (fci_bytes_length _ _ Hi) as [Hl Hbi].
    apply (interval_decoded (VE := VError V)) in Hi; [|assumption..].
    destruct_len Hl.
    assert (exists t a, address_bytes peer = t :: a /\ length a = 6%nat) as (t & a & Ea & Hla).
    { destruct peer; cbn in *; eauto. }
    rewrite Ea. destruct_len Hla. rewrite le_2. reads. use_status.
    rewrite (proj2 (bd_addr_type_ok_iff _ _ peer) (eq_sym Ea)). cbn [bind].
    rewrite Hi. cbn [bind]. use_status. rewrite read_le_2 by assumption. reflexivity.
Qed.

Lemma le_connection_update_layout rest s h ci : bytes rest ->
  (to_le_connection_update_complete F V (0x03 :: rest)
     = Ok (Build_le_connection_update_complete s h ci) <->
   exists sb iv, status_byte F V sb s /\ u16 h /\ fixed_interval_bytes ci iv
     /\ rest = [sb] ++ le 2 h ++ iv).
Proof.
  intros Hb. unfold to_le_connection_update_complete. split.
  - forward 10%nat.
    match goal with H : map_err EBadConnectionInterval _ = Ok _ |- _ => rename H into Hci end.
    apply interval_decoded in Hci; [|repeat (constructor; [assumption|]); constructor|reflexivity].
    eexists _, _. split; [eassumption|]. split; [now apply u16_of_bytes|].
    split; [eassumption|]. finish.
  - intros (sb & iv & Hs & Hh & Hi & ->).
    destruct (fci_bytes_length _ _ Hi) as [Hl Hbi].
    apply (interval_decoded (VE := VError V)) in Hi; [|assumption..].
    destruct_len Hl. rewrite le_2. reads. use_status.
    rewrite Hi. cbn [bind]. rewrite read_le_2 by assumption. reflexivity.
Qed.

Lemma le_used_features_layout rest s h fe : bytes rest ->
  (to_le_read_remote_used_features_complete F V (0x04 :: rest)
     = Ok (Build_le_read_remote_used_features_complete s h fe) <->
   exists sb, status_byte F V sb s /\ u16 h /\ u64 fe
     /\ only_defined (le_feature_defined F) (N.testbit fe)
     /\ rest = [sb] ++ le 2 h ++ le 8 fe).
Proof.
  intros Hb. unfold to_le_read_remote_used_features_complete. split.
  - forward 12%nat.
    match type of HH with context [bf_from_bits F LinkLayerFeature ?v] =>
      destruct (bf_from_bits_spec F LinkLayerFeature (le_feature_defined F) v (le_feature_bits F))
        as [[E D]|[E D]]; rewrite E in HH; [|discriminate HH] end.
    injection HH as <- <- <-.
    eexists. split; [eassumption|]. split; [now apply u16_of_bytes|].
    split; [now apply u64_of_bytes|]. split; [exact D|]. finish.
  - intros (sb & Hs & Hh & Hf & D & ->). rewrite le_2, le_8. reads. use_status.
    rewrite read_le_8, read_le_2 by assumption.
    destruct (bf_from_bits_spec F LinkLayerFeature (le_feature_defined F) fe (le_feature_bits F))
      as [[E _]|[_ E]]; [rewrite E; reflexivity|contradiction].
Qed.

Lemma le_ltk_request_layout rest h r d : bytes rest ->
  (to_le_ltk_request V (0x05 :: rest) = Ok (Build_le_long_term_key_request h r d) <->
   u16 h /\ u64 r /\ u16 d /\ rest = le 2 h ++ le 8 r ++ le 2 d).
Proof.
  intros Hb. unfold to_le_ltk_request. split.
  - forward 13%nat. split; [now apply u16_of_bytes|]. split; [now apply u64_of_bytes|].
    split; [now apply u16_of_bytes|]. finish.
  - intros (Hh & Hr & Hd & ->). rewrite !le_2, le_8. reads.
    rewrite read_le_8, !read_le_2 by assumption. reflexivity.
Qed.

Lemma le_data_length_change_layout rest h a b c d : bytes rest ->
  (to_le_data_length_change_event V (0x07 :: rest)
     = Ok (Build_le_data_length_change_event h a b c d) <->
   u16 h /\ u16 a /\ u16 b /\ u16 c /\ u16 d
   /\ rest = le 2 h ++ le 2 a ++ le 2 b ++ le 2 c ++ le 2 d).
Proof.
  intros Hb. unfold to_le_data_length_change_event. split.
  - forward 11%nat. do 5 (split; [now apply u16_of_bytes|]). finish.
  - intros (H0 & H1 & H2 & H3 & H4 & ->). rewrite !le_2. reads.
    rewrite !read_le_2 by assumption. reflexivity.
Qed.

Lemma le_phy_update_layout rest s h tx rx : bytes rest ->
  (to_le_phy_update_complete F V (0x0C :: rest) = Ok (Build_le_phy_update_complete s h tx rx) <->
   exists sb, status_byte F V sb s /\ u16 h
     /\ rest = [sb] ++ le 2 h ++ [phy_code tx; phy_code rx]).
Proof.
  intros Hb. unfold to_le_phy_update_complete. split.
  - forward 6%nat. eexists. split; [eassumption|]. split; [now apply u16_of_bytes|]. finish.
  - intros (sb & Hs & Hh & ->). rewrite le_2. reads. use_status.
    rewrite read_le_2 by assumption. reflexivity.
Qed.

(** ** Packet layouts *)
Ltac same_packet :=
  unfold framed; cbn [app]; rewrite ?app_length; cbn [length]; rewrite ?app_length, ?le_length;
  cbn [length]; rewrite ?app_length, ?le_length; cbn [length];
  repeat match goal with H : length ?a = _ |- context [length ?a] => rewrite H end;
  reflexivity.

Ltac packet_iff code decode mk L :=
  etransitivity;
  [ eapply (event_iff _ code _ decode mk);
    [reflexivity|by_dispatch|now intros ? ? HH; injection HH as ->|intros; now apply L|assumption]
  | cbn beta ].
Ltac meta_packet_iff code decode mk L :=
  etransitivity;
  [ eapply (meta_iff _ code _ decode mk);
    [reflexivity|by_meta|now intros ? ? HH; injection HH as ->|intros; now apply L|assumption]
  | cbn beta ].

Lemma connection_complete_packet pkt s h a lt en : bytes pkt ->
  (event_new F V pkt = Ok (EvConnectionComplete (Build_connection_complete s h a lt en)) <->
   exists sb, status_byte F V sb s /\ u16 h /\ length a = 6%nat
     /\ pkt = [0x03; 11; sb] ++ le 2 h ++ a ++ [link_type_code lt; flag en]).
Proof.
  intros Hb. packet_iff 0x03 (to_connection_complete F V) (@EvConnectionComplete V) connection_complete_layout. split.
  - intros (p & (sb & Hs & Hh & Ha & ->) & ->). exists sb. repeat (split; [assumption|]). same_packet.
  - intros (sb & Hs & Hh & Ha & ->). eexists. split; [exists sb; eauto|]. same_packet.
Qed.

Lemma disconnection_complete_packet pkt s h r : bytes pkt ->
  (event_new F V pkt = Ok (EvDisconnectionComplete (Build_disconnection_complete s h r)) <->
   exists sb rb, status_byte F V sb s /\ u16 h /\ status_byte F V rb r
     /\ pkt = [0x05; 4; sb] ++ le 2 h ++ [rb]).
Proof.
  intros Hb. packet_iff 0x05 (to_disconnection_complete F V) (@EvDisconnectionComplete V) disconnection_complete_layout. split.
  - intros (p & (sb & rb & Hs & Hh & Hr & ->) & ->). exists sb, rb. auto.
  - intros (sb & rb & Hs & Hh & Hr & ->). eexists. split; [exists sb, rb; eauto|]. same_packet.
Qed.

Lemma encryption_change_packet pkt s h e : bytes pkt ->
  (event_new F V pkt = Ok (EvEncryptionChange (Build_encryption_change s h e)) <->
   exists sb, status_byte F V sb s /\ u16 h
     /\ pkt = [0x08; 4; sb] ++ le 2 h ++ [encryption_code e]).
Proof.
  intros Hb. packet_iff 0x08 (to_encryption_change F V) (@EvEncryptionChange V) encryption_change_layout. split.
  - intros (p & (sb & Hs & Hh & ->) & ->). exists sb. auto.
  - intros (sb & Hs & Hh & ->). eexists. split; [exists sb; eauto|]. same_packet.
Qed.

Lemma remote_version_packet pkt s h v m sv : bytes pkt ->
  (event_new F V pkt
     = Ok (EvReadRemoteVersionInformationComplete (Build_remote_version_information s h v m sv)) <->
   exists sb, status_byte F V sb s /\ u16 h /\ u16 m /\ u16 sv
     /\ pkt = [0x0C; 8; sb] ++ le 2 h ++ [v] ++ le 2 m ++ le 2 sv).
Proof.
  intros Hb. packet_iff 0x0C (to_remote_version_info F V) (@EvReadRemoteVersionInformationComplete V) remote_version_layout. split.
  - intros (p & (sb & Hs & Hh & Hm & Hv & ->) & ->). exists sb. auto.
  - intros (sb & Hs & Hh & Hm & Hv & ->). eexists. split; [exists sb; eauto|]. same_packet.
Qed.

Lemma command_status_packet pkt s n o : bytes pkt ->
  (event_new F V pkt = Ok (EvCommandStatus (Build_command_status s n o)) <->
   exists sb, status_byte F V sb s /\ u16 o /\ pkt = [0x0F; 4; sb; n] ++ le 2 o).
Proof.
  intros Hb. packet_iff 0x0F (to_command_status F V) (@EvCommandStatus V) command_status_layout. split.
  - intros (p & (sb & Hs & Hh & ->) & ->). exists sb. auto.
  - intros (sb & Hs & Hh & ->). eexists. split; [exists sb; eauto|]. same_packet.
Qed.

Lemma hardware_error_packet pkt c : bytes pkt ->
  (event_new F V pkt = Ok (EvHardwareError (Build_hardware_error c)) <-> pkt = [0x10; 1; c]).
Proof.
  intros Hb. packet_iff 0x10 (to_hardware_error V) (@EvHardwareError V) hardware_error_layout. split.
  - intros (p & -> & ->). reflexivity.
  - intros ->. eexists. split; reflexivity.
Qed.

Lemma data_buffer_overflow_packet pkt lt : bytes pkt ->
  (event_new F V pkt = Ok (EvDataBufferOverflow (Build_data_buffer_overflow lt)) <->
   pkt = [0x1A; 1; link_type_code lt]).
Proof.
  intros Hb. packet_iff 0x1A (to_data_buffer_overflow V) (@EvDataBufferOverflow V) data_buffer_overflow_layout. split.
  - intros (p & -> & ->). reflexivity.
  - intros ->. eexists. split; reflexivity.
Qed.

Lemma encryption_key_refresh_packet pkt s h : bytes pkt ->
  (event_new F V pkt
     = Ok (EvEncryptionKeyRefreshComplete (Build_encryption_key_refresh_complete s h)) <->
   exists sb, status_byte F V sb s /\ u16 h /\ pkt = [0x30; 3; sb] ++ le 2 h).
Proof.
  intros Hb. packet_iff 0x30 (to_encryption_key_refresh_complete F V) (@EvEncryptionKeyRefreshComplete V) encryption_key_refresh_layout. split.
  - intros (p & (sb & Hs & Hh & ->) & ->). exists sb. auto.
  - intros (sb & Hs & Hh & ->). eexists. split; [exists sb; eauto|]. same_packet.
Qed.

Lemma le_connection_complete_packet pkt s h role peer ci acc : bytes pkt ->
  (event_new F V pkt
     = Ok (EvLeConnectionComplete (Build_le_connection_complete s h role peer ci acc)) <->
   exists sb iv, status_byte F V sb s /\ u16 h /\ address_ok peer /\ fixed_interval_bytes ci iv
     /\ pkt = [0x3E; 19; 0x01; sb] ++ le 2 h ++ [role_code role] ++ address_bytes peer ++ iv
               ++ [clock_accuracy_code acc]).
Proof.
  assert (La : forall a, address_ok a -> length (address_bytes a) = 7%nat)
    by (intros []; cbn; intros ->; reflexivity).
  intros Hb. meta_packet_iff 0x01 (to_le_connection_complete F V) (@EvLeConnectionComplete V) le_connection_complete_layout. split.
  - intros (p & (sb & iv & Hs & Hh & Hp & Hi & ->) & ->). exists sb, iv.
    repeat (split; [assumption|]).
    assert (L1 := La _ Hp). destruct (fci_bytes_length _ _ Hi) as [L2 _]. same_packet.
  - intros (sb & iv & Hs & Hh & Hp & Hi & ->). eexists. split; [exists sb, iv; eauto|].
    assert (L1 := La _ Hp). destruct (fci_bytes_length _ _ Hi) as [L2 _]. same_packet.
Qed.

Lemma le_connection_update_packet pkt s h ci : bytes pkt ->
  (event_new F V pkt
     = Ok (EvLeConnectionUpdateComplete (Build_le_connection_update_complete s h ci)) <->
   exists sb iv, status_byte F V sb s /\ u16 h /\ fixed_interval_bytes ci iv
     /\ pkt = [0x3E; 10; 0x03; sb] ++ le 2 h ++ iv).
Proof.
  intros Hb. meta_packet_iff 0x03 (to_le_connection_update_complete F V) (@EvLeConnectionUpdateComplete V) le_connection_update_layout. split.
  - intros (p & (sb & iv & Hs & Hh & Hi & ->) & ->). exists sb, iv.
    repeat (split; [assumption|]). destruct (fci_bytes_length _ _ Hi) as [L2 _]. same_packet.
  - intros (sb & iv & Hs & Hh & Hi & ->). eexists. split; [exists sb, iv; eauto|].
    destruct (fci_bytes_length _ _ Hi) as [L2 _]. same_packet.
Qed.

Lemma le_used_features_packet pkt s h fe : bytes pkt ->
  (event_new F V pkt
     = Ok (EvLeReadRemoteUsedFeaturesComplete (Build_le_read_remote_used_features_complete s h fe)) <->
   exists sb, status_byte F V sb s /\ u16 h /\ u64 fe
     /\ only_defined (le_feature_defined F) (N.testbit fe)
     /\ pkt = [0x3E; 12; 0x04; sb] ++ le 2 h ++ le 8 fe).
Proof.
  intros Hb. meta_packet_iff 0x04 (to_le_read_remote_used_features_complete F V) (@EvLeReadRemoteUsedFeaturesComplete V) le_used_features_layout. split.
  - intros (p & (sb & Hs & Hh & Hf & D & ->) & ->). exists sb. auto 6.
  - intros (sb & Hs & Hh & Hf & D & ->). eexists. split; [exists sb; eauto 6|]. same_packet.
Qed.

Lemma le_ltk_request_packet pkt h r d : bytes pkt ->
  (event_new F V pkt = Ok (EvLeLongTermKeyRequest (Build_le_long_term_key_request h r d)) <->
   u16 h /\ u64 r /\ u16 d /\ pkt = [0x3E; 13; 0x05] ++ le 2 h ++ le 8 r ++ le 2 d).
Proof.
  intros Hb. meta_packet_iff 0x05 (to_le_ltk_request V) (@EvLeLongTermKeyRequest V) le_ltk_request_layout. split.
  - intros (p & (Hh & Hr & Hd & ->) & ->). auto.
  - intros (Hh & Hr & Hd & ->). eexists. split; [eauto|]. same_packet.
Qed.

Lemma le_data_length_change_packet pkt h a b c d : bytes pkt ->
  (event_new F V pkt
     = Ok (EvLeDataLengthChangeEvent (Build_le_data_length_change_event h a b c d)) <->
   u16 h /\ u16 a /\ u16 b /\ u16 c /\ u16 d
   /\ pkt = [0x3E; 11; 0x07] ++ le 2 h ++ le 2 a ++ le 2 b ++ le 2 c ++ le 2 d).
Proof.
  intros Hb. meta_packet_iff 0x07 (to_le_data_length_change_event V) (@EvLeDataLengthChangeEvent V) le_data_length_change_layout. split.
  - intros (p & (H1 & H2 & H3 & H4 & H5 & ->) & ->). auto 6.
  - intros (H1 & H2 & H3 & H4 & H5 & ->). eexists. split; [eauto 6|]. same_packet.
Qed.

Lemma le_phy_update_packet pkt s h tx rx : bytes pkt ->
  (event_new F V pkt = Ok (EvLePhyUpdateComplete (Build_le_phy_update_complete s h tx rx)) <->
   exists sb, status_byte F V sb s /\ u16 h
     /\ pkt = [0x3E; 6; 0x0C; sb] ++ le 2 h ++ [phy_code tx; phy_code rx]).
Proof.
  intros Hb. meta_packet_iff 0x0C (to_le_phy_update_complete F V) (@EvLePhyUpdateComplete V) le_phy_update_layout. split.
  - intros (p & (sb & Hs & Hh & ->) & ->). exists sb. auto.
  - intros (sb & Hs & Hh & ->). eexists. split; [exists sb; eauto|]. same_packet.
Qed.

End Framing.
