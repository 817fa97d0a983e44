(** * What log texts say of packets and errors. *)
From Verif Require Import Base Model_Types Model_Bitflags Model_FlagNames Model_Intervals Model_EventBase
  Model_Command Model_Event Model_Host Model_Debug Model_Log Spec_Wire Spec_Flags Spec_Debug Spec_Log Spec_Numerals Spec_FlagNames Spec_Names
  Proofs_Base Proofs_Bits Proofs_Event Proofs_Command Proofs_Report Proofs_FlagNames Proofs_Debug Proofs_Numerals Proofs_NamesText.
From Coq Require Import String Ascii.
Open Scope list_scope.
Open Scope N_scope.
Open Scope string_scope.

Section Vendor.
Context (F : features) {V : vendor} (D : vendor_debug V).
Local Notation show := (debug_status (show_status D)).
Local Notation says := (@says F V D).

(** ** Fields *)
Lemma status_names_are G : map show (@assigned_statuses (VStatus V) G) = status_names G.
Proof. destruct G as [? []]; reflexivity. Qed.
Lemma status_says sb s : status_byte F V sb s -> says IsStatus [sb] (show s).
Proof.
  intros H. split; [reflexivity|]. exists sb. split; [reflexivity|]. unfold status_text, status_byte in *.
  rewrite <- status_names_are, nth_error_map. destruct (nth_error (assigned_statuses F) (N.to_nat sb)) as [s'|].
  - cbn. now subst.
  - destruct H as (v & H & ->). cbn. exists v. split; [exact H|]. now apply (called_one "Vendor").
Qed.
Lemma status_named sb s : status_byte F V sb s -> status_text F D sb (show s).
Proof. intros H. destruct (status_says sb s H) as (_ & code & K & T). now injection K as ->. Qed.
Lemma number_says n v : v < 256 ^ N.of_nat n -> says (IsNumber n) (le n v) (debug_uint v).
Proof.
  intros H. split; [unfold le; now rewrite List.map_length, seq_length|]. exists v. repeat split; try assumption; apply uint_numeral.
Qed.
Lemma byte_says v : byte v -> says (IsNumber 1) [v] (debug_uint v).
Proof.
  intros H. assert (E : [v] = le 1 v).
  { unfold le. cbn. f_equal. unfold byte in H. rewrite N.div_1_r. symmetry. now apply N.mod_small. }
  rewrite E. apply number_says. exact H.
Qed.
Lemma handle_says v : u16 v -> says IsHandle (le 2 v) (debug_conn_handle v).
Proof.
  intros H. split; [reflexivity|]. exists v. split; [exact H|]. split; [reflexivity|]. apply called_tuple, uint_numeral.
Qed.
Lemma opcode_says v : u16 v -> says IsOpcode (le 2 v) (debug_opcode v).
Proof.
  intros H. split; [reflexivity|]. exists v. split; [exact H|]. split; [reflexivity|]. apply called_tuple, uint_numeral.
Qed.
Lemma signed_says z : is_i8 z -> says IsSigned [signed z] (debug_int z).
Proof. intros H. split; [reflexivity|]. exists z. split; [exact H|]. split; [reflexivity|]. apply int_numeral. Qed.
Lemma address_says a : List.length a = 6%nat -> says IsAddress a (debug_bd_addr a).
Proof. intros H. split; [exact H|]. apply address_called. Qed.
Lemma typed_address_says a : address_ok a -> says IsTypedAddress (address_bytes a) (debug_bd_addr_type a).
Proof.
  intros H. destruct a as [a|a]; cbn [address_ok address_bytes] in *; (split; [cbn; now rewrite H|]); exists a.
  - left. split; [reflexivity|]. exact (called_tuple "Public" _ _ (address_called a)).
  - right. split; [reflexivity|]. exact (called_tuple "Random" _ _ (address_called a)).
Qed.
Lemma interval_says ci iv : fixed_interval_bytes ci iv -> says IsInterval iv (debug_fixed_conn_interval ci).
Proof.
  intros (i & t & L & Hi & Ht & ->). unfold legal_parameters in L. split; [reflexivity|]. exists i, (fci_latency ci), t.
  repeat (split; [lia|]). split; [reflexivity|]. apply written_struct. rewrite Hi, Ht.
  repeat constructor; cbn [snd]; try apply duration_time; apply uint_numeral.
Qed.
Lemma one_of_says words code t : In (code, t) words -> says (IsOneOf words) [code] t.
Proof. intros H. split; [reflexivity|]. exists code. split; [reflexivity|exact H]. Qed.
Lemma flags_says names decl l x v : named F names decl = l -> u64 v ->
  Forall (fun p => N.testbit x (fst p) = N.testbit v (fst p)) l -> says (IsFlags l) (le 8 v) (debug_bitflags F names decl x).
Proof.
  intros E U H. split; [reflexivity|]. exists v. split; [exact U|]. split; [reflexivity|]. exact (flags_named F names decl l x v E H).
Qed.
Lemma same_bits (l : list (N * string)) v : Forall (fun p => N.testbit v (fst p) = N.testbit v (fst p)) l.
Proof. induction l; now constructor. Qed.
Lemma masked_bits (l : list (N * string)) (defined : N -> bool) x v :
  (forall i, N.testbit x i = (N.testbit v i && defined i)%bool) -> forallb (fun p => defined (fst p)) l = true ->
  Forall (fun p => N.testbit x (fst p) = N.testbit v (fst p)) l.
Proof.
  intros H K. rewrite forallb_forall in K. apply Forall_forall. intros p Hp. rewrite H, (K p Hp). apply andb_true_r.
Qed.
Lemma channels_says m : List.length m = 5%nat ->
  says IsChannels m (debug_tuple "ChannelClassification" [debug_list debug_uint m]).
Proof. intros H. split; [exact H|]. apply called_tuple, listed_decimal. Qed.
Lemma commands_says {E} l t : List.length l = 64%nat -> @debug_command_flags E l = Ok t -> says IsCommands l t.
Proof.
  intros H K. split; [exact H|]. unfold debug_command_flags, slice in K. rewrite H in K. cbn [Nat.leb andb bind Nat.sub] in K.
  injection K as <-. exists (debug_list debug_uint (firstn 16 l)), (debug_list debug_uint (firstn 16 (skipn 16 l))), (debug_list debug_uint (firstn 7 (skipn 32 l))).
  repeat (split; [apply listed_decimal|]). reflexivity.
Qed.
Lemma block_says l : List.length l = 16%nat -> bytes l -> says IsBlock l (debug_encrypted_block l).
Proof.
  intros H K. split; [exact H|]. exists (debug_list debug_hex l). split; [now apply listed_hex|reflexivity].
Qed.
Lemma data_says l : says (IsData (List.length l)) l (debug_list debug_uint l).
Proof. split; [reflexivity|]. apply listed_decimal. Qed.
Lemma rssi_says r : match r with Some z => is_i8 z /\ z <> 127%Z | None => True end -> says IsRssi [rssi_byte r] (debug_rssi r).
Proof.
  intros H. split; [reflexivity|]. destruct r as [z|].
  - right. exists z. destruct H as [H K]. repeat split; try assumption; [apply H..|]. exact (called_tuple "Some" _ _ (int_numeral z)).
  - now left.
Qed.

(** ** Events *)
Lemma fields_say name (l : fields) p gs :
  Forall2 (fun f g => fst (fst f) = fst g /\ at_place F D p (snd (fst f)) (snd f) (snd g)) l gs ->
  fields_of F D name l p (debug_struct name gs).
Proof.
  intros H. apply written_struct. induction H as [|f g l gs [H1 H2] _ IH]; cbn [map]; constructor; [|exact IH].
  split; [exact H1|exact H2].
Qed.
Lemma prints_some {E} f (t t' : string) : (forall n, f n = Some (@Ok E _ t')) -> prints f t -> t = t'.
Proof. intros H [n K]. specialize (K n (le_n _)). rewrite H in K. now injection K as ->. Qed.
Lemma length6 (a : list N) : List.length a = 6%nat -> exists a0 a1 a2 a3 a4 a5, a = [a0; a1; a2; a3; a4; a5].
Proof. intros H. do 7 (destruct a as [|? a]; try discriminate). now repeat eexists. Qed.
Local Ltac places := apply fields_say; repeat (apply Forall2_cons); [..|apply Forall2_nil];
  cbn [fst snd]; (split; [reflexivity|]); unfold at_place; cbn [width].

(** Entries of lists. *)
Lemma shown_joined {A} (show : A -> string) l : shown show l = joined "" (map show l) ++ "}".
Proof.
  induction l as [|a l IH]; [reflexivity|]. cbn [shown fold_right map]. fold (shown show l). rewrite IH.
  destruct l as [|b l]; [reflexivity|]. cbn [map joined append]. fold (joined "" (map show (b :: l))). now rewrite sapp_assoc.
Qed.
Lemma entries_say {A} (entry : list N -> string -> Prop) (put : A -> list N) (show : A -> string) l :
  Forall (fun a => entry (put a) (show a)) l -> entries entry (map put l) ("{" ++ shown show l).
Proof.
  intros H. exists (map show l). split; [|now rewrite shown_joined].
  induction H; cbn [map]; now constructor.
Qed.
Lemma pair_says p : pair_ok p -> fields_of F D "NumberOfCompletedPacketsPair" completed_fields (pair_bytes p) (debug_completed_packets_pair p).
Proof.
  destruct p as [h n]. intros [U U']. unfold debug_completed_packets_pair, pair_bytes in *. cbn [cpp_conn_handle cpp_num_completed_packets] in *.
  assert (K : fields_of F D "NumberOfCompletedPacketsPair" completed_fields (le 2 h ++ le 2 n)
    (debug_struct "NumberOfCompletedPacketsPair" [("conn_handle", debug_conn_handle h); ("num_completed_packets", debug_uint n)])).
  { places; [exact (handle_says h U)|exact (number_says 2 n U')]. }
  exact K || (revert K; unfold debug_struct, debug_conn_handle, debug_tuple; cbn [map concat debug_field fst snd append]; rewrite ?sapp_assoc; exact (fun k => k)).
Qed.
Lemma advertisement_struct x y z w :
  debug_struct "LeAdvertisement" [("event_type", x); ("address", y); ("data", z); ("rssi", w)]
  = "LeAdvertisement { event_type: " ++ x ++ ", address: " ++ y ++ ", data: " ++ z ++ ", rssi: " ++ w ++ " }".
Proof.
  unfold debug_struct, debug_field. cbn [map concat fst snd].
  repeat (progress cbn [append] || rewrite sapp_assoc). reflexivity.
Qed.
Lemma advertisement_says a : advertisement_ok a ->
  fields_of F D "LeAdvertisement" (advertisement_fields (N.to_nat (nth 8 (advertisement_bytes a) 0))) (advertisement_bytes a) (debug_le_advertisement a).
Proof.
  intros [A R]. destruct a as [e p d r]. unfold advertisement_bytes in *. cbn [la_event_type la_address la_data la_rssi] in *.
  assert (L : exists b0 b1 b2 b3 b4 b5 b6, address_bytes p = [b0; b1; b2; b3; b4; b5; b6]).
  { destruct p; apply length6 in A; destruct A as (a0 & a1 & a2 & a3 & a4 & a5 & ->); cbn; now repeat eexists. }
  assert (K := typed_address_says p A). destruct L as (b0 & b1 & b2 & b3 & b4 & b5 & b6 & L). rewrite L in *.
  cbn [app nth]. rewrite Nat2N.id.
  assert (G : fields_of F D "LeAdvertisement" (advertisement_fields (List.length d))
     (advertisement_event_code e :: b0 :: b1 :: b2 :: b3 :: b4 :: b5 :: b6 :: N.of_nat (List.length d) :: d ++ [rssi_byte r])
     (debug_struct "LeAdvertisement" [("event_type", debug_advertisement_event e); ("address", debug_bd_addr_type p);
        ("data", debug_list debug_uint d); ("rssi", debug_rssi r)])).
  { places.
    - destruct e; apply one_of_says; cbn; auto 6.
    - exact K.
    - cbn [skipn]. rewrite firstn_app, Nat.sub_diag, firstn_all. cbn [firstn]. rewrite List.app_nil_r. apply data_says.
    - cbn [Nat.add skipn]. rewrite skipn_app, skipn_all, Nat.sub_diag. cbn [skipn app firstn]. now apply rssi_says. }
  rewrite advertisement_struct in G. exact G.
Qed.

Lemma advertisement_length a : advertisement_ok a ->
  List.length (advertisement_bytes a) = (10 + N.to_nat (nth 8 (advertisement_bytes a) 0%N))%nat.
Proof.
  intros [A _]. destruct a as [e p d r]. unfold advertisement_bytes. cbn [la_event_type la_address la_data la_rssi] in *.
  destruct p; apply length6 in A; destruct A as (a0 & a1 & a2 & a3 & a4 & a5 & ->); cbn [address_bytes app nth List.length];
    rewrite Nat2N.id, app_length; cbn [List.length]; lia.
Qed.

(** Return parameters. *)
Local Ltac find_in := unfold return_fields; repeat (first [left; reflexivity | right]).
Local Ltac at_fields := repeat (apply Forall2_cons); [..|apply Forall2_nil];
  cbn [fst snd]; (split; [reflexivity|]); unfold at_place; cbn [width].
Lemma bytes_tail (a b : list N) : bytes (a ++ b)%list -> bytes b.
Proof. unfold bytes. rewrite Forall_app. tauto. Qed.
Lemma return_says op ret r v : bytes ret -> wire_return F V r op ret -> @return_variant F V D Empty_set r = Ok v ->
  return_text F D op ret (debug_variant v).
Proof.
  intros Hr W E.
  assert (one : forall name s, In (op, (name, status_alone)) (return_fields F) -> status_first F V s ret ->
    return_text F D op ret (debug_variant (name, [show s]))).
  { intros name s I (sb & rest & S & ->). exists name, status_alone. split; [exact I|].
    cbn [status_alone map fst snd]. apply called_one. exact (status_says sb s S). }
  assert (struct : forall name sname l gs, In (op, (name, Fields sname l)) (return_fields F) ->
    Forall2 (fun f g => fst (fst f) = fst g /\ at_place F D ret (snd (fst f)) (snd f) (snd g)) l gs ->
    return_text F D op ret (debug_variant (name, [debug_struct sname gs]))).
  { intros name sname l gs I H. exists name, (Fields sname l). split; [exact I|].
    cbn beta iota. apply called_one. now apply fields_say. }
  destruct r; cbn [wire_return] in W; cbn [return_variant bind] in E; try contradiction;
    try (injection E as <-; destruct W as [-> W]; apply one; [find_in|exact W]; fail).
  - (* spontaneous *) injection E as <-. subst op. exists "Spontaneous", (Values []). split; [find_in|]. apply called_variant. constructor.
  - injection E as <-. destruct W as (-> & U & I & sb & S & ->). destruct p as [s h z]. eapply struct; [find_in|]. at_fields.
    + exact (status_says sb s S).
    + exact (handle_says h U).
    + exact (signed_says z I).
  - injection E as <-. destruct W as (-> & U1 & U2 & U3 & sb & S & ->). destruct p as [s a b c d e]. cbn [lvi_hci_version lvi_hci_revision lvi_lmp_version lvi_manufacturer_name lvi_lmp_subversion lvi_status] in *.
    eapply struct; [find_in|]. at_fields.
    + exact (status_says sb s S).
    + refine (byte_says a _). unfold bytes in Hr. apply Forall_inv_tail, Forall_inv in Hr. exact Hr.
    + exact (number_says 2 b U1).
    + refine (byte_says c _). unfold bytes in Hr. do 4 apply Forall_inv_tail in Hr. now apply Forall_inv in Hr.
    + exact (number_says 2 d U2).
    + exact (number_says 2 e U3).
  - (* commands *) destruct W as (-> & L & _ & (sb & S & ->)). destruct p as [s l]. cbn [lsc_commands lsc_status] in *.
    unfold debug_local_supported_commands in E. destruct (debug_command_flags (lsc_commands _)) as [t| |] eqn:Ht; cbn [bind] in E; try discriminate E.
    injection E as <-. eapply struct; [find_in|]. at_fields; [exact (status_says sb s S)|].
    cbn [skipn]. rewrite <- L, firstn_all. exact (commands_says l t L Ht).
  - injection E as <-. destruct W as (-> & v & U & M & sb & S & ->). destruct p as [s x]. eapply struct; [find_in|]. at_fields.
    + exact (status_says sb s S).
    + refine (flags_says _ _ _ x v (lmp_names F) U (masked_bits _ _ _ _ M _)). vm_compute. reflexivity.
  - injection E as <-. destruct W as (-> & L & sb & S & ->). destruct p as [s a]. cbn [rba_bd_addr rba_status] in *. eapply struct; [find_in|]. at_fields.
    + exact (status_says sb s S).
    + cbn [skipn]. rewrite <- L, firstn_all. exact (address_says a L).
  - injection E as <-. destruct W as (-> & U & I & sb & S & ->). destruct p as [s h z]. eapply struct; [find_in|]. at_fields.
    + exact (status_says sb s S).
    + exact (handle_says h U).
    + exact (signed_says z I).
  - injection E as <-. destruct W as (-> & U & sb & S & ->). destruct p as [s a b]. cbn [lbs_data_packet_length lbs_data_packet_count lbs_status] in *.
    eapply struct; [find_in|]. at_fields.
    + exact (status_says sb s S).
    + exact (number_says 2 a U).
    + refine (byte_says b _). unfold bytes in Hr. do 3 apply Forall_inv_tail in Hr. now apply Forall_inv in Hr.
  - injection E as <-. destruct W as (-> & v & U & M & sb & S & ->). destruct p as [s x]. eapply struct; [find_in|]. at_fields.
    + exact (status_says sb s S).
    + refine (flags_says _ _ _ x v (local_names F) U (masked_bits _ _ _ _ M _)). destruct F as [[] []]; vm_compute; reflexivity.
  - injection E as <-. destruct W as (-> & I & sb & S & ->). destruct p as [s z]. eapply struct; [find_in|]. at_fields.
    + exact (status_says sb s S).
    + exact (signed_says z I).
  - injection E as <-. destruct W as (V5 & -> & W). apply one; [|exact W]. generalize (proj1 (conj V5 I)). intros _. unfold return_fields. rewrite V5. find_in.
  - injection E as <-. destruct W as (V5 & -> & W). apply one; [|exact W]. unfold return_fields. rewrite V5. find_in.
  - injection E as <-. destruct W as (-> & sb & rest & S & ->). exists "LeReadWhiteListSize", (Values [(0%nat, IsStatus); (1%nat, IsNumber 1)]).
    split; [find_in|]. cbn [map fst snd app]. apply called_variant. repeat (apply Forall2_cons); [..|apply Forall2_nil].
    + exact (status_says sb s S).
    + refine (byte_says size _). unfold bytes in Hr. apply Forall_inv_tail, Forall_inv in Hr. exact Hr.
  - injection E as <-. destruct W as (-> & U & L & _ & sb & S & ->). destruct p as [s h m]. cbn [cmp_conn_handle cmp_channel_map cmp_status] in *.
    eapply struct; [find_in|]. at_fields.
    + exact (status_says sb s S).
    + exact (handle_says h U).
    + cbn [skipn le map seq app]. rewrite <- L, firstn_all. exact (channels_says m L).
  - injection E as <-. destruct W as (-> & L & sb & S & ->). destruct p as [s d]. cbn [enc_data enc_status] in *. eapply struct; [find_in|]. at_fields.
    + exact (status_says sb s S).
    + cbn [skipn]. rewrite <- L, firstn_all. exact (block_says d L (bytes_tail [sb] d Hr)).
  - injection E as <-. destruct W as (-> & U & sb & S & ->). destruct p as [s n]. eapply struct; [find_in|]. at_fields.
    + exact (status_says sb s S).
    + exact (number_says 8 n U).
  - injection E as <-. destruct W as (-> & U & sb & S & ->). destruct p as [s h]. eapply struct; [find_in|]. at_fields.
    + exact (status_says sb s S).
    + exact (handle_says h U).
  - injection E as <-. destruct W as (-> & U & sb & S & ->). destruct p as [s h]. eapply struct; [find_in|]. at_fields.
    + exact (status_says sb s S).
    + exact (handle_says h U).
  - injection E as <-. destruct W as (-> & U & _ & sb & S & ->). destruct p as [s x]. eapply struct; [find_in|]. at_fields.
    + exact (status_says sb s S).
    + exact (flags_says _ _ _ x x (le_state_names F) U (same_bits _ x)).
  - injection E as <-. destruct W as (-> & U & sb & S & ->). destruct p as [s n]. eapply struct; [find_in|]. at_fields.
    + exact (status_says sb s S).
    + exact (number_says 2 n U).
Qed.

Lemma event_line pkt e t : bytes pkt -> event_new F V pkt = Ok e ->
  prints (fun fuel => @debug_event F V D Empty_set fuel e) t -> log_line F D pkt t.
Proof.
  intros Hb H P. destruct e as [[s h a lt en]|[s h r]|[s h e]|[s h v m sv]|[n r]|[s n o]|[c]|ev|[lt]|[s h]|[s h role peer ci acc]|ev|[s h ci]|[s h fe]|[h r d]|[h a b c d]|[s h tx rx]|v];
    try (pose proof (prints_some _ _ _ (fun _ => eq_refl) P) as ->; clear P).
  - apply connection_complete_packet in H; [|exact Hb]. destruct H as (sb & S & U & L & ->).
    apply length6 in L. destruct L as (a0 & a1 & a2 & a3 & a4 & a5 & ->).
    eapply (log_event F D 0x03 11); [left; reflexivity|]. apply called_one. places.
    + exact (status_says sb s S).
    + exact (handle_says h U).
    + exact (address_says [a0; a1; a2; a3; a4; a5] eq_refl).
    + destruct lt; apply one_of_says; cbn; auto.
    + destruct en; apply one_of_says; cbn; auto.
  - apply disconnection_complete_packet in H; [|exact Hb]. destruct H as (sb & rb & S & U & R & ->).
    eapply (log_event F D 0x05 4); [right; left; reflexivity|]. apply called_one. places.
    + exact (status_says sb s S).
    + exact (handle_says h U).
    + exact (status_says rb r R).
  - apply encryption_change_packet in H; [|exact Hb]. destruct H as (sb & S & U & ->).
    eapply (log_event F D 0x08 4); [do 2 right; left; reflexivity|]. apply called_one. places.
    + exact (status_says sb s S).
    + exact (handle_says h U).
    + destruct e; apply one_of_says; cbn; auto.
  - apply remote_version_packet in H; [|exact Hb]. destruct H as (sb & S & U & M & SV & ->).
    eapply (log_event F D 0x0C 8); [do 3 right; left; reflexivity|]. apply called_one. places.
    + exact (status_says sb s S).
    + exact (handle_says h U).
    + refine (byte_says v _). unfold bytes in Hb. rewrite !Forall_app in Hb. destruct Hb as (_ & _ & Hv & _).
      now apply Forall_inv in Hv.
    + exact (number_says 2 m M).
    + exact (number_says 2 sv SV).
  - apply command_complete_dispatch_iff in H; [|exact Hb]. destruct H as (op & ret & U & -> & W).
    assert (Hr : bytes ret) by (do 2 apply bytes_tail in Hb; exact Hb).
    assert (Hn : byte n) by (unfold bytes in Hb; do 2 apply Forall_inv_tail in Hb; now apply Forall_inv in Hb).
    destruct P as [k P]. specialize (P k (le_n _)). cbn [debug_event] in P. unfold debug_command_complete in P. cbn [cc_return_params cc_num_hci_command_packets] in P.
    destruct (return_variant F D r) as [v| |] eqn:E; cbn [bind] in P; try discriminate P. injection P as <-.
    destruct W as [W|(x & Hop & Hx & ->)].
    + apply (log_return F D _ n op ret); [exact U|]. apply called_one. apply written_struct. apply Forall2_cons; [|apply Forall2_cons; [|constructor]]; (split; [reflexivity|]); cbn [fst snd].
      * apply uint_numeral.
      * exact (return_says op ret r v Hr W E).
    + apply (log_vendor_return F D _ n op ret x); [exact U|exact Hop|exact Hx|]. apply called_one. apply written_struct. apply Forall2_cons; [|apply Forall2_cons; [|constructor]]; (split; [reflexivity|]); cbn [fst snd].
      * apply uint_numeral.
      * cbn [return_variant] in E. injection E as <-. now apply (called_one "Vendor").
  - apply command_status_packet in H; [|exact Hb]. destruct H as (sb & S & U & ->).
    eapply (log_event F D 0x0F 4); [do 4 right; left; reflexivity|]. apply called_one. places.
    + exact (status_says sb s S).
    + refine (byte_says n _). unfold bytes in Hb. rewrite !Forall_app in Hb. destruct Hb as (Hv & _).
      now do 3 apply Forall_inv_tail in Hv; apply Forall_inv in Hv.
    + exact (opcode_says o U).
  - apply hardware_error_packet in H; [|exact Hb]. subst pkt.
    eapply (log_event F D 0x10 1); [do 5 right; left; reflexivity|]. apply called_one. places.
    refine (byte_says c _). unfold bytes in Hb. now do 2 apply Forall_inv_tail in Hb; apply Forall_inv in Hb.
  - destruct (accepted_pairs_iterate F V pkt ev Hb H) as (l & It & _ & ->).
    destruct (proj1 (completed_packets_packet F V _ l Hb) (ex_intro _ ev (conj H It))) as [Ok _].
    destruct (completed_packets_printed _ _ It) as [k K]. destruct P as [k' P].
    specialize (P (k + k')%nat ltac:(lia)). cbn [debug_event] in P. rewrite (K (k + k')%nat) in P by lia. injection P as <-.
    rewrite <- (map_length pair_bytes l). rewrite flat_map_concat_map.
    apply (log_completed_packets F D); [|reflexivity|].
    + apply Forall_map. apply Forall_forall. reflexivity.
    + apply (called_one "NumberOfCompletedPackets"). apply entries_say. exact (Forall_impl _ pair_says Ok).
  - apply data_buffer_overflow_packet in H; [|exact Hb]. subst pkt.
    eapply (log_event F D 0x1A 1); [do 6 right; left; reflexivity|]. apply called_one. places.
    destruct lt; apply one_of_says; cbn; auto.
  - apply encryption_key_refresh_packet in H; [|exact Hb]. destruct H as (sb & S & U & ->).
    eapply (log_event F D 0x30 3); [do 7 right; left; reflexivity|]. apply called_one. places.
    + exact (status_says sb s S).
    + exact (handle_says h U).
  - apply le_connection_complete_packet in H; [|exact Hb]. destruct H as (sb & iv & S & U & A & I & ->).
    assert (L : exists b0 b1 b2 b3 b4 b5 b6, address_bytes peer = [b0; b1; b2; b3; b4; b5; b6]).
    { destruct peer; apply length6 in A; destruct A as (a0 & a1 & a2 & a3 & a4 & a5 & ->); cbn; now repeat eexists. }
    assert (K := typed_address_says peer A).
    destruct L as (b0 & b1 & b2 & b3 & b4 & b5 & b6 & L). rewrite L in *.
    assert (LI : List.length iv = 6%nat) by (destruct I as (? & ? & _ & _ & _ & ->); reflexivity).
    assert (KI := interval_says ci iv I). apply length6 in LI. destruct LI as (i0 & i1 & i2 & i3 & i4 & i5 & ->).
    eapply (log_le_event F D 0x01 19); [left; reflexivity|]. apply called_one. places.
    + exact (status_says sb s S).
    + exact (handle_says h U).
    + destruct role; apply one_of_says; cbn; auto.
    + exact K.
    + exact KI.
    + destruct acc; apply one_of_says; cbn; auto 10.
  - destruct (accepted_report_iterates F V pkt ev Hb H) as (l & It & _).
    destruct (proj1 (advertising_report_packet F V pkt l Hb) (ex_intro _ ev (conj H It))) as (Ok & count & ->).
    destruct (report_printed _ _ It) as [k K]. destruct P as [k' P].
    specialize (P (k + k')%nat ltac:(lia)). cbn [debug_event] in P. rewrite (K (k + k')%nat) in P by lia. injection P as <-.
    rewrite !flat_map_concat_map. apply (log_advertisements F D).
    + apply Forall_map. apply (Forall_impl _ advertisement_length Ok).
    + apply (called_one "LeAdvertisingReport"). apply entries_say. exact (Forall_impl _ advertisement_says Ok).
  - apply le_connection_update_packet in H; [|exact Hb]. destruct H as (sb & iv & S & U & I & ->).
    assert (LI : List.length iv = 6%nat) by (destruct I as (? & ? & _ & _ & _ & ->); reflexivity).
    assert (KI := interval_says ci iv I). apply length6 in LI. destruct LI as (i0 & i1 & i2 & i3 & i4 & i5 & ->).
    eapply (log_le_event F D 0x03 10); [right; left; reflexivity|]. apply called_one. places.
    + exact (status_says sb s S).
    + exact (handle_says h U).
    + exact KI.
  - apply le_used_features_packet in H; [|exact Hb]. destruct H as (sb & S & U & U8 & _ & ->).
    eapply (log_le_event F D 0x04 12); [do 2 right; left; reflexivity|]. apply called_one. places.
    + exact (status_says sb s S).
    + exact (handle_says h U).
    + exact (flags_says _ _ _ fe fe (remote_names F) U8 (same_bits _ fe)).
  - apply le_ltk_request_packet in H; [|exact Hb]. destruct H as (U & R & U' & ->).
    eapply (log_le_event F D 0x05 13); [do 3 right; left; reflexivity|]. apply called_one. places.
    + exact (handle_says h U).
    + exact (number_says 8 r R).
    + exact (number_says 2 d U').
  - apply le_data_length_change_packet in H; [|exact Hb]. destruct H as (U & U1 & U2 & U3 & U4 & ->).
    eapply (log_le_event F D 0x07 11); [do 4 right; left; reflexivity|]. apply called_one. places.
    + exact (handle_says h U).
    + exact (number_says 2 a U1).
    + exact (number_says 2 b U2).
    + exact (number_says 2 c U3).
    + exact (number_says 2 d U4).
  - apply le_phy_update_packet in H; [|exact Hb]. destruct H as (sb & S & U & ->).
    eapply (log_le_event F D 0x0C 6); [do 5 right; left; reflexivity|]. apply called_one. places.
    + exact (handle_says h U).
    + exact (status_says sb s S).
    + destruct tx; apply one_of_says; cbn; auto.
    + destruct rx; apply one_of_says; cbn; auto.
  - apply event_new_ok in H. destruct H as (code & p & -> & H). apply dispatch_ok in H. cbn beta iota in H. destruct H as [-> H].
    apply (log_vendor_event F D _ p v); [exact H|]. now apply (called_one "Vendor").
Qed.

(** ** Errors *)
Local Ltac pieces := repeat first
  [ apply Forall2_nil | apply Forall2_cons | apply called_variant
  | apply duration_time | apply uint_numeral | apply listed_decimal | apply address_called | reflexivity ].
Lemma conn_interval_error_says e : conn_interval_error_text e (debug_conn_interval_error e).
Proof. destruct e; unfold debug_conn_interval_error; cbn [conn_interval_error_text]; pieces. Qed.
Lemma opcode_called o : called "Opcode" [in_digits 10 o] (debug_opcode o).
Proof. apply called_tuple, uint_numeral. Qed.
Lemma event_error_says e : event_error_text D e (debug_event_error D e).
Proof.
  destruct e; unfold debug_event_error; cbn [event_error_text]; pieces.
  - apply opcode_called.
  - apply conn_interval_error_says.
Qed.
Definition all_features : features := {| version_4_2 := true; version_5_0 := true |}.
Lemma status_value_says s : status_value_text D s (show s).
Proof.
  destruct s; try (now apply (called_one "Vendor")); unfold status_value_text;
    match goal with |- exists i, nth_error ?l i = Some ?s /\ _ =>
      let rec go i m := lazymatch m with
        | s :: _ => exists i; split; reflexivity
        | _ :: ?m => go (S i) m
        end in let m := eval cbv [assigned_statuses app version_5_0 version_4_2] in l in go O m end.
Qed.
Lemma host_error_says {E} (sh : E -> string) e : host_error_text D sh e (debug_host_error F D sh e).
Proof.
  destruct e; unfold debug_host_error; cbn [host_error_text]; pieces.
  - apply status_value_says.
  - exact (flags_named F _ _ _ _ _ (channel_names F) (same_bits _ _)).
Qed.
Lemma uart_error_says {E} (sh : E -> string) e : uart_error_text D sh e (debug_uart_error D sh e).
Proof. destruct e; unfold debug_uart_error; cbn [uart_error_text]; pieces; apply event_error_says. Qed.
Lemma link_error_says {E} (sh : E -> string) e : link_error_text D sh e (debug_link_error D sh e).
Proof. destruct e; unfold debug_link_error; cbn [link_error_text]; pieces; apply event_error_says. Qed.
End Vendor.

(** ** Parameters *)
Local Ltac pieces := repeat first
  [ apply Forall2_nil | apply Forall2_cons | apply called_variant | apply written_struct | (split; [reflexivity|]; cbn [snd])
  | apply duration_time | apply uint_numeral | apply listed_decimal | apply address_called | reflexivity ].
Lemma times_say p : times_text p (debug_durations p).
Proof.
  refine (called_variant "" [time_text (fst p); time_text (snd p)] [debug_duration (fst p); debug_duration (snd p)] _).
  repeat constructor; apply duration_time.
Qed.
Lemma conn_interval_says i : conn_interval_text i (debug_conn_interval i).
Proof. unfold debug_conn_interval, conn_interval_text. pieces. apply times_say. Qed.
Lemma fixed_conn_interval_says i : fixed_conn_interval_text i (debug_fixed_conn_interval i).
Proof. unfold debug_fixed_conn_interval, fixed_conn_interval_text. pieces. Qed.
Lemma expected_length_says l : expected_length_text l (debug_expected_conn_length l).
Proof. unfold debug_expected_conn_length, expected_length_text. pieces. apply times_say. Qed.
Lemma expected_length_error_says e : expected_length_error_text e (debug_expected_conn_length_error e).
Proof. destruct e; unfold debug_expected_conn_length_error; cbn [expected_length_error_text]; pieces. Qed.
Lemma advertising_interval_says i : advertising_interval_text i (debug_advertising_interval i).
Proof. unfold debug_advertising_interval, advertising_interval_text. pieces. apply times_say. Qed.
Lemma advertising_interval_error_says e : advertising_interval_error_text e (debug_advertising_interval_error e).
Proof. destruct e; unfold debug_advertising_interval_error; cbn [advertising_interval_error_text]; pieces. Qed.
Lemma scan_window_says w : scan_window_text w (debug_scan_window w).
Proof. unfold debug_scan_window, scan_window_text. pieces. Qed.
Lemma scan_window_error_says e : scan_window_error_text e (debug_scan_window_error e).
Proof. destruct e; unfold debug_scan_window_error; cbn [scan_window_error_text]; pieces. Qed.
Lemma advertising_parameters_say F p : advertising_parameters_text p (debug_advertising_parameters F p).
Proof.
  unfold debug_advertising_parameters, advertising_parameters_text. pieces.
  - apply times_say.
  - destruct (ap_peer_address p) as [a|a]; [exact (called_tuple "Public" _ _ (address_called a))|exact (called_tuple "Random" _ _ (address_called a))].
  - exact (flags_named F _ _ _ _ _ (channel_names F) (same_bits _ _)).
Qed.
Lemma scan_parameters_say p : scan_parameters_text p (debug_scan_parameters p).
Proof. unfold debug_scan_parameters, scan_parameters_text. pieces. Qed.
Lemma connection_parameters_say p : connection_parameters_text p (debug_connection_parameters p).
Proof.
  unfold debug_connection_parameters, connection_parameters_text. pieces.
  - destruct (cp_peer_address p); apply called_one; apply address_called.
  - apply times_say.
  - apply times_say.
Qed.
