(** * Serializers and advertising data: C27, C42. *)
From Verif Require Import Base Model_Types Model_Bitflags Model_Intervals Model_Host Spec_Wire Spec_Interval
  Spec_Flags Spec_Adv Spec_Host Spec_Example
  Proofs_Serialize Proofs_Time Proofs_Flags Proofs_Adv Proofs_Host Proofs_Send.

(** ** C27 *)

(** The whole behaviour: length octet (modulo 256), type, content, rest of the
    buffer as before; a panic exactly if the buffer is shorter than [len()]. *)
Theorem C27_written a buf :
  @ad_copy_into_slice Empty_set a buf =
  let len := (2 + length (ad_content a))%nat in
  if Nat.leb len (length buf)
  then Ok ([N.of_nat (len - 1) mod 256; ad_code a] ++ ad_content a ++ skipn len buf, len)
  else Panic.
Proof. exact (ad_copy_spec a buf). Qed.
Print Assumptions C27_written.

Theorem C27_len a : ad_len a = (2 + length (ad_content a))%nat.
Proof. exact (ad_len_content a). Qed.
Print Assumptions C27_len.

(** Structures of at most 254 octets of content written one after another are
    recovered by a parser; what follows them must be zeros (or nothing). *)
Theorem C27_recovered ads k buf n : Forall ad_typed ads -> Forall ad_fits ads ->
  write_ads ads (repeat 0 k) = Ok (buf, n) ->
  exists found, parse_ad buf = Some found /\ map interpret found = map Some ads.
Proof. exact (ads_recovered ads k buf n). Qed.
Print Assumptions C27_recovered.
Example C27_recovered_case :
  let ads := [CompleteLocalName [0x41; 0x42]; ManufacturerSpecificData 0x0059 [1; 2; 3];
              ServiceData16BitUuid 0x180F [99]] in
  Forall ad_typed ads /\ Forall ad_fits ads
  /\ write_ads ads (repeat 0 31)
     = Ok ([3; 0x09; 0x41; 0x42; 6; 0xFF; 0x59; 0; 1; 2; 3; 4; 0x16; 0x0F; 0x18; 99] ++ repeat 0 15, 16%nat).
Proof.
  cbv zeta. split; [|split; [|reflexivity]].
  - repeat constructor.
  - repeat constructor.
Qed.

(** They are all written exactly if they fit in the buffer, and nothing else is
    touched. *)
Theorem C27_several ads buf : Forall ad_fits ads ->
  write_ads ads buf =
  let total := flat_map ad_structure ads in
  if Nat.leb (length total) (length buf)
  then Ok (total ++ skipn (length total) buf, length total) else Panic.
Proof. exact (write_ads_spec ads buf). Qed.
Print Assumptions C27_several.

(** A longer content is never recovered. *)
Theorem C27_too_long_lost a buf out n : ~ ad_fits a ->
  @ad_copy_into_slice Empty_set a buf = Ok (out, n) ->
  forall more, parse_ad out <> Some ((ad_code a, ad_content a) :: more).
Proof. exact (too_long_lost a buf out n). Qed.
Print Assumptions C27_too_long_lost.
Example C27_too_long_case :
  let a := CompleteLocalName (repeat 0x61 255) in
  ~ ad_fits a
  /\ exists out, @ad_copy_into_slice Empty_set a (repeat 0 257) = Ok (out, 257%nat)
       /\ parse_ad out = Some [].
Proof.
  cbv zeta. split; [unfold ad_fits; cbn [ad_content]; rewrite repeat_length; lia|].
  exists ([0; 0x09] ++ repeat 0x61 255). split; vm_compute; reflexivity.
Qed.

(** ** C42 *)
Theorem C42_conn_interval ci : ci_reachable ci ->
  @writes_front Empty_set (ci_copy_into_slice ci) (conn_interval_bytes ci)
  /\ length (conn_interval_bytes ci) = 8%nat.
Proof. exact (fun H => conj (ci_copy_spec ci (ci_reachable_legal ci H)) (conn_interval_bytes_length ci)). Qed.
Print Assumptions C42_conn_interval.

Theorem C42_expected_length e : ecl_reachable e ->
  @writes_front Empty_set (ecl_copy_into_slice e) (expected_length_bytes e)
  /\ length (expected_length_bytes e) = 4%nat.
Proof. exact (fun H => conj (ecl_writes e H) (expected_length_bytes_length e)). Qed.
Print Assumptions C42_expected_length.

Theorem C42_scan_window s : sw_reachable s ->
  @writes_front Empty_set (sw_copy_into_slice s) (scan_window_bytes s)
  /\ length (scan_window_bytes s) = 4%nat.
Proof. exact (fun H => conj (sw_writes s H) (scan_window_bytes_length s)). Qed.
Print Assumptions C42_scan_window.

Theorem C42_advertising_interval F a : ai_reachable F a ->
  @writes_front Empty_set (ai_copy_into_slice a) (advertising_interval_bytes a)
  /\ length (advertising_interval_bytes a) = 5%nat.
Proof. exact (fun H => conj (ai_writes F a H) (advertising_interval_bytes_length a)). Qed.
Print Assumptions C42_advertising_interval.

Theorem C42_bd_addr_type a : address_typed a ->
  @writes_exactly Empty_set (bd_addr_type_copy a) (address_bytes a)
  /\ length (address_bytes a) = 7%nat.
Proof. exact (fun H => conj (address_writes a H) (address_bytes_length a H)). Qed.
Print Assumptions C42_bd_addr_type.

Theorem C42_peer_addr_type p : peer_typed p ->
  @writes_exactly Empty_set (peer_addr_type_copy p) (peer_address_bytes p)
  /\ length (peer_address_bytes p) = 7%nat.
Proof. exact (fun H => conj (peer_addr_type_copy_spec p H) (peer_address_bytes_length p H)). Qed.
Print Assumptions C42_peer_addr_type.

Theorem C42_flags F T v : In T flag_tables -> obtainable F T v ->
  @writes_exactly Empty_set (ba_copy_into_slice v) v /\ length v = ft_size T.
Proof. exact (fun HT H => conj (copy_exactly v) (proj1 (obtainable_bits F T HT v H))). Qed.
Print Assumptions C42_flags.

Example C42_case :
  let s := {| sw_interval := ms 100; sw_window := ms 50 |} in
  sw_reachable s
  /\ @sw_copy_into_slice Empty_set s [9; 9; 9] = Panic
  /\ @sw_copy_into_slice Empty_set s [9; 9; 9; 9; 7; 8] = Ok [160; 0; 80; 0; 7; 8]
  /\ @bd_addr_type_copy Empty_set (BdRandom [1; 2; 3; 4; 5; 6]) (repeat 0 7)
     = Ok [1; 1; 2; 3; 4; 5; 6]
  /\ @bd_addr_type_copy Empty_set (BdRandom [1; 2; 3; 4; 5; 6]) (repeat 0 8) = Panic.
Proof.
  cbv zeta. split; [exists (ms 100), (ms 50); split; vm_compute; reflexivity|].
  repeat split; vm_compute; reflexivity.
Qed.
Example C42_others_case :
  (let ci := {| ci_interval := (us 7500, ms 4000); ci_latency := 2; ci_timeout := ms 32000 |} in
   ci_reachable ci /\ @ci_copy_into_slice Empty_set ci (repeat 9 7) = Panic
   /\ @ci_copy_into_slice Empty_set ci (repeat 9 9) = Ok [5; 0; 0x80; 0x0C; 2; 0; 0x80; 0x0C; 9])
  /\ (let e := {| ecl_range := (ms 10, ms 20) |} in
      ecl_reachable e /\ @ecl_copy_into_slice Empty_set e (repeat 9 3) = Panic
      /\ @ecl_copy_into_slice Empty_set e (repeat 9 5) = Ok [16; 0; 32; 0; 9])
  /\ (let a := {| ai_interval := (ms 100, ms 200); ai_type := NonConnectableUndirected |} in
      ai_reachable F41 a /\ @ai_copy_into_slice Empty_set a (repeat 9 4) = Panic
      /\ @ai_copy_into_slice Empty_set a (repeat 9 6) = Ok [160; 0; 64; 1; 3; 9])
  /\ (let p := PublicIdentityAddress [1; 2; 3; 4; 5; 6] in
      peer_typed p /\ @peer_addr_type_copy Empty_set p (repeat 9 7) = Ok [2; 1; 2; 3; 4; 5; 6]
      /\ @peer_addr_type_copy Empty_set p (repeat 9 6) = Panic)
  /\ (let v := [0x01; 0x80; 0; 0; 0x10] in
      In channel_table flag_tables /\ obtainable F41 channel_table v
      /\ @ba_copy_into_slice Empty_set v (repeat 9 5) = Ok v /\ @ba_copy_into_slice Empty_set v (repeat 9 6) = Panic).
Proof.
  cbv zeta. split; [|split; [|split; [|split]]].
  - split; [left; exists [WithRange (us 7500) (ms 4000); WithLatency 2; WithTimeout (ms 32000)]|split]; vm_compute; reflexivity.
  - split; [exists (ms 10), (ms 20); repeat split; vm_compute; reflexivity|split; vm_compute; reflexivity].
  - split; [left; exists NonConnectableUndirected, (ms 100), (ms 200); repeat split; vm_compute; reflexivity|].
    split; vm_compute; reflexivity.
  - split; [split; [reflexivity|repeat constructor]|split; vm_compute; reflexivity].
  - split; [cbn; tauto|]. split; [|split; vm_compute; reflexivity].
    exists (MOr (MPair (0%nat, 0x01) (1%nat, 0x80)) (4%nat, 0x10)). split; [cbn; tauto|vm_compute; reflexivity].
Qed.
