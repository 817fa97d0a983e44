(** * Flag arrays behave as sets of flags: C19. *)
From Verif Require Import Base Model_Types Model_Bitflags Spec_Wire Spec_Interval Spec_Flags
  Spec_Example Proofs_Flags.

(** Each constant is one bit of its own, and together they are the bits the
    Bluetooth specification defines. *)
Theorem C19_constants F T : In T flag_tables ->
  NoDup (map flag_bit (constants F T))
  /\ forall i, ft_defined T F i = true <-> In i (map flag_bit (constants F T)).
Proof. exact (constants_bits F T). Qed.
Print Assumptions C19_constants.
Example C19_constants_case :
  In (1%nat, 0x02) (constants F41 channel_table) /\ flag_bit (1%nat, 0x02) = 9
  /\ length (constants F41 channel_table) = 37%nat
  /\ ft_defined channel_table F41 36 = true /\ ft_defined channel_table F41 37 = false.
Proof. split; [cbn; tauto|]. repeat split; vm_compute; reflexivity. Qed.

(** Every sequence of operations gives the value with exactly the bits of the
    set it stands for; only [from_bits] with an unassigned bit gives none. *)
Theorem C19_operations F T m : In T flag_tables -> well_typed F T m ->
  (only_known_bits F T m -> exists v, make F T m = Ok (Some v) /\ length v = ft_size T /\ bytes v
     /\ forall i, array_bit v i = denotes F T m i)
  /\ (~ only_known_bits F T m -> make F T m = Ok None).
Proof. exact (maker_result F T m). Qed.
Print Assumptions C19_operations.
Example C19_operations_case :
  let m := MOr (MOr (MPair (0%nat, 0x01) (1%nat, 0x80)) (4%nat, 0x10)) (0%nat, 0x01) in
  well_typed F41 channel_table m /\ only_known_bits F41 channel_table m
  /\ make F41 channel_table m = Ok (Some [0x01; 0x80; 0; 0; 0x10])
  /\ make F41 channel_table (MOr (MBits [0; 0; 0; 0; 0x20]) (0%nat, 0x01)) = Ok None.
Proof. cbv zeta. split; [cbn; tauto|]. repeat split; vm_compute; reflexivity. Qed.

(** What can be obtained is a subset of [all()]. *)
Theorem C19_subset F T v : In T flag_tables -> obtainable F T v ->
  length v = ft_size T /\ bytes v /\ only_defined (ft_defined T F) (array_bit v).
Proof. exact (fun HT => obtainable_bits F T HT v). Qed.
Print Assumptions C19_subset.
Theorem C19_subset_of_all F T v all : In T flag_tables -> obtainable F T v ->
  @ba_all Empty_set F (ft_size T) (ft_decl T) = Ok all -> ba_contains all v = true.
Proof. exact (fun HT => obtainable_subset F T HT v all). Qed.
Print Assumptions C19_subset_of_all.

Theorem C19_is_set F T v x : In T flag_tables -> obtainable F T v -> In x (constants F T) ->
  @ba_is_set Empty_set v x = Ok (array_bit v (flag_bit x)).
Proof. exact (fun HT => obtainable_is_set F T HT v x). Qed.
Print Assumptions C19_is_set.

Theorem C19_contains F T a b : In T flag_tables -> obtainable F T a -> obtainable F T b ->
  ba_contains a b = true <-> forall i, array_bit b i = true -> array_bit a i = true.
Proof. exact (fun HT => obtainable_contains F T HT a b). Qed.
Print Assumptions C19_contains.

Theorem C19_is_empty F T a : In T flag_tables -> obtainable F T a ->
  ba_is_empty a = true <-> forall i, array_bit a i = false.
Proof. exact (fun HT => obtainable_is_empty F T HT a). Qed.
Print Assumptions C19_is_empty.

Theorem C19_eq F T a b : In T flag_tables -> obtainable F T a -> obtainable F T b ->
  (ba_eq a b = true <-> forall i, array_bit a i = array_bit b i) /\ (ba_eq a b = true <-> a = b).
Proof. exact (fun HT => obtainable_eq F T HT a b). Qed.
Print Assumptions C19_eq.

Theorem C19_eq_flag F T v x : In T flag_tables -> obtainable F T v -> In x (constants F T) ->
  exists r, @ba_eq_flag Empty_set (ft_size T) v x = Ok r
  /\ (r = true <-> forall i, array_bit v i = (i =? flag_bit x)).
Proof. exact (fun HT => obtainable_eq_flag F T HT v x). Qed.
Print Assumptions C19_eq_flag.

Theorem C19_from_bits F T v : In T flag_tables -> obtainable F T v ->
  @ba_from_bits Empty_set F (ft_size T) (ft_decl T) (ba_bits v) = Ok (Some v).
Proof. exact (fun HT => obtainable_from_bits F T HT v). Qed.
Print Assumptions C19_from_bits.

Theorem C19_from_bits_panic F T bs : In T flag_tables -> bytes bs ->
  @ba_from_bits Empty_set F (ft_size T) (ft_decl T) bs = Panic <-> length bs <> ft_size T.
Proof. exact (from_bits_panics F T bs). Qed.
Print Assumptions C19_from_bits_panic.

Theorem C19_copy v : @writes_exactly Empty_set (ba_copy_into_slice v) (ba_bits v).
Proof. exact (copy_exactly v). Qed.
Print Assumptions C19_copy.
Example C19_observers_case :
  let v := [0x01; 0x80; 0; 0; 0x10] in
  In channel_table flag_tables /\ obtainable F41 channel_table v
  /\ @ba_is_set Empty_set v (1%nat, 0x80) = Ok true
  /\ @ba_is_set Empty_set v (1%nat, 0x40) = Ok false
  /\ ba_contains v [0x01; 0; 0; 0; 0x10] = true /\ ba_contains [0x01; 0; 0; 0; 0x10] v = false
  /\ @ba_eq_flag Empty_set 5 [0; 0x80; 0; 0; 0] (1%nat, 0x80) = Ok true
  /\ @ba_eq_flag Empty_set 5 v (1%nat, 0x80) = Ok false.
Proof.
  cbv zeta. split; [cbn; tauto|]. split.
  - exists (MOr (MPair (0%nat, 0x01) (1%nat, 0x80)) (4%nat, 0x10)).
    split; [cbn; tauto|vm_compute; reflexivity].
  - repeat split; vm_compute; reflexivity.
Qed.
