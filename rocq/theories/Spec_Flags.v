(** * Flag arrays as sets of flags (specification). *)
From Verif Require Import Base Model_Types Model_Bitflags Spec_Wire.

(** A type declared with the flag array macro: its size in octets, its
    declaration and the bits the Bluetooth specification assigns. *)
Record flag_table := {
  ft_size : nat;
  ft_decl : array_decl;
  ft_defined : features -> N -> bool
}.
Definition channel_table : flag_table :=
  {| ft_size := 5; ft_decl := ChannelClassification_decl; ft_defined := fun _ => channel_defined |}.
Definition command_table : flag_table :=
  {| ft_size := 64; ft_decl := CommandFlags_decl; ft_defined := command_bit_defined |}.

(** The constants, and the bit each stands for. *)
Definition constants (F : features) (T : flag_table) : list array_flag := ba_flags F (ft_decl T).
Definition flag_bit (fl : array_flag) : N := 8 * N.of_nat (fst fl) + N.log2 (snd fl).

(** The ways a program can make a value. *)
Inductive maker :=
| MEmpty                                  (* empty() *)
| MAll                                    (* all() *)
| MFrom (x : array_flag)                  (* x.into() *)
| MPair (x y : array_flag)                (* x | y *)
| MOr (m : maker) (x : array_flag)        (* m | x, m |= x *)
| MBits (bs : list N).                    (* from_bits(bs) *)

(** It only uses the constants of the type and slices of the right length. *)
Fixpoint well_typed (F : features) (T : flag_table) (m : maker) : Prop :=
  match m with
  | MEmpty | MAll => True
  | MFrom x => In x (constants F T)
  | MPair x y => In x (constants F T) /\ In y (constants F T)
  | MOr m x => well_typed F T m /\ In x (constants F T)
  | MBits bs => bytes bs /\ length bs = ft_size T
  end.

(** All its [from_bits] succeed. *)
Fixpoint only_known_bits (F : features) (T : flag_table) (m : maker) : Prop :=
  match m with
  | MOr m _ => only_known_bits F T m
  | MBits bs => only_defined (ft_defined T F) (array_bit bs)
  | _ => True
  end.

(** The set of bits it stands for. *)
Fixpoint denotes (F : features) (T : flag_table) (m : maker) (i : N) : bool :=
  match m with
  | MEmpty => false
  | MAll => ft_defined T F i
  | MFrom x => i =? flag_bit x
  | MPair x y => (i =? flag_bit x) || (i =? flag_bit y)
  | MOr m x => denotes F T m i || (i =? flag_bit x)
  | MBits bs => array_bit bs i
  end.

(** The same operations of the model; [None] is that of [from_bits]. *)
Fixpoint make (F : features) (T : flag_table) (m : maker) : outcome Empty_set (option (list N)) :=
  match m with
  | MEmpty => Ok (Some (ba_empty (ft_size T)))
  | MAll => let! v := ba_all F (ft_size T) (ft_decl T) in Ok (Some v)
  | MFrom x => let! v := ba_from_flag (ft_size T) x in Ok (Some v)
  | MPair x y => let! v := ba_flag_or (ft_size T) x y in Ok (Some v)
  | MOr m x =>
      let! o := make F T m in
      match o with
      | Some v => let! v := ba_or v x in Ok (Some v)
      | None => Ok None
      end
  | MBits bs => ba_from_bits F (ft_size T) (ft_decl T) bs
  end.

(** What a program can hold. *)
Definition obtainable (F : features) (T : flag_table) (v : list N) : Prop :=
  exists m, well_typed F T m /\ make F T m = Ok (Some v).

(** The two types of the crate. *)
Definition flag_tables : list flag_table := [channel_table; command_table].
