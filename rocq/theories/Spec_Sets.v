(** * Expressions for sets of flags (specification). *)
From Coq Require String.
From Verif Require Import Base Model_Types Model_Bitflags Model_FlagNames Model_SetOps.

(** The types with named flags, each with the names and the declarations of its
    constants. *)
Definition flag_types : list (list String.string * flag_decl) := [
  (LinkLayerFeature_names, LinkLayerFeature); (LmpFeatures_names, LmpFeatures);
  (LeFeatures_names, LeFeatures); (LeStates_names, LeStates); (EventFlags_names, EventFlags);
  (LeEventFlags_names, LeEventFlags); (Channels_names, Channels)].

(** What a program writes for a set of flags. *)
Inductive flags :=
| Named (name : String.string)
| AllFlags
| NoFlags
| Union (a b : flags)
| Difference (a b : flags)
| Intersection (a b : flags)
| SymmetricDifference (a b : flags)
| Complement (a : flags)
| WithFlag (a b : flags) (value : bool)    (* set *)
| Truncated (bits : N).                     (* from_bits_truncate *)

(** Its value, if all names exist. *)
Definition both (f : N -> N -> N) (a b : option N) : option N :=
  match a, b with Some a, Some b => Some (f a b) | _, _ => None end.
Fixpoint value (F : features) (names : list String.string) (d : flag_decl) (e : flags) : option N :=
  match e with
  | Named name => bf_constant F names d name
  | AllFlags => Some (bf_all F d)
  | NoFlags => Some bf_empty
  | Union a b => both bf_union (value F names d a) (value F names d b)
  | Difference a b => both bf_difference (value F names d a) (value F names d b)
  | Intersection a b => both bf_intersection (value F names d a) (value F names d b)
  | SymmetricDifference a b => both bf_symmetric_difference (value F names d a) (value F names d b)
  | Complement a => option_map (bf_complement F d) (value F names d a)
  | WithFlag a b value' => both (fun a b => bf_set a b value') (value F names d a) (value F names d b)
  | Truncated bits => Some (bf_from_bits_truncate F d bits)
  end.

(** The names it stands for, among those that exist; [bit] is the bit of the
    name. *)
Fixpoint member (e : flags) (name : String.string) (bit : N) : bool :=
  match e with
  | Named n => String.eqb n name
  | AllFlags => true
  | NoFlags => false
  | Union a b => member a name bit || member b name bit
  | Difference a b => member a name bit && negb (member b name bit)
  | Intersection a b => member a name bit && member b name bit
  | SymmetricDifference a b => xorb (member a name bit) (member b name bit)
  | Complement a => negb (member a name bit)
  | WithFlag a b value => if member b name bit then value else member a name bit
  | Truncated bits => N.testbit bits bit
  end.
Definition exists_as (F : features) (names : list String.string) (d : flag_decl) (name : String.string)
    (bit : N) : Prop := declared F names d name = Some bit.
