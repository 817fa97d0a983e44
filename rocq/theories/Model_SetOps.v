(** * The other operations on the [bitflags!] types (crate bitflags 1.2).

    [union], [difference], [complement] and [contains] are in
    Model_FlagNames.v.  The crate expands these for each of its seven types:
    src/lib.rs:761, src/event/command.rs:1089, 1329 and 1571, src/host/mod.rs:1546,
    1665 and 1826. *)
From Verif Require Import Base Model_Types Model_Bitflags Model_FlagNames.

(** [&]: on the bits (e.g. for src/lib.rs:761). *)
Definition bf_intersection (a b : N) : N := N.land a b.
(** [^] and [toggle]: on the bits (e.g. for src/lib.rs:761). *)
Definition bf_symmetric_difference (a b : N) : N := N.lxor a b.
(** [set(other, value)]: [insert] if [value], else [remove] (e.g. for src/lib.rs:761). *)
Definition bf_set (a b : N) (value : bool) : N := if value then bf_union a b else bf_difference a b.
(** [empty()]: no bits (e.g. for src/lib.rs:761). *)
Definition bf_empty : N := 0.
(** [is_empty()]: [self.bits() == Self::empty().bits()] (called in
    src/host/mod.rs:1793). *)
Definition bf_is_empty (a : N) : bool := a =? bf_empty.
(** [is_all()]: [self.bits == Self::all().bits] (e.g. for src/lib.rs:761). *)
Definition bf_is_all (F : features) (d : flag_decl) (a : N) : bool := a =? bf_all F d.
(** [intersects(other)]: [!(self & other).is_empty()] (e.g. for src/lib.rs:761). *)
Definition bf_intersects (a b : N) : bool := negb (bf_is_empty (N.land a b)).
(** Derived [PartialEq]: the bits are the same (e.g. src/lib.rs:761). *)
Definition bf_eq (a b : N) : bool := a =? b.
