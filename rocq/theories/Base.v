(** * Base: outcomes, byte slices and little-endian access.

    This file models the parts of [core] and of the [byteorder] crate that the
    source relies on.  Nothing here comes from /repo itself, except that every
    operation below is one that /repo calls (citations are to a typical call).

    Bytes and machine integers are [N]; a slice is a [list N]; lengths and
    indices ([usize]) are [nat].  A Rust panic is the explicit value [Panic]. *)
From Coq Require Export List NArith ZArith Bool Lia.
From Coq Require Export ZifyBool ZifyNat ZifyN.
Export ListNotations.
Global Open Scope N_scope.

(** The result of running a piece of Rust code: a value, a [Result::Err], or a
    panic (e.g. of src/event/mod.rs:298). *)
Inductive outcome (E A : Type) : Type :=
| Ok (a : A)
| Err (e : E)
| Panic.
Arguments Ok {E A} a.
Arguments Err {E A} e.
Arguments Panic {E A}.

(** The [?] operator (e.g. src/event/mod.rs:416) and sequencing of code that
    may panic. *)
Definition bind {E A B} (m : outcome E A) (k : A -> outcome E B) : outcome E B :=
  match m with
  | Ok a => k a
  | Err e => Err e
  | Panic => Panic
  end.
Notation "'let!' x ':=' m 'in' k" := (bind m (fun x => k))
  (at level 200, x name, m at level 100, k at level 200, right associativity).

(** [Result::map_err] (e.g. src/event/mod.rs:416). *)
Definition map_err {E F A} (f : E -> F) (m : outcome E A) : outcome F A :=
  match m with
  | Ok a => Ok a
  | Err e => Err (f e)
  | Panic => Panic
  end.

(** [assert!] / [assert_eq!] (e.g. src/types/connection_interval.rs:45). *)
Definition assert {E} (c : bool) : outcome E unit := if c then Ok tt else Panic.

(** [l[i]] (e.g. src/event/mod.rs:302). *)
Definition idx {E} (l : list N) (i : nat) : outcome E N :=
  match nth_error l i with
  | Some b => Ok b
  | None => Panic
  end.

(** [&l[a..b]] (e.g. src/event/mod.rs:303). *)
Definition slice {E} (l : list N) (a b : nat) : outcome E (list N) :=
  if (Nat.leb a b && Nat.leb b (length l))%bool
  then Ok (firstn (b - a) (skipn a l))
  else Panic.

(** [&l[a..]] (e.g. src/event/mod.rs:417). *)
Definition slice_from {E} (l : list N) (a : nat) : outcome E (list N) :=
  if Nat.leb a (length l) then Ok (skipn a l) else Panic.

(** [LittleEndian::read_u16] of byteorder; panics if there are fewer than two
    bytes (e.g. src/event/mod.rs:417). *)
Definition read_u16 {E} (l : list N) : outcome E N :=
  match l with
  | b0 :: b1 :: _ => Ok (b0 + 256 * b1)
  | _ => Panic
  end.

(** [LittleEndian::read_u64] (e.g. src/event/mod.rs:1199). *)
Definition read_u64 {E} (l : list N) : outcome E N :=
  match l with
  | b0 :: b1 :: b2 :: b3 :: b4 :: b5 :: b6 :: b7 :: _ =>
      Ok (b0 + 2 ^ 8 * b1 + 2 ^ 16 * b2 + 2 ^ 24 * b3
          + 2 ^ 32 * b4 + 2 ^ 40 * b5 + 2 ^ 48 * b6 + 2 ^ 56 * b7)
  | _ => Panic
  end.

(** [buf[i] = v] (e.g. src/host/uart.rs:84). *)
Definition set_idx {E} (buf : list N) (i : nat) (v : N) : outcome E (list N) :=
  if Nat.ltb i (length buf) then Ok (firstn i buf ++ v :: skipn (S i) buf) else Panic.

(** Running a function on the mutable subslice [&mut buf[a..b]]
    (e.g. src/host/mod.rs:1797).  [f] gives the new content of the subslice. *)
Definition update_range {E} (buf : list N) (a b : nat)
    (f : list N -> outcome E (list N)) : outcome E (list N) :=
  let! s := slice buf a b in
  let! s' := f s in
  Ok (firstn a buf ++ s' ++ skipn b buf).

(** The same on [&mut buf[a..]] (e.g. src/types/advertisement.rs:81). *)
Definition update_from {E} (buf : list N) (a : nat)
    (f : list N -> outcome E (list N)) : outcome E (list N) :=
  update_range buf a (length buf) f.

(** [dst.copy_from_slice(src)]: panics if the lengths differ
    (e.g. src/event/mod.rs:414). *)
Definition copy_from_slice {E} (src dst : list N) : outcome E (list N) :=
  if Nat.eqb (length dst) (length src) then Ok src else Panic.

(** [v.to_le_bytes()], [n] bytes, which is what byteorder writes
    (e.g. src/types/connection_interval.rs:47). *)
Fixpoint le_bytes (n : nat) (v : N) : list N :=
  match n with
  | O => []
  | S k => v mod 256 :: le_bytes k (v / 256)
  end.

(** [LittleEndian::write_uX(dst, v)] of byteorder: overwrites the first [n]
    bytes of [dst] and panics if [dst] is shorter
    (e.g. src/types/connection_interval.rs:47, src/types/advertisement.rs:85). *)
Definition write_le {E} (n : nat) (v : N) (dst : list N) : outcome E (list N) :=
  if Nat.leb n (length dst) then Ok (le_bytes n v ++ skipn n dst) else Panic.
Definition write_u16 {E} (v : N) (dst : list N) : outcome E (list N) := write_le 2 v dst.
Definition write_u32 {E} (v : N) (dst : list N) : outcome E (list N) := write_le 4 v dst.
Definition write_u64 {E} (v : N) (dst : list N) : outcome E (list N) := write_le 8 v dst.
Definition write_u128 {E} (v : N) (dst : list N) : outcome E (list N) := write_le 16 v dst.

(** [[0; n]] (e.g. src/event/mod.rs:736). *)
Definition zeros (n : nat) : list N := repeat 0 n.

(** Overflow-checked arithmetic on [u32] and [u64] (panics on overflow, as in
    the debug profile; e.g. src/types/connection_interval.rs:96). *)
Definition checked {E} (bound v : N) : outcome E N := if v <? bound then Ok v else Panic.
Definition u32_bound : N := 2 ^ 32.
Definition u64_bound : N := 2 ^ 64.

(** [as u8], [as u16], [as u32]: truncating casts (e.g. src/host/uart.rs:79,
    src/types/connection_interval.rs:96). *)
Definition as_u8 (v : N) : N := v mod 2 ^ 8.
Definition as_u16 (v : N) : N := v mod 2 ^ 16.
Definition as_u32 (v : N) : N := v mod 2 ^ 32.

(** [mem::transmute::<u8, i8>] and back (src/event/mod.rs:1054 and 984,
    src/event/command.rs:357). *)
Definition u8_as_i8 (b : N) : Z :=
  if b <? 128 then Z.of_N b else (Z.of_N b - 256)%Z.
Definition i8_as_u8 (z : Z) : N :=
  if (z <? 0)%Z then Z.to_N (z + 256) else Z.to_N z.

(** What the types say about a list of [u8] (e.g. src/event/mod.rs:143), a
    [u16] and a [u64] (e.g. src/event/command.rs:1214). *)
Definition byte (b : N) : Prop := b < 256.
Definition bytes (l : list N) : Prop := Forall byte l.
Definition u16 (v : N) : Prop := v < 2 ^ 16.
Definition u64 (v : N) : Prop := v < 2 ^ 64.
