(** * Debug output (specification). *)
From Verif Require Import Base Model_Event Model_Debug.
From Coq Require Import String.

(** Formatting ends, without a panic, and gives the text [t]. *)
Definition prints {E} (format : nat -> option (outcome E string)) (t : string) : Prop :=
  exists n, forall fuel, (n <= fuel)%nat -> format fuel = Some (Ok t).
