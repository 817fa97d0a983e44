(** * Machine words (specification). *)
From Verif Require Import Base Model_Types Model_Intervals Model_EventBase Model_Command Model_Event Model_Host
  Model_Word Spec_Wire Spec_Errors Spec_Host.
Open Scope list_scope.
Open Scope N_scope.

(** What Rust promises: [usize] has at least 16 bits, and a slice at most
    [isize::MAX] bytes, which is less than half of the values of [usize]. *)
Definition rust_machine (m : machine) : Prop := 2 ^ 16 <= usizes m.
Definition fits (m : machine) {A} (l : list A) : Prop := 2 * N.of_nat (length l) < usizes m.

(** A controller peeks and reads values of type [u8]; [I] holds in all states it
    can be in. *)
Definition gives_bytes {St E} (I : St -> Prop) (C : controller St E) : Prop :=
  (forall s n, I s -> let (s', r) := ctl_peek C s n in
     I s' /\ match r with Ok b => byte b | _ => True end)
  /\ (forall s l, I s -> bytes l -> let (s', r) := ctl_read_into C s l in
     I s' /\ match r with Ok l' => bytes l' | _ => True end).

(** The data of an advertisement. *)
Definition ad_data (a : advertisement) : list N :=
  match a with
  | CompleteLocalName b | ServiceData16BitUuid _ b | ServiceData32BitUuid _ b
  | ServiceData128BitUuid _ b | ManufacturerSpecificData _ b => b
  end.
