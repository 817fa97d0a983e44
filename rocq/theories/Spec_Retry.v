(** * Waiting, and moving to a newer version (specification). *)
From Verif Require Import Base Model_Types Model_EventBase Model_Event Model_Host
  Spec_Wire Spec_Errors Spec_Host Spec_Link Spec_Versions.
Open Scope list_scope.
Open Scope N_scope.

(** ** [nb::block!]: the call is repeated until it does not answer [WouldBlock]

    [waiting blocked call n s]: after at most [n] calls; [None] if all of them
    were blocked. *)
Fixpoint waiting {St A} (blocked : A -> bool) (call : St -> St * A) (n : nat) (s : St)
    : St * option A :=
  match n with
  | O => (s, None)
  | S n =>
      let (s', r) := call s in
      if blocked r then waiting blocked call n s' else (s', Some r)
  end.

Definition blocked {E A} (r : outcome (nb_error E) A) : bool :=
  match r with Err WouldBlock => true | _ => false end.
Definition method_blocked {V E} (r : method_result V E) : bool :=
  match r with Plain r => blocked r | Checked r => blocked r end.

(** Between [s] and [s'] exactly [l] was written, nothing was consumed. *)
Definition put {St} (h : history St) (s s' : St) (l : list N) : Prop :=
  possible h s' /\ arrives h s s' /\ consumed h s' = consumed h s
  /\ written h s' = written h s ++ l.

(** ** Newer versions

    The name of a method in the newer version: one was renamed in 5.0. *)
Definition renamed (F' : features) {V} (c : command V) : command V :=
  match c with
  | CLeSetAdvertiseEnable enable =>
      if version_5_0 F' then CLeSetAdvertisingEnable enable else c
  | _ => c
  end.
