(** * Failures of the controller in a read (specification). *)
From Verif Require Import Base Model_Types Model_EventBase Model_Event Model_Host Spec_Wire Spec_Errors Spec_Host Spec_Link.
Open Scope list_scope.

(** The same controller, with a list of the errors it has given, in order. *)
Definition failing {St E A} (r : St * outcome (nb_error E) A) (errors : list (nb_error E))
    : (St * list (nb_error E)) * outcome (nb_error E) A :=
  let (s, x) := r in ((s, match x with Err e => errors ++ [e] | _ => errors end), x).
Definition watched {St E} (C : controller St E) : controller (St * list (nb_error E)) E :=
  {| ctl_write := fun st header payload => failing (ctl_write C (fst st) header payload) (snd st);
     ctl_read_into := fun st buf => failing (ctl_read_into C (fst st) buf) (snd st);
     ctl_peek := fun st n => failing (ctl_peek C (fst st) n) (snd st) |}.

(** What a read says if the controller gave these errors meanwhile. *)
Definition uart_says {V E} (errors : list (nb_error E))
    (r : outcome (nb_error (uart_error E (VError V))) (uart_packet V)) : Prop :=
  match errors with
  | [] => uart_reports V r = true \/ exists t, r = Err (Other (UBadPacketType t))
  | [WouldBlock] => r = Err WouldBlock
  | [Other e] => r = Err (Other (UComm e))
  | _ => False
  end.
Definition link_says {V E} (errors : list (nb_error E))
    (r : outcome (nb_error (link_error E (VError V))) (event V)) : Prop :=
  match errors with
  | [] => link_reports V r = true
  | [WouldBlock] => r = Err WouldBlock
  | [Other e] => r = Err (Other (LComm e))
  | _ => False
  end.

(** A controller that fails at its second call. *)
Definition flaky (e : nb_error N) : controller nat N :=
  {| ctl_write := fun n _ _ => (S n, Err e);
     ctl_read_into := fun n buf => (S n, match n with O => Ok buf | _ => Err e end);
     ctl_peek := fun n _ => (S n, match n with O => Ok 0x04%N | _ => Err e end) |}.
