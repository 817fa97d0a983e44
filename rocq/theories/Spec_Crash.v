(** * Programs that are stopped at any moment (specification). *)
From Verif Require Import Base Model_Types Model_EventBase Model_Command Model_Event Model_Host
  Spec_Wire Spec_Errors Spec_Host Spec_Link Spec_Split.
Open Scope list_scope.
Open Scope N_scope.

(** ** Moments

    The states that a controller is in during a call: it is in one before the call,
    and in another each time the library has called it. *)
Definition noting {St R} (result : St * R) (seen : list St) : (St * list St) * R :=
  let (s, r) := result in ((s, seen ++ [s]), r).
Definition noted {St E} (C : controller St E) : controller (St * list St) E :=
  {| ctl_write := fun st header payload => noting (ctl_write C (fst st) header payload) (snd st);
     ctl_read_into := fun st buf => noting (ctl_read_into C (fst st) buf) (snd st);
     ctl_peek := fun st n => noting (ctl_peek C (fst st) n) (snd st) |}.

Section Stopped.
Context (F : features) (V : vendor) {St E : Type} (C : controller St E) (h : history St).
Definition moments (o : operation V) (s : St) : list St := s :: snd (fst (perform F V (noted C) o (s, []))).
Definition split_moments (o : operation V) (s : St) : list St := s :: snd (fst (split_perform F V (noted C) o (s, []))).

(** A program is started in [s] and stopped in [x], at some moment of a call.  [log]
    are the calls before that one, which it had the results of. *)
Definition stopped (s x : St) (log : list (operation V * report V E)) : Prop :=
  exists os o s1, Forall (typed_operation F) (os ++ [o])
  /\ session F V C os s = (s1, log) /\ In x (moments o s1).
Definition split_stopped (s x : St) (log : list (operation V * split_report V E)) : Prop :=
  exists os o s1, Forall (typed_operation F) (os ++ [o])
  /\ split_session F V C os s = (s1, log) /\ In x (split_moments o s1).

(** Programs one after the other, each of them stopped.  More may arrive before the
    next is started. *)
Inductive lives : St -> list (list (operation V * report V E)) -> St -> Prop :=
| no_more s : lives s [] s
| one_more s log x y logs s' : stopped s x log -> nothing h x y -> lives y logs s' -> lives s (log :: logs) s'.
Inductive split_lives : St -> list (list (operation V * split_report V E)) -> St -> Prop :=
| split_no_more s : split_lives s [] s
| split_one_more s log x y logs s' :
    split_stopped s x log -> nothing h x y -> split_lives y logs s' -> split_lives s (log :: logs) s'.
End Stopped.

(** ** What became of a program: the packets it got, and the packet or the command, if
    any, that it was not told of. *)
Record fate (V : vendor) := {
  packets_got : list (list N);
  packet_lost : option (list N);
  command_in_doubt : option (command V)
}.
Arguments packets_got {V}.
Arguments packet_lost {V}.
Arguments command_in_doubt {V}.
Definition perhaps {A} (x : option A) : list A := match x with Some a => [a] | None => [] end.
Definition packets_taken {V} (f : fate V) : list (list N) := packets_got f ++ perhaps (packet_lost f).
Definition one_at_most {V} (f : fate V) : Prop := packet_lost f = None \/ command_in_doubt f = None.

(** A program and what became of it: the reports it had tell of the packets it got and
    of the commands that were sent.  At most one thing more was done, a packet taken or a
    command sent. *)
Section Ends.
Context (F : features) {V : vendor} {E : Type}.
Definition ended (x : list (operation V * report V E) * fate V) : Prop :=
  received_packets (fst x) = map (uart_result F V) (packets_got (snd x)) /\ one_at_most (snd x).
Definition all_sent (x : list (operation V * report V E) * fate V) : list (command V) :=
  sent_commands (fst x) ++ perhaps (command_in_doubt (snd x)).
Definition split_ended (x : list (operation V * split_report V E) * fate V) : Prop :=
  split_received (fst x) = map (link_result F V) (packets_got (snd x)) /\ one_at_most (snd x).
Definition split_all_sent (x : list (operation V * split_report V E) * fate V) : list (command V) :=
  split_sent (fst x) ++ perhaps (command_in_doubt (snd x)).
End Ends.
