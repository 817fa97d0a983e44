(** * Threads that share a controller (specification). *)
From Verif Require Import Base Model_Types Model_EventBase Model_Command Model_Event Model_Host
  Spec_Wire Spec_Errors Spec_Host Spec_Link Spec_Split.
Open Scope list_scope.
Open Scope N_scope.

(** ** Threads

    What a thread does next depends on the results of the calls it has made so far.  It
    may go on for ever. *)
Definition thread (V : vendor) (R : Type) : Type := list R -> option (operation V).

(** The part of a common record that is about one thread. *)
Definition of_thread {A} (i : nat) (l : list (nat * A)) : list A :=
  flat_map (fun x => if Nat.eqb (fst x) i then [snd x] else []) l.

(** The methods borrow the controller exclusively ([&mut self]), so threads share it with
    a lock.  The schedule says which thread has the lock next.  It makes one call, if it
    wants to, and has its result.  (A thread that keeps the lock for several calls is one
    that has it several times in a row.) *)
Section Share.
Context {V : vendor} {St R : Type} (perform : operation V -> St -> St * R) (threads : nat -> thread V R).
Fixpoint share (schedule : list nat) (log : list (nat * (operation V * R))) (s : St)
    : St * list (nat * (operation V * R)) :=
  match schedule with
  | [] => (s, log)
  | i :: schedule =>
      match threads i (map snd (of_thread i log)) with
      | None => share schedule log s
      | Some o => let (s, r) := perform o s in share schedule (log ++ [(i, (o, r))]) s
      end
  end.
End Share.

(** A thread that made these calls, with these results. *)
Definition follows {V R} (t : thread V R) (log : list (operation V * R)) : Prop :=
  forall before o r after, log = before ++ (o, r) :: after -> t (map snd before) = Some o.

(** Whatever results they get, threads give values of the right types as arguments. *)
Definition typed_thread (F : features) {V R} (t : thread V R) : Prop :=
  forall rs o, t rs = Some o -> typed_operation F o.
(** A thread that never reads. *)
Definition only_sends {V R} (t : thread V R) : Prop := forall rs, t rs <> Some Receive.
