(** * Sending and reading at the same time (specification). *)
From Verif Require Import Base Model_Types Model_EventBase Model_Command Model_Event Model_Host
  Spec_Wire Spec_Errors Spec_Host Spec_Link Spec_Split Spec_Live.
Open Scope list_scope.
Open Scope N_scope.

(** ** Two threads

    One thread has the event link and reads; another has the command link and sends.
    Both links lead to one device.  A call that sends uses the transport once (C30), so
    all that matters is which calls of the sender come between which two uses of the
    transport by the reader.  Before each use by the reader, it is the sender's turn: it
    makes any number of calls. *)
Record shared (V : vendor) (St E : Type) := {
  device_state : St;
  sender_turns : nat -> list (command V);
  sender_calls : list (command V * method_result V E);
  reader_writes : list N
}.
Arguments device_state {V St E}.
Arguments sender_turns {V St E}.
Arguments sender_calls {V St E}.
Arguments reader_writes {V St E}.

Section Threads.
Context (F : features) (V : vendor) {St E : Type} (C : controller St E) (h : history St).

Fixpoint sends (cs : list (command V)) (s : St) : St * list (command V * method_result V E) :=
  match cs with
  | [] => (s, [])
  | c :: cs =>
      let (s, r) := run_command F V cmd_link_header C c s in
      let (s, calls) := sends cs s in
      (s, (c, r) :: calls)
  end.
Definition sender_goes (st : shared V St E) : shared V St E :=
  let (s, calls) := sends (sender_turns st O) (device_state st) in
  {| device_state := s; sender_turns := fun n => sender_turns st (S n); sender_calls := sender_calls st ++ calls;
     reader_writes := reader_writes st |}.
Definition after {R} (st : shared V St E) (more : R -> list N) (use : St * R) : shared V St E * R :=
  let (s, r) := use in
  ({| device_state := s; sender_turns := sender_turns st; sender_calls := sender_calls st;
      reader_writes := reader_writes st ++ more r |}, r).
(** The transport as the reader sees it. *)
Definition event_side : controller (shared V St E) E :=
  {| ctl_write := fun st header payload => let st := sender_goes st in
       after st (fun r => match r with Ok _ => header ++ payload | _ => [] end)
         (ctl_write C (device_state st) header payload);
     ctl_read_into := fun st buf => let st := sender_goes st in
       after st (fun _ => []) (ctl_read_into C (device_state st) buf);
     ctl_peek := fun st n => let st := sender_goes st in
       after st (fun _ => []) (ctl_peek C (device_state st) n) |}.
(** Its history: all that the device receives, but only what the reader wrote, which in
    fact is nothing. *)
Definition event_history : history (shared V St E) :=
  {| possible := fun st => possible h (device_state st) /\ forall n, Forall (arguments_typed F) (sender_turns st n);
     received := fun st => received h (device_state st);
     consumed := fun st => consumed h (device_state st);
     written := reader_writes |}.

(** The commands of which the sender was told that they were sent. *)
Definition sender_sent (calls : list (command V * method_result V E)) : list (command V) :=
  flat_map (fun x => if succeeded (snd x) then [fst x] else []) calls.
(** The sender has made the calls [calls]: those of its first turns. *)
Definition first_turns (st : shared V St E) (calls : list (command V * method_result V E)) : Prop :=
  exists m, map fst calls = flat_map (sender_turns st) (seq 0 m).
End Threads.
