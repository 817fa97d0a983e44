(** * What is asked of a controller (specification). *)
From Verif Require Import Base Model_Types Model_EventBase Model_Command Model_Event Model_Host
  Spec_Wire Spec_Errors Spec_Host Spec_Link Spec_Split.
Open Scope list_scope.
Open Scope N_scope.

(** A controller that panics at calls nobody should make: it only shows the bytes
    [indices], only reads [least] to [most] bytes, into a buffer of zeros, and only
    writes headers of [header] bytes with at most [payload] bytes of payload. *)
Definition modest {St E} (indices : list nat) (least most header payload : nat) (C : controller St E)
    : controller St E :=
  {| ctl_write := fun s h p =>
       if Nat.eqb (length h) header && Nat.leb (length p) payload then ctl_write C s h p else (s, Panic);
     ctl_read_into := fun s buf =>
       if Nat.leb least (length buf) && Nat.leb (length buf) most && forallb (N.eqb 0) buf
       then ctl_read_into C s buf else (s, Panic);
     ctl_peek := fun s n => if existsb (Nat.eqb n) indices then ctl_peek C s n else (s, Panic) |}.

(** A byte is less than 256. *)
Definition shows_bytes {St E} (C : controller St E) : Prop :=
  forall s n s' b, ctl_peek C s n = (s', Ok b) -> byte b.

(** A controller that counts the calls. *)
Definition counting {St E} (C : controller St E) : controller (St * nat) E :=
  {| ctl_write := fun s h p => let (s', r) := ctl_write C (fst s) h p in ((s', S (snd s)), r);
     ctl_read_into := fun s buf => let (s', r) := ctl_read_into C (fst s) buf in ((s', S (snd s)), r);
     ctl_peek := fun s n => let (s', r) := ctl_peek C (fst s) n in ((s', S (snd s)), r) |}.
Definition sends {V} (o : operation V) : bool := match o with Send _ => true | Receive => false end.
Definition sends_count {V} (os : list (operation V)) : nat := length (filter sends os).
Definition receives_count {V} (os : list (operation V)) : nat := length (filter (fun o => negb (sends o)) os).

(** ** A controller with little memory

    It keeps up to [capacity] bytes that were not yet read; the others wait on the
    other side.  At each call some number of bytes may come, as many as there is
    room for. *)
Record tank := {
  t_received : list N;
  t_consumed : nat;
  t_waiting : list N;    (* on the other side *)
  t_supply : nat -> nat  (* how many bytes may come at each of the next calls *)
}.
Definition t_kept (s : tank) : nat := (length (t_received s) - t_consumed s)%nat.
Definition t_fill (capacity : nat) (s : tank) : tank :=
  let k := Nat.min (t_supply s 0) (capacity - t_kept s) in
  {| t_received := t_received s ++ firstn k (t_waiting s); t_consumed := t_consumed s;
     t_waiting := skipn k (t_waiting s); t_supply := fun i => t_supply s (S i) |}.
Definition t_pending (s : tank) : list N := skipn (t_consumed s) (t_received s).
Definition t_take (n : nat) (s : tank) : tank :=
  {| t_received := t_received s; t_consumed := t_consumed s + n; t_waiting := t_waiting s; t_supply := t_supply s |}.
Definition tank_controller (capacity : nat) : controller tank N :=
  {| ctl_write := fun s header payload => (t_fill capacity s, Err WouldBlock);
     ctl_read_into := fun s buf =>
       let s := t_fill capacity s in
       if Nat.leb (length buf) (length (t_pending s))
       then (t_take (length buf) s, Ok (firstn (length buf) (t_pending s)))
       else (s, Err WouldBlock);
     ctl_peek := fun s n =>
       let s := t_fill capacity s in
       (s, match nth_error (t_pending s) n with Some b => Ok b | None => Err WouldBlock end) |}.
(** At first nothing has come. *)
Definition fresh_tank (stream : list N) (supply : nat -> nat) : tank :=
  {| t_received := []; t_consumed := 0; t_waiting := stream; t_supply := supply |}.
(** Of any [g] calls in a row, at least at one something may come. *)
Definition brings (g : nat) (supply : nat -> nat) : Prop :=
  forall i, exists j, (j < g)%nat /\ (1 <= supply (i + j))%nat.

(** *** An example: the queue, with bytes less than 256; the longest event and the
    longest command. *)
Definition byte_queue : controller queue N :=
  {| ctl_write := ctl_write queue_controller;
     ctl_read_into := ctl_read_into queue_controller;
     ctl_peek := fun s n =>
       let (s', r) := ctl_peek queue_controller s n in
       (s', match r with Ok b => Ok (b mod 256) | Err e => Err e | Panic => Panic end) |}.
Definition longest_event : list N := framed 0x10 (repeat 0x42 255).
Definition longest_queue (stream : list N) : queue :=
  {| q_received := stream; q_consumed := 0; q_arrivals := []; q_written := []; q_ready := [Ready] |}.
