(** * Runs without an end (specification). *)
From Verif Require Import Base Model_Types Model_EventBase Model_Event Model_Host
  Spec_Wire Spec_Errors Spec_Host Spec_Link Spec_Split Spec_Credit Spec_Data Spec_Window Spec_Turns.
Open Scope list_scope.
Open Scope N_scope.

(** ** Controllers

    One that does not answer WouldBlock if it has the bytes asked for.  It may fail. *)
Record prompt {St E} (C : controller St E) (h : history St) : Prop := {
  prompt_contract : contract C h;
  peek_prompt : forall s n, possible h s -> let (s', r) := ctl_peek C s n in
    (n < length (pending h s s'))%nat -> r <> Err WouldBlock;
  read_prompt : forall s buf, possible h s -> let (s', r) := ctl_read_into C s buf in
    (length buf <= length (pending h s s'))%nat -> r <> Err WouldBlock
}.

(** ** Runs

    The [n]th call is [calls n]; it is made in state [states n] and its result is
    [results n].  A program may choose each call as it likes. *)
Definition endless {St O R : Type} (call : O -> St -> St * R)
    (calls : nat -> O) (states : nat -> St) (results : nat -> R) : Prop :=
  forall n, call (calls n) (states n) = (states (S n), results n).
(** The first [n] calls with their results. *)
Definition until {O R : Type} (calls : nat -> O) (results : nat -> R) (n : nat) : list (O * R) :=
  map (fun k => (calls k, results k)) (seq 0 n).
(** How many of the results from the [n]th on, before the [m]th, are such. *)
Definition times {R : Type} (such : R -> bool) (results : nat -> R) (n m : nat) : nat :=
  length (filter (fun k => such (results k)) (seq n (m - n))).
Definition again_and_again (P : nat -> Prop) : Prop := forall n, exists m, (n <= m)%nat /\ P m.

(** Results of reads in which the transport did not fail. *)
Definition read_went {V E} (r : report V E) : bool :=
  match r with
  | Received (Err (Other (UComm _))) => false
  | Received _ => true
  | Sent _ => false
  end.
Definition split_read_went {V E} (r : split_report V E) : bool :=
  match r with
  | SplitReceived (Err (Other (LComm _))) => false
  | SplitReceived _ => true
  | SplitSent _ => false
  end.
Definition fetch_went {V E} (r : @data_report V E) : bool :=
  match r with Fetched _ => true | _ => false end.

(** ** A controller that goes on

    [d n] is its history when the [n]th call is made.  What is sent gets there, in
    both directions. *)
Definition grows (d : nat -> list device_step) : Prop := forall n, exists x, d (S n) = d n ++ x.
Record connected {St} (h : history St) (states : nat -> St) (d : nat -> list device_step) : Prop := {
  device_grows : grows d;
  commands_on_the_way : forall n, exists rest,
    written h (states n) = written h (states O) ++ flat_map wire_bytes (taken (d n)) ++ rest;
  events_on_the_way : forall n, exists rest,
    flat_map wire_bytes (sent_by (d n)) = pending h (states O) (states n) ++ rest;
  commands_get_there : forall n, exists m more, (n <= m)%nat
    /\ written h (states O) ++ flat_map wire_bytes (taken (d m)) = written h (states n) ++ more;
  events_get_there : forall n, exists m more, (n <= m)%nat
    /\ pending h (states O) (states m) = flat_map wire_bytes (sent_by (d n)) ++ more
}.
(** It is fair (as in C105), each command is answered, and unless there are commands
    to answer, there comes to be room for one. *)
Record goes_on (F : features) {St} (h : history St) (states : nat -> St) (d : nat -> list device_step) : Prop := {
  answers_connected : connected h states d;
  device_fair : forall n, fair F (d n);
  device_usual : forall n, Forall (fun w => reserved_address_commands (snd w) = false) (sent_by (d n));
  answers_come : forall n, exists m, (n <= m)%nat
    /\ how_many is_command (taken (d n)) <= how_many is_reply (sent_by (d m));
  room_comes : forall n, exists m, (n <= m)%nat
    /\ (how_many is_reply (sent_by (d m)) < how_many is_command (taken (d m)) \/ 0 < allowed (d m))
}.
(** It is honest (as in C104), and unless more data come, there comes to be a buffer
    for them. *)
Record frees (F : features) (size number : N) {St} (h : history St) (states : nat -> St) (d : nat -> list device_step) : Prop := {
  buffers_connected : connected h states d;
  device_honest : forall n, honest F size number (d n);
  buffer_comes : forall n, exists m, (n <= m)%nat
    /\ (how_many is_data (taken (d n)) < how_many is_data (taken (d m))
        \/ N.of_nat (length (held (memory_after (d m)))) < number)
}.
(** It is the host's turn (as in C105). *)
Definition may_send {V E} (log : list (data_operation V * @data_report V E)) : Prop :=
  commands_sent log - answers_read log < last_number log.
(** It knows of a buffer for its data (as in C104). *)
Definition may_transmit {V E} (log : list (data_operation V * @data_report V E)) : Prop :=
  exists out size number, outstanding log out /\ limits log = Some (size, number) /\ N.of_nat (length out) < number.

(** ** Examples

    The run in which these calls are made from this state on. *)
Fixpoint states_of {St O R : Type} (call : O -> St -> St * R) (calls : nat -> O) (s : St) (n : nat) : St :=
  match n with
  | O => s
  | S n => fst (call (calls n) (states_of call calls s n))
  end.
Definition results_of {St O R : Type} (call : O -> St -> St * R) (calls : nat -> O) (s : St) (n : nat) : R :=
  snd (call (calls n) (states_of call calls s n)).

(** The queue of C33, but peeks and reads fail where the list says so. *)
Definition shaken {A} (call : queue -> queue * outcome (nb_error N) A) (st : list bool * queue)
    : (list bool * queue) * outcome (nb_error N) A :=
  match st with
  | (true :: later, s) => ((later, s), Err (Other 7))
  | (faults, s) => let (s, r) := call s in ((tl faults, s), r)
  end.
Definition shaky_controller : controller (list bool * queue) N :=
  {| ctl_write := fun st header payload =>
       let (s, r) := ctl_write queue_controller (snd st) header payload in ((fst st, s), r);
     ctl_read_into := fun st buf => shaken (fun s => ctl_read_into queue_controller s buf) st;
     ctl_peek := fun st n => shaken (fun s => ctl_peek queue_controller s n) st |}.
Definition shaky_history : history (list bool * queue) :=
  {| possible := fun st => possible queue_history (snd st); received := fun st => q_received (snd st);
     consumed := fun st => q_consumed (snd st); written := fun st => q_written (snd st) |}.

(** A controller with an answer to all that is written. *)
Definition answering_controller (answer : list N -> list N) : controller queue N :=
  {| ctl_write := fun s header payload =>
       ({| q_received := q_received s ++ answer (header ++ payload); q_consumed := q_consumed s; q_arrivals := q_arrivals s;
           q_written := q_written s ++ header ++ payload; q_ready := q_ready s |}, Ok tt);
     ctl_read_into := ctl_read_into queue_controller;
     ctl_peek := ctl_peek queue_controller |}.
Definition empty_queue : queue := {| q_received := []; q_consumed := 0; q_arrivals := []; q_written := []; q_ready := [] |}.

(** A host that writes and reads in turn, and its device. *)
Definition in_turn {V} (writes : nat -> data_operation V) (n : nat) : data_operation V :=
  if Nat.even n then writes (Nat.div2 n) else Fetch.
Fixpoint answered (packets : nat -> N * list N) (answers : nat -> list N) (k : nat) : list device_step :=
  match k with
  | O => []
  | S k => answered packets answers k ++ [Takes (packets k); Sends (0x04, answers k)]
  end.

(** Reset and its answer, for ever. *)
Definition reset_packet : N * list N := (0x01, [0x03; 0x0C; 0]).
Definition reset_answer : list N := [0x0E; 4; 1; 0x03; 0x0C; 0].
Definition reset_controller : controller queue N := answering_controller (fun _ => uart_frame reset_answer).
Definition reset_calls {V} : nat -> data_operation V := in_turn (fun _ => Order CReset).
Definition reset_device (n : nat) : list device_step := answered (fun _ => reset_packet) (fun _ => reset_answer) (Nat.div2 (S n)).

(** LE Read Buffer Size, answered with one buffer of 27 octets, and then data for
    ever, which are completed. *)
Definition one_buffer_packet (k : nat) : N * list N :=
  match k with O => (0x01, [0x02; 0x20; 0]) | S _ => (0x02, [0x40; 0; 1; 0; 7]) end.
Definition one_buffer_answer (k : nat) : list N :=
  match k with O => [0x0E; 7; 1; 0x02; 0x20; 0; 27; 0; 1] | S _ => [0x13; 5; 1; 0x40; 0; 1; 0] end.
Definition one_buffer_controller : controller queue N :=
  answering_controller (fun l => uart_frame (one_buffer_answer (if nth 0 l 0 =? 0x01 then O else 1%nat))).
Definition one_buffer_calls {V} : nat -> data_operation V :=
  in_turn (fun k => match k with O => Order CLeReadBufferSize | S _ => Transmit (one_buffer_packet k) end).
Definition one_buffer_device (n : nat) : list device_step := answered one_buffer_packet one_buffer_answer (Nat.div2 (S n)).
