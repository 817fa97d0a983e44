(** * Controllers, reads and sessions (specification). *)
From Verif Require Import Base Model_Types Model_EventBase Model_Event Model_Host
  Spec_Wire Spec_Errors Spec_Host.

(** ** The contract of a controller

    What the documentation of trait [Controller] asks for, in terms of a
    history: the bytes received so far, how many of them were consumed, and the
    bytes written, in the states the controller can be in. *)
Record history (St : Type) := {
  possible : St -> Prop;
  received : St -> list N;
  consumed : St -> nat;
  written : St -> list N
}.
Arguments possible {St}.
Arguments received {St}.
Arguments consumed {St}.
Arguments written {St}.

(** More bytes may arrive at any time; those received before do not change. *)
Definition arrives {St} (h : history St) (s s' : St) : Prop :=
  exists more, received h s' = received h s ++ more.

(** Bytes received and not consumed when the call that ended in [s'] was made in
    [s]. *)
Definition pending {St} (h : history St) (s s' : St) : list N :=
  skipn (consumed h s) (received h s').

Record contract {St E} (C : controller St E) (h : history St) : Prop := {
  (** Only bytes are received, and only received bytes are consumed. *)
  received_bytes : forall s, possible h s -> bytes (received h s);
  consumed_received : forall s, possible h s -> (consumed h s <= length (received h s))%nat;
  (** [peek n] shows the [n]th byte to come and consumes nothing. *)
  peek_contract : forall s n, possible h s -> let (s', r) := ctl_peek C s n in
    possible h s'
    /\ arrives h s s' /\ consumed h s' = consumed h s /\ written h s' = written h s
    /\ match r with
       | Ok b => nth_error (pending h s s') n = Some b
       | Err _ => True
       | Panic => False
       end;
  (** [read_into] gives the next bytes in order, as many as the buffer holds;
      without success it consumes nothing. *)
  read_contract : forall s buf, possible h s -> let (s', r) := ctl_read_into C s buf in
    possible h s'
    /\ arrives h s s' /\ written h s' = written h s
    /\ match r with
       | Ok data => (length buf <= length (pending h s s'))%nat
           /\ data = firstn (length buf) (pending h s s')
           /\ consumed h s' = (consumed h s + length buf)%nat
       | Err _ => consumed h s' = consumed h s
       | Panic => False
       end;
  (** [write] sends the header and the payload; without success, nothing. *)
  write_contract : forall s header payload, possible h s ->
    let (s', r) := ctl_write C s header payload in
    possible h s'
    /\ arrives h s s' /\ consumed h s' = consumed h s
    /\ match r with
       | Ok tt => written h s' = written h s ++ header ++ payload
       | Err _ => written h s' = written h s
       | Panic => False
       end
}.

(** A controller that in addition succeeds as soon as it has enough bytes, and
    blocks if it has not. *)
Record buffering {St E} (C : controller St E) (h : history St) : Prop := {
  buffering_contract : contract C h;
  peek_ready : forall s n, possible h s -> let (s', r) := ctl_peek C s n in
    if Nat.ltb n (length (pending h s s')) then exists b, r = Ok b else r = Err WouldBlock;
  read_ready : forall s buf, possible h s -> let (s', r) := ctl_read_into C s buf in
    if Nat.leb (length buf) (length (pending h s s')) then exists data, r = Ok data
    else r = Err WouldBlock
}.

(** Between [s] and [s'] nothing was consumed, nothing was written. *)
Definition nothing {St} (h : history St) (s s' : St) : Prop :=
  possible h s' /\ arrives h s s' /\ consumed h s' = consumed h s /\ written h s' = written h s.
(** Between [s] and [s'] exactly the next bytes, [l], were consumed, nothing was
    written. *)
Definition took {St} (h : history St) (s s' : St) (l : list N) : Prop :=
  possible h s' /\ arrives h s s' /\ (exists more, pending h s s' = l ++ more)
  /\ consumed h s' = (consumed h s + length l)%nat /\ written h s' = written h s.

(** *** Such a controller: bytes arrive in chunks, one chunk at each call, and
    are kept until they are read; writes succeed or not as the list says. *)
Record queue := {
  q_received : list N;
  q_consumed : nat;
  q_arrivals : list (list N);
  q_written : list N;
  q_ready : list readiness
}.
Definition q_arrive (s : queue) : queue :=
  match q_arrivals s with
  | [] => s
  | chunk :: later =>
      {| q_received := q_received s ++ chunk; q_consumed := q_consumed s;
         q_arrivals := later; q_written := q_written s; q_ready := q_ready s |}
  end.
Definition q_pending (s : queue) : list N := skipn (q_consumed s) (q_received s).
Definition q_take (n : nat) (s : queue) : queue :=
  {| q_received := q_received s; q_consumed := q_consumed s + n;
     q_arrivals := q_arrivals s; q_written := q_written s; q_ready := q_ready s |}.
Definition q_write (l : list N) (later : list readiness) (s : queue) : queue :=
  {| q_received := q_received s; q_consumed := q_consumed s;
     q_arrivals := q_arrivals s; q_written := q_written s ++ l; q_ready := later |}.
Definition queue_controller : controller queue N :=
  {| ctl_write := fun s header payload =>
       let s := q_arrive s in
       match q_ready s with
       | Ready :: later => (q_write (header ++ payload) later s, Ok tt)
       | Busy :: later => (q_write [] later s, Err WouldBlock)
       | Broken code :: later => (q_write [] later s, Err (Other code))
       | [] => (s, Err WouldBlock)
       end;
     ctl_read_into := fun s buf =>
       let s := q_arrive s in
       if Nat.leb (length buf) (length (q_pending s))
       then (q_take (length buf) s, Ok (firstn (length buf) (q_pending s)))
       else (s, Err WouldBlock);
     ctl_peek := fun s n =>
       let s := q_arrive s in
       (s, match nth_error (q_pending s) n with Some b => Ok b | None => Err WouldBlock end) |}.
Definition queue_history : history queue :=
  {| possible := fun s => bytes (q_received s) /\ (q_consumed s <= length (q_received s))%nat
                          /\ Forall bytes (q_arrivals s);
     received := q_received; consumed := q_consumed; written := q_written |}.

(** *** An example: two events that arrive in three chunks. *)
Definition example_queue : queue :=
  {| q_received := []; q_consumed := 0;
     q_arrivals := [[0x04; 0x10]; [0x01; 0x42; 0x04; 0x1A; 0x01]; [0x00]];
     q_written := []; q_ready := [Busy; Ready] |}.

(** ** Reads

    [event] parameters of a length that fits make a packet; on a UART a packet
    type comes first. *)
Definition event_packet (p : list N) : Prop :=
  exists code params, p = framed code params /\ byte code /\ bytes params
                      /\ (length params <= 255)%nat.
Definition uart_frame (p : list N) : list N := 0x04 :: p.

(** What a stream of bytes starts with. *)
Inductive front :=
| Incomplete                (* not yet a whole packet *)
| Foreign (packet_type : N) (* not an event *)
| Whole (p : list N).       (* a packet *)
Definition link_front (l : list N) : front :=
  match l with
  | code :: n :: rest =>
      if Nat.leb (N.to_nat n) (length rest) then Whole (code :: n :: firstn (N.to_nat n) rest)
      else Incomplete
  | _ => Incomplete
  end.
Definition uart_front (l : list N) : front :=
  match l with
  | [] => Incomplete
  | t :: l => if t =? 0x04 then link_front l else Foreign t
  end.

Section Reading.
Context (F : features) (V : vendor) {E : Type}.

(** What [read] reports for a packet. *)
Definition uart_result (p : list N) : outcome (nb_error (uart_error E (VError V))) (uart_packet V) :=
  match event_new F V p with
  | Ok ev => Ok (PEvent ev)
  | Err e => Err (Other (UBLE e))
  | Panic => Panic
  end.
Definition link_result (p : list N) : outcome (nb_error (link_error E (VError V))) (event V) :=
  match event_new F V p with
  | Ok ev => Ok ev
  | Err e => Err (Other (LBLE e))
  | Panic => Panic
  end.

(** Results that report a packet, against results that say there is none. *)
Definition uart_reports (r : outcome (nb_error (uart_error E (VError V))) (uart_packet V)) : bool :=
  match r with
  | Ok _ | Err (Other (UBLE _)) | Panic => true
  | Err WouldBlock | Err (Other (UComm _)) | Err (Other (UBadPacketType _)) => false
  end.
Definition link_reports (r : outcome (nb_error (link_error E (VError V))) (event V)) : bool :=
  match r with
  | Ok _ | Err (Other (LBLE _)) | Panic => true
  | Err WouldBlock | Err (Other (LComm _)) => false
  end.
End Reading.

(** The same call several times. *)
Fixpoint repeated {St A : Type} (call : St -> St * A) (n : nat) (s : St) : St * list A :=
  match n with
  | O => (s, [])
  | S n =>
      let (s, r) := call s in
      let (s, rs) := repeated call n s in
      (s, r :: rs)
  end.

(** ** Sessions: commands and reads in any order *)
Inductive operation (V : vendor) := Send (c : command V) | Receive.
Arguments Send {V} c.
Arguments Receive {V}.
Inductive report (V : vendor) (E : Type) :=
| Sent (r : method_result V E)
| Received (r : outcome (nb_error (uart_error E (VError V))) (uart_packet V)).
Arguments Sent {V E} r.
Arguments Received {V E} r.
Definition perform {St E} F V (C : controller St E) (o : operation V) (s : St) : St * report V E :=
  match o with
  | Send c => let (s, r) := run_command F V uart_header C c s in (s, Sent r)
  | Receive => let (s, r) := uart_read F V C s in (s, Received r)
  end.
Fixpoint session {St E} F V (C : controller St E) (os : list (operation V)) (s : St)
    : St * list (operation V * report V E) :=
  match os with
  | [] => (s, [])
  | o :: os =>
      let (s, r) := perform F V C o s in
      let (s, rs) := session F V C os s in
      (s, (o, r) :: rs)
  end.

(** The commands that succeeded, in order; the reports of packets, in order. *)
Definition sent_commands {V E} (log : list (operation V * report V E)) : list (command V) :=
  flat_map (fun x => match x with
                     | (Send c, Sent r) => if succeeded r then [c] else []
                     | _ => []
                     end) log.
Definition received_packets {V E} (log : list (operation V * report V E)) :=
  flat_map (fun x => match x with
                     | (_, Received r) => if uart_reports V r then [r] else []
                     | _ => []
                     end) log.
Definition typed_operation (F : features) {V} (o : operation V) : Prop :=
  match o with Send c => arguments_typed F c | Receive => True end.

(** A command as bytes on a UART. *)
Definition command_bytes {V} (c : command V) : list N :=
  uart_header_bytes (command_opcode c) (length (command_params c)) ++ command_params c.

(** ** Another header

    The controller that gets each header changed by [f]. *)
Definition rewriting {St E} (f : list N -> list N) (C : controller St E) : controller St E :=
  {| ctl_write := fun s header payload => ctl_write C s (f header) payload;
     ctl_read_into := ctl_read_into C;
     ctl_peek := ctl_peek C |}.
