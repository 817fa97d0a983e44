(** * Applications and devices that answer each other (specification). *)
From Verif Require Import Base Model_Types Model_EventBase Model_Command Model_Event Model_Host
  Spec_Wire Spec_Errors Spec_Host Spec_Link Spec_Split Spec_Retry Spec_Dialogue.
Open Scope list_scope.
Open Scope N_scope.

(** What an application reads: an event, or the error for a packet that is none. *)
Inductive message (V : vendor) :=
| Event (ev : event V)
| Malformed (e : event_error (VError V)).
Arguments Event {V} ev.
Arguments Malformed {V} e.

Section Loop.
Context {V : vendor} {A : Type}.
(** An application with the state [A]: what it does with a message, and the
    commands it then sends. *)
Variable react : A -> message V -> A * list (command V).

(** ** With ideal channels

    Messages come one after another, and the device, which knows the commands
    before, answers a command with some packets at once.  After [n] messages: the
    state, all commands sent and the packets that are left. *)
Variable decode : list N -> outcome (event_error (VError V)) (event V).
Variable reply : list (command V) -> command V -> list (list N).
Fixpoint replies (before cs : list (command V)) : list (list N) :=
  match cs with
  | [] => []
  | c :: cs => reply before c ++ replies (before ++ [c]) cs
  end.
Definition message_of (p : list N) : option (message V) :=
  match decode p with Ok ev => Some (Event ev) | Err e => Some (Malformed e) | Panic => None end.
Fixpoint ideal (n : nat) (a : A) (sent : list (command V)) (inbox : list (list N))
    : option (A * list (command V) * list (list N)) :=
  match n, inbox with
  | O, _ => Some (a, sent, inbox)
  | S n, [] => None
  | S n, p :: inbox =>
      match message_of p with
      | Some m =>
          let (a, cs) := react a m in
          ideal n a (sent ++ cs) (inbox ++ replies sent cs)
      | None => None
      end
  end.

(** ** With this crate

    The application waits for each message and until each command is taken; it
    gives up ([None]) if that does not happen within some number of attempts, and
    at any other error. *)
Context {St : Type}.
Variable get : St -> St * option (message V).
Variable put : command V -> St -> St * bool.
Fixpoint send_all (cs : list (command V)) (s : St) : St * bool :=
  match cs with
  | [] => (s, true)
  | c :: cs =>
      let (s, ok) := put c s in
      if ok then send_all cs s else (s, false)
  end.
Fixpoint serve (n : nat) (a : A) (s : St) : St * option A :=
  match n with
  | O => (s, Some a)
  | S n =>
      let (s, m) := get s in
      match m with
      | None => (s, None)
      | Some m =>
          let (a, cs) := react a m in
          let (s, ok) := send_all cs s in
          if ok then serve n a s else (s, None)
      end
  end.
End Loop.

Section Transports.
Context (F : features) (V : vendor) {St E : Type} (C : controller St E).
Definition uart_get (patience : nat) (s : St) : St * option (message V) :=
  let (s, r) := waiting blocked (uart_read F V C) patience s in
  (s, match r with
      | Some (Ok (PEvent ev)) => Some (Event ev)
      | Some (Err (Other (UBLE e))) => Some (Malformed e)
      | _ => None
      end).
Definition link_get (patience : nat) (s : St) : St * option (message V) :=
  let (s, r) := waiting blocked (link_read F V C) patience s in
  (s, match r with
      | Some (Ok ev) => Some (Event ev)
      | Some (Err (Other (LBLE e))) => Some (Malformed e)
      | _ => None
      end).
Definition header_put (H : hci_header) (patience : nat) (c : command V) (s : St) : St * bool :=
  let (s, r) := waiting method_blocked (run_command F V H C c) patience s in
  (s, match r with Some r => succeeded r | None => false end).
Definition uart_put : nat -> command V -> St -> St * bool := header_put uart_header.
Definition link_put : nat -> command V -> St -> St * bool := header_put cmd_link_header.
End Transports.

(** A command with accepted arguments. *)
Definition sendable (F : features) {V} (c : command V) : Prop :=
  arguments_typed F c /\ @rejection V N c = None.
(** The application sends only such commands, whatever packets come. *)
Definition sends_valid (F : features) {V A} (react : A -> message V -> A * list (command V)) : Prop :=
  forall a p m, event_packet p -> message_of (event_new F V) p = Some m -> Forall (sendable F) (snd (react a m)).
Definition sends_typed (F : features) {V A} (react : A -> message V -> A * list (command V)) : Prop :=
  forall a p m, event_packet p -> message_of (event_new F V) p = Some m -> Forall (arguments_typed F) (snd (react a m)).
(** The device [respond], which sees and sends bytes, answers like [reply], in
    pieces of any size. *)
Definition chunks_of (F : features) {V} (frame : list N -> list N) (bytes_of : command V -> list N)
    (reply : list (command V) -> command V -> list (list N)) (respond : list N -> list N -> list (list N)) : Prop :=
  forall before c, Forall (sendable F) before -> sendable F c ->
    Forall bytes (respond (flat_map bytes_of before) (bytes_of c))
    /\ concat (respond (flat_map bytes_of before) (bytes_of c)) = flat_map frame (reply before c)
    /\ Forall event_packet (reply before c).

(** *** An example: an application that asks for the signal strength of new
    connections, ends weak ones, and resets the controller when a connection
    ended; it counts what it could not read.  The device announces each ending. *)
Definition example_react {V} (a : nat) (m : message V) : nat * list (command V) :=
  match m with
  | Event (EvLeConnectionComplete e) => (a, [CReadRssi (lcc_conn_handle e mod 65536)])
  | Event (EvCommandComplete e) =>
      match cc_return_params e with
      | RetReadRssi r =>
          (a, if (rssi_rssi r <? -70)%Z then [CDisconnect (rssi_conn_handle r mod 65536) RemoteTerminationByUser] else [])
      | _ => (a, [])
      end
  | Event (EvDisconnectionComplete e) => (a, [CReset])
  | Event _ => (a, [])
  | Malformed _ => (S a, [])
  end.
Definition example_answer (op : N) (params : list N) : list (list N) :=
  if op =? 0x1405 then [[0x77; 0]; framed 0x0E ([1; 0x05; 0x14; 0] ++ firstn 2 params ++ [0xA0])]
  else if op =? 0x0406 then [[0x0F; 4; 0; 1; 0x06; 0x04]; framed 0x05 ([0] ++ firstn 2 params ++ [0x16])]
  else [[0x0E; 4; 1; 0x03; 0x0C; 0]].
Definition example_reply {V} (before : list (command V)) (c : command V) : list (list N) :=
  example_answer (command_opcode c) (command_params c).
Definition loop_uart (w cmd : list N) : list (list N) :=
  match cmd with
  | _ :: lo :: hi :: _ :: params => map (fun b => [b]) (flat_map uart_frame (example_answer (lo + 256 * hi) params))
  | _ => []
  end.
Definition loop_link (w cmd : list N) : list (list N) :=
  match cmd with
  | lo :: hi :: _ :: params => [concat (example_answer (lo + 256 * hi) params)]
  | _ => []
  end.
Definition example_inbox : list (list N) :=
  [[0x3E; 19; 0x01; 0; 1; 2; 0; 0; 1; 2; 3; 4; 5; 6; 6; 0; 0; 0; 0x48; 0; 0]; [0x10; 1; 0x42]].
