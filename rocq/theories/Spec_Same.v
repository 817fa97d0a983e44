(** * The same application over a UART and over separate links (specification). *)
From Verif Require Import Base Model_Types Model_EventBase Model_Command Model_Event Model_Host
  Spec_Wire Spec_Errors Spec_Host Spec_Link Spec_Split.
Open Scope list_scope.
Open Scope N_scope.

(** ** What arrives

    A byte, and whether it is the first one of a packet.  On a UART the packet
    type of events comes before such a byte. *)
Definition marked : Type := bool * N.
Definition mark (p : list N) : list marked :=
  match p with
  | [] => []
  | b :: rest => (true, b) :: map (fun b => (false, b)) rest
  end.
Definition on_uart (l : list marked) : list N :=
  flat_map (fun x : marked => if fst x then [0x04; snd x] else [snd x]) l.
Definition on_link (l : list marked) : list N := map snd l.

Definition deliver (l : list N) (s : queue) : queue :=
  {| q_received := q_received s ++ l; q_consumed := q_consumed s; q_arrivals := q_arrivals s;
     q_written := q_written s; q_ready := q_ready s |}.

(** ** An application: before each operation, some bytes arrive *)
Definition turn (V : vendor) : Type := list marked * operation V.
Fixpoint uart_turns F V (turns : list (turn V)) (s : queue) : queue * list (report V N) :=
  match turns with
  | [] => (s, [])
  | (l, o) :: turns =>
      let (s, r) := perform F V queue_controller o (deliver (on_uart l) s) in
      let (s, rs) := uart_turns F V turns s in
      (s, r :: rs)
  end.
Fixpoint link_turns F V (turns : list (turn V)) (s : queue) : queue * list (split_report V N) :=
  match turns with
  | [] => (s, [])
  | (l, o) :: turns =>
      let (s, r) := split_perform F V queue_controller o (deliver (on_link l) s) in
      let (s, rs) := link_turns F V turns s in
      (s, r :: rs)
  end.

(** The bytes that arrive are those of packets; the last one may be incomplete. *)
Definition of_packets {V} (turns : list (turn V)) : Prop :=
  exists ps more, Forall event_packet ps /\ flat_map fst turns ++ more = flat_map mark ps.

(** ** What the application sees, without the names of the error types *)
Inductive seen (V : vendor) :=
| SeenCall (r : method_result V N)
| SeenEvent (e : event V)
| SeenNothing
| SeenMalformed (e : event_error (VError V))
| SeenTrouble (e : N)
| SeenForeign (t : N)
| SeenPanic.
Arguments SeenCall {V} r.
Arguments SeenEvent {V} e.
Arguments SeenNothing {V}.
Arguments SeenMalformed {V} e.
Arguments SeenTrouble {V} e.
Arguments SeenForeign {V} t.
Arguments SeenPanic {V}.
Definition uart_seen {V} (r : report V N) : seen V :=
  match r with
  | Sent r => SeenCall r
  | Received (Ok (PEvent e)) => SeenEvent e
  | Received (Err WouldBlock) => SeenNothing
  | Received (Err (Other (UBLE e))) => SeenMalformed e
  | Received (Err (Other (UComm e))) => SeenTrouble e
  | Received (Err (Other (UBadPacketType t))) => SeenForeign t
  | Received Panic => SeenPanic
  end.
Definition link_seen {V} (r : split_report V N) : seen V :=
  match r with
  | SplitSent r => SeenCall r
  | SplitReceived (Ok e) => SeenEvent e
  | SplitReceived (Err WouldBlock) => SeenNothing
  | SplitReceived (Err (Other (LBLE e))) => SeenMalformed e
  | SplitReceived (Err (Other (LComm e))) => SeenTrouble e
  | SplitReceived Panic => SeenPanic
  end.

(** Before the first turn; [ready] says which writes succeed. *)
Definition idle (ready : list readiness) : queue :=
  {| q_received := []; q_consumed := 0; q_arrivals := []; q_written := []; q_ready := ready |}.
