(** * Data packets between commands and events (specification). *)
From Verif Require Import Base Model_Types Model_EventBase Model_Event Model_Host
  Spec_Wire Spec_Errors Spec_Host Spec_Link Spec_Split.
Open Scope list_scope.
Open Scope N_scope.

(** ** Packets on a UART (Vol 4, Part A, 2; Vol 2, Part E, 5.4)

    A packet type comes first: 0x01 for commands, 0x02 for asynchronous data,
    0x03 for synchronous data, 0x04 for events.  Data have a handle (with flags),
    their length (two bytes for asynchronous ones), and then the data. *)
Definition data_packet (w : N * list N) : Prop :=
  exists a b d, byte a /\ byte b /\ bytes d
  /\ ((w = (0x02, [a; b] ++ le 2 (N.of_nat (length d)) ++ d) /\ N.of_nat (length d) < 0x10000)
      \/ (w = (0x03, [a; b] ++ le 1 (N.of_nat (length d)) ++ d) /\ N.of_nat (length d) < 0x100)).
Definition incoming_packet (w : N * list N) : Prop :=
  (fst w = 0x04 /\ event_packet (snd w)) \/ data_packet w.
Definition wire_bytes (w : N * list N) : list N := fst w :: snd w.

(** A receiver that knows only these formats. *)
Definition body_length (t : N) (l : list N) : option nat :=
  match l with
  | a :: b :: rest =>
      if t =? 0x04 then Some (2 + N.to_nat b)%nat
      else
        match rest with
        | c :: rest =>
            if (t =? 0x01) || (t =? 0x03) then Some (3 + N.to_nat c)%nat
            else if t =? 0x02 then
              match rest with d :: _ => Some (4 + N.to_nat (c + 256 * d))%nat | [] => None end
            else None
        | [] => None
        end
  | _ => None
  end.
Fixpoint parse_packets_fuel (fuel : nat) (l : list N) : option (list (N * list N)) :=
  match fuel, l with
  | _, [] => Some []
  | S fuel, t :: l =>
      match body_length t l with
      | Some n =>
          if Nat.leb n (length l) then
            match parse_packets_fuel fuel (skipn n l) with
            | Some found => Some ((t, firstn n l) :: found)
            | None => None
            end
          else None
      | None => None
      end
  | _, _ => None
  end.
Definition parse_packets (l : list N) := parse_packets_fuel (length l) l.

(** ** A program with data

    It reads with [read] of this crate.  If that reports a foreign packet type,
    it asks the controller itself for the length, and takes the packet from it;
    data to send it writes to the controller itself. *)
Section Program.
Context (F : features) (V : vendor) {St E : Type} (C : controller St E).

Definition take_data (t : N) : act St (nb_error E) (list N) :=
  if t =? 0x02 then
    do! lo := (fun s => ctl_peek C s 3) in
    do! hi := (fun s => ctl_peek C s 4) in
    (fun s => ctl_read_into C s (zeros (5 + N.to_nat (lo + 256 * hi))))
  else if t =? 0x03 then
    do! n := (fun s => ctl_peek C s 3) in
    (fun s => ctl_read_into C s (zeros (4 + N.to_nat n)))
  else pure (Err WouldBlock).

Inductive arrival :=
| Reported (r : outcome (nb_error (uart_error E (VError V))) (uart_packet V))
| Data (t : N) (p : list N).
Definition read_any (s : St) : St * option arrival :=
  let (s, r) := uart_read F V C s in
  match r with
  | Err (Other (UBadPacketType t)) =>
      let (s, r) := take_data t s in
      (s, match r with Ok data => Some (Data t (tl data)) | _ => None end)
  | _ => (s, if uart_reports V r then Some (Reported r) else None)
  end.

(** What it is to get. *)
Definition arrives_as (w : N * list N) : arrival :=
  if fst w =? 0x04 then Reported (uart_result F V (snd w)) else Data (fst w) (snd w).

(** Sessions *)
Inductive data_operation := Order (c : command V) | Transmit (w : N * list N) | Fetch.
Inductive data_report :=
| Ordered (r : method_result V E)
| Transmitted (r : outcome (nb_error E) unit)
| Fetched (a : option arrival).
Definition data_perform (o : data_operation) (s : St) : St * data_report :=
  match o with
  | Order c => let (s, r) := run_command F V uart_header C c s in (s, Ordered r)
  | Transmit w => let (s, r) := ctl_write C s [fst w] (snd w) in (s, Transmitted r)
  | Fetch => let (s, a) := read_any s in (s, Fetched a)
  end.
Fixpoint data_session (os : list data_operation) (s : St) : St * list (data_operation * data_report) :=
  match os with
  | [] => (s, [])
  | o :: os =>
      let (s, r) := data_perform o s in
      let (s, log) := data_session os s in
      (s, (o, r) :: log)
  end.
Definition typed_data_operation (o : data_operation) : Prop :=
  match o with
  | Order c => arguments_typed F c
  | Transmit w => data_packet w
  | Fetch => True
  end.

(** The packets it was told were sent, and what it got, in order. *)
Definition put_out (log : list (data_operation * data_report)) : list (N * list N) :=
  flat_map (fun x => match x with
                     | (Order c, Ordered r) => if succeeded r then [(0x01, link_bytes c)] else []
                     | (Transmit w, Transmitted (Ok _)) => [w]
                     | _ => []
                     end) log.
Definition got (log : list (data_operation * data_report)) : list arrival :=
  flat_map (fun x => match x with (_, Fetched (Some a)) => [a] | _ => [] end) log.
End Program.
Arguments Reported {V E} r.
Arguments Data {V E} t p.
Arguments Order {V} c.
Arguments Transmit {V} w.
Arguments Fetch {V}.
Arguments Ordered {V E} r.
Arguments Transmitted {V E} r.
Arguments Fetched {V E} a.

(** *** An example: an event, asynchronous data that come in two pieces, an
    unknown event, synchronous data and the start of an event. *)
Definition data_stream : list (N * list N) :=
  [(0x04, [0x10; 1; 0x42]); (0x02, [0x01; 0x20; 3; 0; 7; 8; 9]); (0x04, [0x77; 0]); (0x03, [0x02; 0x00; 1; 5])].
Definition data_queue : queue :=
  {| q_received := [0x04; 0x10; 1; 0x42; 0x02; 0x01; 0x20; 3]; q_consumed := 0;
     q_arrivals := [[]; []; []; []; []; []; [0; 7; 8]; []; []; []; []; []; [9; 0x04; 0x77; 0; 0x03; 0x02; 0x00; 1; 5; 0x04]]; q_written := [];
     q_ready := [Ready; Busy; Ready; Ready] |}.
