(** * Separate links for commands and events (specification). *)
From Verif Require Import Base Model_Types Model_EventBase Model_Command Model_Event Model_Host
  Spec_Wire Spec_Errors Spec_Host Spec_Link Spec_Retry Spec_Dialogue.
Open Scope list_scope.
Open Scope N_scope.

(** ** Sessions

    Commands are sent over a command link, events are read from an event link;
    the two are handles to one device.  No packet types are on either. *)
Inductive split_report (V : vendor) (E : Type) :=
| SplitSent (r : method_result V E)
| SplitReceived (r : outcome (nb_error (link_error E (VError V))) (event V)).
Arguments SplitSent {V E} r.
Arguments SplitReceived {V E} r.
Definition split_perform {St E} F V (C : controller St E) (o : operation V) (s : St)
    : St * split_report V E :=
  match o with
  | Send c => let (s, r) := run_command F V cmd_link_header C c s in (s, SplitSent r)
  | Receive => let (s, r) := link_read F V C s in (s, SplitReceived r)
  end.
Fixpoint split_session {St E} F V (C : controller St E) (os : list (operation V)) (s : St)
    : St * list (operation V * split_report V E) :=
  match os with
  | [] => (s, [])
  | o :: os =>
      let (s, r) := split_perform F V C o s in
      let (s, rs) := split_session F V C os s in
      (s, (o, r) :: rs)
  end.
Definition split_sent {V E} (log : list (operation V * split_report V E)) : list (command V) :=
  flat_map (fun x => match x with
                     | (Send c, SplitSent r) => if succeeded r then [c] else []
                     | _ => []
                     end) log.
Definition split_received {V E} (log : list (operation V * split_report V E)) :=
  flat_map (fun x => match x with
                     | (_, SplitReceived r) => if link_reports V r then [r] else []
                     | _ => []
                     end) log.

(** A command as bytes on a command link: opcode, length, parameters. *)
Definition link_bytes {V} (c : command V) : list N :=
  le 2 (command_opcode c) ++ [N.of_nat (length (command_params c))] ++ command_params c.

(** A receiver that knows only this format: the commands in a stream of bytes. *)
Fixpoint parse_link_commands_fuel (fuel : nat) (l : list N) : option (list (N * list N)) :=
  match fuel, l with
  | _, [] => Some []
  | S fuel, lo :: hi :: n :: rest =>
      if Nat.leb (N.to_nat n) (length rest) then
        match parse_link_commands_fuel fuel (skipn (N.to_nat n) rest) with
        | Some found => Some ((lo + 256 * hi, firstn (N.to_nat n) rest) :: found)
        | None => None
        end
      else None
  | _, _ => None
  end.
Definition parse_link_commands (l : list N) := parse_link_commands_fuel (length l) l.

(** ** A device that answers, and a host that asks *)
Section Answers.
Context (F : features) (V : vendor).

Inductive link_serves (respond : list N -> list N -> list (list N)) : list N -> list (command V) -> list (answer V) -> Prop :=
| link_serves_none w : link_serves respond w [] []
| link_serves_one w c cs a rest before p after :
    Forall bytes (respond w (link_bytes c)) ->
    concat (respond w (link_bytes c)) = concat (before ++ [p] ++ after) ->
    Forall (unrelated F V) before -> Forall (unrelated F V) after ->
    answered F V (command_opcode c) a p ->
    link_serves respond (w ++ link_bytes c) cs rest ->
    link_serves respond w (c :: cs) (a :: rest).

Context {St E : Type} (C : controller St E).
Fixpoint link_await (op : N) (m n : nat) (s : St) : St * option (answer V) :=
  match n with
  | O => (s, None)
  | S n =>
      let (s', r) := waiting blocked (link_read F V C) m s in
      match r with
      | Some (Ok ev) =>
          match is_answer V op ev with
          | Some a => (s', Some a)
          | None => link_await op m n s'
          end
      | Some (Err _) => link_await op m n s'
      | Some Panic | None => (s', None)
      end
  end.
Definition link_ask (n : nat) (c : command V) (s : St) : St * option (answer V) :=
  let (s', r) := waiting method_blocked (run_command F V cmd_link_header C c) n s in
  match r with
  | Some r => if succeeded r then link_await (command_opcode c) n n s' else (s', None)
  | None => (s', None)
  end.
Fixpoint link_asks (n : nat) (cs : list (command V)) (s : St) : St * list (option (answer V)) :=
  match cs with
  | [] => (s, [])
  | c :: cs =>
      let (s, a) := link_ask n c s in
      let (s, rest) := link_asks n cs s in
      (s, a :: rest)
  end.
End Answers.

(** ** What was seen before the answer

    [p] is a packet that a host takes for an answer, or not. *)
Definition taken_for F V (op : N) (a : answer V) (p : list N) : Prop :=
  exists ev, event_new F V p = Ok ev /\ is_answer V op ev = Some a.
Definition passed_over F V (op : N) (p : list N) : Prop :=
  forall ev, event_new F V p = Ok ev -> is_answer V op ev = None.
(** Between [s] and [s'] exactly [out] was written and the next bytes, [l], were
    consumed. *)
Definition exchanged {St} (h : history St) (s s' : St) (out l : list N) : Prop :=
  possible h s' /\ arrives h s s' /\ (exists more, pending h s s' = l ++ more)
  /\ consumed h s' = (consumed h s + length l)%nat /\ written h s' = written h s ++ out.

(** *** An example: as [example_respond], with the answers over separate links. *)
Definition split_respond (w cmd : list N) : list (list N) :=
  map (fun b => [b])
    (concat
       (match cmd with
        | [0x03; 0x0C; 0] => [[0x77; 0]; [0x0E; 4; 1; 0x03; 0x0C; 0]; [0x10; 1; 0x42]]
        | [0x05; 0x14; 2; lo; hi] => [[0x0E; 3; 1; 0; 0]; [0x0E; 7; 1; 0x05; 0x14; 0; lo; hi; 0xF0]]
        | lo :: hi :: _ => [[0x0F; 4; 0x0C; 1; lo; hi]]
        | _ => []
        end)).
