(** * Commands and their answers (specification). *)
From Verif Require Import Base Model_Types Model_EventBase Model_Command Model_Event Model_Host
  Spec_Wire Spec_Errors Spec_Host Spec_Link Spec_Retry.
Open Scope list_scope.
Open Scope N_scope.

(** ** A device

    Bytes arrive in chunks and are kept until they are read, as in [queue]; when
    it has taken a command it sends the chunks [respond] says, which may depend
    on everything written before. *)
Definition q_expect (chunks : list (list N)) (s : queue) : queue :=
  {| q_received := q_received s; q_consumed := q_consumed s;
     q_arrivals := q_arrivals s ++ chunks; q_written := q_written s; q_ready := q_ready s |}.
Definition device (respond : list N -> list N -> list (list N)) : controller queue N :=
  {| ctl_write := fun s header payload =>
       let s' := q_arrive s in
       match q_ready s' with
       | Ready :: later =>
           (q_expect (respond (q_written s) (header ++ payload))
              (q_write (header ++ payload) later s'), Ok tt)
       | Busy :: later => (q_write [] later s', Err WouldBlock)
       | Broken code :: later => (q_write [] later s', Err (Other code))
       | [] => (s', Err WouldBlock)
       end;
     ctl_read_into := ctl_read_into queue_controller;
     ctl_peek := ctl_peek queue_controller |}.

(** It takes the next [k] commands, perhaps not at once. *)
Inductive takes : nat -> list readiness -> Prop :=
| takes_none l : takes 0 l
| takes_more k busy l : takes k l -> takes (S k) (repeat Busy busy ++ Ready :: l).

(** ** Answers *)
Inductive answer (V : vendor) : Type :=
| Completed (r : return_parameters V)
| Accepted (s : status (VStatus V)).
Arguments Completed {V} r.
Arguments Accepted {V} s.

Section Answers.
Context (F : features) (V : vendor).

(** The packet [p] answers the command with the opcode [op]. *)
Inductive answered (op : N) : answer V -> list N -> Prop :=
| by_completion n r ret : byte n -> bytes ret -> (3 + length ret < 256)%nat ->
    wire_return F V r op ret ->
    answered op (Completed r) (framed 0x0E ([n] ++ le 2 op ++ ret))
| by_status n sb s : byte n -> byte sb -> status_byte F V sb s ->
    answered op (Accepted s) (framed 0x0F ([sb; n] ++ le 2 op)).

(** A packet that answers no command: any event with another code, whether it
    can be decoded or not, or one of the two that only say how many commands
    may be sent. *)
Definition unrelated (p : list N) : Prop :=
  event_packet p /\ event_new F V p <> Panic
  /\ ((exists code params, p = framed code params /\ code <> 0x0E /\ code <> 0x0F)
      \/ (exists n, p = framed 0x0E ([n] ++ le 2 0))
      \/ (exists sb n, p = framed 0x0F ([sb; n] ++ le 2 0))).

(** The device gives each of the commands [cs] its answer, with unrelated events
    before and after it, in chunks of any size. *)
Inductive serves (respond : list N -> list N -> list (list N)) : list N -> list (command V) -> list (answer V) -> Prop :=
| serves_none w : serves respond w [] []
| serves_one w c cs a rest before p after :
    Forall bytes (respond w (command_bytes c)) ->
    concat (respond w (command_bytes c)) = flat_map uart_frame (before ++ [p] ++ after) ->
    Forall unrelated before -> Forall unrelated after ->
    answered (command_opcode c) a p ->
    serves respond (w ++ command_bytes c) cs rest ->
    serves respond w (c :: cs) (a :: rest).

(** ** A host

    It sends a command, and then reads until it has the answer.  A Command
    Complete without return parameters and a Command Status for another opcode
    are no answers.  [n] limits the attempts; [None] is for having given up, an
    error of the controller or a panic. *)
Context {St E : Type} (C : controller St E).

Definition is_answer (op : N) (ev : event V) : option (answer V) :=
  match ev with
  | EvCommandComplete e =>
      match cc_return_params e with
      | RetSpontaneous => None
      | r => Some (Completed r)
      end
  | EvCommandStatus e => if cst_opcode e =? op then Some (Accepted (cst_status e)) else None
  | _ => None
  end.
Fixpoint await (op : N) (m n : nat) (s : St) : St * option (answer V) :=
  match n with
  | O => (s, None)
  | S n =>
      let (s', r) := waiting blocked (uart_read F V C) m s in
      match r with
      | Some (Ok (PEvent ev)) =>
          match is_answer op ev with
          | Some a => (s', Some a)
          | None => await op m n s'
          end
      | Some (Err _) => await op m n s'
      | Some Panic | None => (s', None)
      end
  end.
Definition ask (n : nat) (c : command V) (s : St) : St * option (answer V) :=
  let (s', r) := waiting method_blocked (run_command F V uart_header C c) n s in
  match r with
  | Some r => if succeeded r then await (command_opcode c) n n s' else (s', None)
  | None => (s', None)
  end.
Fixpoint asks (n : nat) (cs : list (command V)) (s : St) : St * list (option (answer V)) :=
  match cs with
  | [] => (s, [])
  | c :: cs =>
      let (s, a) := ask n c s in
      let (s, rest) := asks n cs s in
      (s, a :: rest)
  end.
End Answers.

(** *** An example: a device that answers Reset and Read RSSI byte by byte, with
    an unknown event and a Hardware Error around the answers, and refuses other
    commands. *)
Definition example_respond (w cmd : list N) : list (list N) :=
  map (fun b => [b])
    (flat_map uart_frame
       (match cmd with
        | [0x01; 0x03; 0x0C; 0] => [[0x77; 0]; [0x0E; 4; 1; 0x03; 0x0C; 0]; [0x10; 1; 0x42]]
        | [0x01; 0x05; 0x14; 2; lo; hi] => [[0x0E; 3; 1; 0; 0]; [0x0E; 7; 1; 0x05; 0x14; 0; lo; hi; 0xF0]]
        | _ :: lo :: hi :: _ => [[0x0F; 4; 0x0C; 1; lo; hi]]
        | _ => []
        end)).
Definition example_device : queue :=
  {| q_received := []; q_consumed := 0; q_arrivals := []; q_written := [];
     q_ready := [Busy; Ready; Ready; Busy; Busy; Ready] |}.
