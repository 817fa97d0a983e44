(** * Programs that decide from results what to do next (specification). *)
From Verif Require Import Base Model_Types Model_EventBase Model_Command Model_Event Model_Host
  Spec_Wire Spec_Errors Spec_Host Spec_Link Spec_Split Spec_Retry Spec_Dialogue Spec_Loop.
Open Scope list_scope.
Open Scope N_scope.

(** ** Programs that see the result of each call

    A program has ended with some value, or makes a call and goes on depending on
    its result, whatever that is: [WouldBlock], an error or an event. *)
Inductive program (V : vendor) (R A : Type) :=
| Ends (a : A)
| Calls (o : operation V) (next : R -> program V R A).
Arguments Ends {V R A} a.
Arguments Calls {V R A} o next.

Fixpoint run {V R A St} (perform : operation V -> St -> St * R) (p : program V R A) (s : St) : St * A :=
  match p with
  | Ends a => (s, a)
  | Calls o next => let (s, r) := perform o s in run perform (next r) s
  end.

(** The program makes the calls in the log if it is given the results in it, and
    then ends with [a]. *)
Inductive goes {V R A} : program V R A -> list (operation V * R) -> A -> Prop :=
| goes_ends a : goes (Ends a) [] a
| goes_calls o next r log a : goes (next r) log a -> goes (Calls o next) ((o, r) :: log) a.

(** All arguments are values of their types, whatever the results are. *)
Fixpoint typed_program (F : features) {V R A} (p : program V R A) : Prop :=
  match p with
  | Ends _ => True
  | Calls o next => typed_operation F o /\ forall r, typed_program F (next r)
  end.

(** ** Programs that wait

    A program that uses [nb::block!]: it is told which arguments were refused and
    why, and what was read. *)
Inductive patient (V : vendor) (E A : Type) :=
| Finish (a : A)
| Ask (c : command V) (next : option (host_error E (VStatus V)) -> patient V E A)
| Await (next : message V -> patient V E A).
Arguments Finish {V E A} a.
Arguments Ask {V E A} c next.
Arguments Await {V E A} next.

(** With ideal channels, as in Spec_Loop.v: arguments are refused according to
    the documentation; other commands are answered by the device. *)
Fixpoint ideally {V E A} (decode : list N -> outcome (event_error (VError V)) (event V))
    (reply : list (command V) -> command V -> list (list N))
    (p : patient V E A) (sent : list (command V)) (inbox : list (list N))
    : option (A * list (command V) * list (list N)) :=
  match p with
  | Finish a => Some (a, sent, inbox)
  | Ask c next =>
      match rejection c with
      | Some e => ideally decode reply (next (Some e)) sent inbox
      | None => ideally decode reply (next None) (sent ++ [c]) (inbox ++ reply sent c)
      end
  | Await next =>
      match inbox with
      | [] => None
      | packet :: inbox =>
          match message_of decode packet with
          | Some m => ideally decode reply (next m) sent inbox
          | None => None
          end
      end
  end.

(** With this crate: the program gives up ([None]) if it has to wait too long, and
    if the transport fails. *)
Definition answer_of {V E} (r : method_result V E) : option (option (host_error E (VStatus V))) :=
  match r with
  | Plain (Ok _) | Checked (Ok _) => Some None
  | Checked (Err (Other (HComm _))) => None
  | Checked (Err (Other e)) => Some (Some e)
  | _ => None
  end.
Definition header_ask {St E} F V (C : controller St E) (H : hci_header) (patience : nat) (c : command V) (s : St)
    : St * option (option (host_error E (VStatus V))) :=
  let (s, r) := waiting method_blocked (run_command F V H C c) patience s in
  (s, match r with Some r => answer_of r | None => None end).
Fixpoint wait_run {V E A St} (ask : command V -> St -> St * option (option (host_error E (VStatus V))))
    (get : St -> St * option (message V)) (p : patient V E A) (s : St) : St * option A :=
  match p with
  | Finish a => (s, Some a)
  | Ask c next =>
      let (s, r) := ask c s in
      match r with Some r => wait_run ask get (next r) s | None => (s, None) end
  | Await next =>
      let (s, m) := get s in
      match m with Some m => wait_run ask get (next m) s | None => (s, None) end
  end.
Definition uart_wait_run {St E} F V (C : controller St E) {A} (patience : nat) : patient V E A -> St -> St * option A :=
  wait_run (header_ask F V C uart_header patience) (uart_get F V C patience).
Definition link_wait_run {St E} F V (C : controller St E) {A} (patience : nat) : patient V E A -> St -> St * option A :=
  wait_run (header_ask F V C cmd_link_header patience) (link_get F V C patience).

(** All arguments are values of their types, whatever packets come. *)
Fixpoint typed_patient (F : features) {V E A} (p : patient V E A) : Prop :=
  match p with
  | Finish _ => True
  | Ask c next => arguments_typed F c /\ typed_patient F (next (rejection c))
  | Await next =>
      forall packet m, event_packet packet -> message_of (event_new F V) packet = Some m -> typed_patient F (next m)
  end.

(** *** Examples

    A program that polls three times at most and resets the controller as soon as
    it read a hardware error. *)
Fixpoint polls {V E} (n : nat) : program V (report V E) bool :=
  match n with
  | O => Ends false
  | S n =>
      Calls Receive (fun r =>
        match r with
        | Received (Ok (PEvent (EvHardwareError _))) => Calls (Send CReset) (fun r =>
            match r with Sent (Plain (Ok _)) => Ends true | _ => Ends false end)
        | _ => polls n
        end)
  end.
(** A program that tries advertising data of some lengths until one is accepted,
    then waits for the answer, and ends with the length and the status. *)
Fixpoint tries {V E} (lengths : list nat) : patient V E (option (nat * status (VStatus V))) :=
  match lengths with
  | [] => Finish None
  | n :: lengths =>
      Ask (CLeSetAdvertisingData (repeat 7 n)) (fun refused =>
        match refused with
        | Some _ => tries lengths
        | None => Await (fun m =>
            match m with
            | Event (EvCommandComplete e) =>
                match cc_return_params e with RetLeSetAdvertisingData s => Finish (Some (n, s)) | _ => Finish None end
            | _ => Finish None
            end)
        end)
  end.
(** A device that answers each command, whatever it is, with the status 0x0C
    (command disallowed) for advertising data, in three pieces. *)
Definition denial : list N := [0x0E; 4; 1; 0x08; 0x20; 0x0C].
Definition deny {V} (before : list (command V)) (c : command V) : list (list N) := [denial].
Definition denies_uart (w cmd : list N) : list (list N) := [[0x04; 0x0E]; []; [4; 1; 0x08; 0x20; 0x0C]].
Definition denies_link (w cmd : list N) : list (list N) := [[0x0E]; []; [4; 1; 0x08; 0x20; 0x0C]].
