(** * Time parameters (specification).

    Durations are total nanoseconds.  Written from the documentation of the
    types in src/types and from the Bluetooth specification. *)
From Verif Require Import Base Model_Types Model_Intervals Spec_Wire.

Definition ms (n : N) : N := n * 1000000.
Definition us (n : N) : N := n * 1000.

(** What the builder and the error enum of the connection interval document. *)
Definition legal_interval (min max latency timeout : N) : Prop :=
  us 7500 <= min /\ min <= max /\ max <= ms 4000 /\ latency <= 499 /\
  ms 100 < timeout /\ 2 * (1 + latency) * max < timeout /\ timeout <= ms 32000.

(** The checks in order, each with the error of its failure. *)
Inductive check (E : Type) := Check (fails : bool) (e : E).
Arguments Check {E}.
Fixpoint first_failure {E} (l : list (check E)) : option E :=
  match l with
  | [] => None
  | Check true e :: _ => Some e
  | Check false _ :: l => first_failure l
  end.

Definition interval_checks (min max latency timeout : N) : list (check conn_interval_error) :=
  let needed := 2 * (1 + latency) * max in
  [ Check (min <? us 7500) (IntervalTooShort min);
    Check (ms 4000 <? max) (IntervalTooLong max);
    Check (max <? min) (IntervalInverted min max);
    Check (499 <? latency) (BadConnectionLatency latency);
    Check (ms 32000 <=? needed) (ImpossibleSupervisionTimeout needed);
    Check (timeout <=? N.max needed (ms 100))
          (SupervisionTimeoutTooShort timeout (N.max needed (ms 100)));
    Check (ms 32000 <? timeout) (SupervisionTimeoutTooLong timeout) ].

(** Calls made on a builder, and the value each field has after them: the last
    one given. *)
Inductive builder_call :=
| WithRange (min max : duration)
| WithLatency (l : N)
| WithTimeout (t : duration).

Fixpoint last_given {A} (pick : builder_call -> option A) (calls : list builder_call)
    (acc : option A) : option A :=
  match calls with
  | [] => acc
  | c :: rest => last_given pick rest (match pick c with Some a => Some a | None => acc end)
  end.
Definition given_range calls :=
  last_given (fun c => match c with WithRange a b => Some (a, b) | _ => None end) calls None.
Definition given_latency calls :=
  last_given (fun c => match c with WithLatency l => Some l | _ => None end) calls None.
Definition given_timeout calls :=
  last_given (fun c => match c with WithTimeout t => Some t | _ => None end) calls None.

(** The same calls on the model of the builder. *)
Definition apply_call (b : ci_builder) (c : builder_call) : ci_builder :=
  match c with
  | WithRange a b' => cib_with_range b a b'
  | WithLatency l => cib_with_latency b l
  | WithTimeout t => cib_with_supervision_timeout b t
  end.
Definition build_after (calls : list builder_call) : outcome conn_interval_error conn_interval :=
  cib_build (fold_left apply_call calls cib_new).

(** The values of the types with private fields that a program can hold. *)
Definition ci_reachable (ci : conn_interval) : Prop :=
  (exists calls, build_after calls = Ok ci)
  \/ (exists bs, bytes bs /\ ci_from_bytes bs = Ok ci).
Definition ecl_reachable (e : expected_conn_length) : Prop :=
  exists min max, duration_ok min /\ duration_ok max /\ ecl_new min max = Ok e.
Definition ai_reachable (F : features) (a : advertising_interval) : Prop :=
  (exists t min max, duration_ok min /\ duration_ok max /\ ai_with_range F t min max = Ok a)
  \/ (exists t, ai_build t = Ok a).
Definition sw_reachable (s : scan_window) : Prop :=
  exists interval window, sw_start_every interval = Ok interval
                       /\ sw_open_for interval window = Ok s.

(** ** What is sent *)

(** The units of 0.625 ms in a duration, rounded down. *)
Definition slot : N := us 625.
Definition slots (d : N) : N := d / slot.

(** What the crate sends for a connection interval: 4/5 of the whole
    milliseconds, rounded down (the units of 1.25 ms would be
    [d / interval_unit]). *)
Definition sent_interval (d : N) : N := 4 * (d / ms 1) / 5.

Definition conn_interval_bytes (ci : conn_interval) : list N :=
  le 2 (sent_interval (fst (ci_interval ci))) ++ le 2 (sent_interval (snd (ci_interval ci)))
  ++ le 2 (ci_latency ci) ++ le 2 (ci_timeout ci / timeout_unit).
Definition expected_length_bytes (e : expected_conn_length) : list N :=
  le 2 (slots (fst (ecl_range e))) ++ le 2 (slots (snd (ecl_range e))).
Definition scan_window_bytes (s : scan_window) : list N :=
  le 2 (slots (sw_interval s)) ++ le 2 (slots (sw_window s)).

(** Advertising types (Vol 2, Part E, 7.8.5). *)
Definition advertising_type_code (t : advertising_type) : N :=
  match t with
  | ConnectableUndirected => 0
  | ConnectableDirectedHighDutyCycle => 1
  | ScannableUndirected => 2
  | NonConnectableUndirected => 3
  | ConnectableDirectedLowDutyCycle => 4
  end.
Definition advertising_interval_bytes (a : advertising_interval) : list N :=
  match ai_type a with
  | ConnectableDirectedHighDutyCycle => [0; 0; 0; 0]
  | _ => le 2 (slots (fst (ai_interval a))) ++ le 2 (slots (snd (ai_interval a)))
  end ++ [advertising_type_code (ai_type a)].

(** A function that writes [payload] at the front of a buffer: it panics exactly
    if the buffer is too short and leaves the rest as it is. *)
Definition writes_front {E} (copy : list N -> outcome E (list N)) (payload : list N) : Prop :=
  forall buf, copy buf = if Nat.leb (length payload) (length buf)
                         then Ok (payload ++ skipn (length payload) buf) else Panic.

(** The same, for a buffer of exactly the right size. *)
Definition writes_exactly {E} (copy : list N -> outcome E (list N)) (payload : list N) : Prop :=
  forall buf, copy buf = if Nat.eqb (length buf) (length payload) then Ok payload else Panic.
