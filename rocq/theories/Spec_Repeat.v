(** * Asking again for the parameters of a connection (specification). *)
From Verif Require Import Base Model_Types Model_Intervals Model_EventBase Model_Event Model_Host Model_Access
  Spec_Wire Spec_Errors Spec_Interval Spec_Host Spec_Conform Spec_Sent.
Open Scope list_scope.
Open Scope N_scope.

(** Interval, latency and timeout of a connection, in the units of the
    Bluetooth specification, and the report of them. *)
Record link_timing := { lt_interval : N; lt_latency : N; lt_timeout : N }.
Definition timing_report (h : N) (t : link_timing) : list N :=
  framed 0x3E ([0x03; 0x00] ++ update_body h (lt_interval t) (lt_latency t) (lt_timeout t)).

(** What a program does that wants to keep them: read the getters of the event
    and give the results to the builder. *)
Definition ask_again (i : fixed_conn_interval) : outcome conn_interval_error conn_interval :=
  build_after [ WithRange (fci_get_interval i) (fci_get_interval i);
                WithLatency (fci_get_conn_latency i);
                WithTimeout (fci_get_supervision_timeout i) ].

(** One round: the controller reports [t], the host decodes the report and asks
    for these parameters with LE Connection Update, and the controller grants
    what it was asked for: an interval in the range that was sent, with the
    latency and the timeout that were sent. *)
Inductive round F V (h : N) (len : expected_conn_length) : link_timing -> link_timing -> Prop :=
| Round t e ci header params t' :
    event_new F V (timing_report h t) = Ok (EvLeConnectionUpdateComplete e) ->
    ask_again (lcu_conn_interval e) = Ok ci ->
    In (header, params) (sent F V uart_header (CLeConnectionUpdate
      (Build_connection_update_parameters (lcu_conn_handle e) ci len))) ->
    asked_min (asked params 2) <= lt_interval t' -> lt_interval t' <= asked_max (asked params 2) ->
    lt_latency t' = asked_latency (asked params 2) -> lt_timeout t' = asked_timeout (asked params 2) ->
    round F V h len t t'.

(** Any number of rounds. *)
Inductive rounds F V h len : nat -> link_timing -> link_timing -> Prop :=
| Rounds_none t : rounds F V h len 0 t t
| Rounds_more n t t' t'' :
    round F V h len t t' -> rounds F V h len n t' t'' -> rounds F V h len (S n) t t''.

(** Each is a 16 bit field. *)
Definition typed_timing (t : link_timing) : Prop :=
  u16 (lt_interval t) /\ u16 (lt_latency t) /\ u16 (lt_timeout t).

(** The parameters that a connection may have and that are reported (a timeout
    of 100 ms is not, see C58). *)
Definition legal_timing (t : link_timing) : Prop :=
  legal_parameters (lt_interval t) (lt_interval t) (lt_latency t) (lt_timeout t).

(** The same with another interval. *)
Definition with_interval (t : link_timing) (i : N) : link_timing :=
  {| lt_interval := i; lt_latency := lt_latency t; lt_timeout := lt_timeout t |}.
