(** * Who is connected with whom (specification).

    Between an initiator and an advertiser, as in Spec_Air.v (Vol 6, Part B, 4.3.2, 4.4.4
    and 4.5; Vol 2, Part E, 7.7.65.1 and 7.8.12). *)
From Verif Require Import Base Model_Types Model_Intervals Model_EventBase Model_Command Model_Event Model_Host
  Spec_Wire Spec_Interval Spec_Errors Spec_Host Spec_Link Spec_Split Spec_Device Spec_Air.
Open Scope list_scope.
Open Scope N_scope.

(** ** The controllers *)

(** The address that an initiator uses. *)
Definition initiator_address (public : list N) (d : settings) (i : initiating) : list N :=
  address_used public (ini_own i) d.

(** A controller with settings [d] and one with settings [a] connect: each of the two
    takes the other, by the address that the other one uses. *)
Definition connect (public : list N) (d : settings) (public' : list N) (a : settings) : Prop :=
  attempts d (advertised_as public' a)
  /\ exists i, connecting d = Some i /\ admits a (initiator_address public d i).

(** The event LE Connection Complete: the connection has the latency and the timeout that
    the initiator was given, and an interval in the range that it was given. *)
Definition completed (h role : N) (peer : list N) (interval : N) (i : initiating) (accuracy : N) : list N :=
  framed 0x3E ([0x01; 0x00] ++ le 2 h ++ [role] ++ peer ++ le 2 interval ++ le 2 (ini_latency i)
    ++ le 2 (ini_timeout i) ++ [accuracy]).
(** What the two controllers report, if the connection is [h] to the initiator and [h'] to
    the advertiser, and the clock of the initiator has the accuracy [accuracy].  (The
    advertiser's own clock is not reported: the initiator is told zero.) *)
Definition announced (public : list N) (d : settings) (public' : list N) (a : settings) (h h' interval accuracy : N)
    (to_initiator to_advertiser : list N) : Prop :=
  connect public d public' a
  /\ exists i, connecting d = Some i
     /\ fst (ini_range i) <= interval <= snd (ini_range i)
     /\ to_initiator = completed h 0 (advertised_as public' a) interval i 0
     /\ to_advertiser = completed h' 1 (initiator_address public d i) interval i accuracy.

(** ** The hosts *)
Section Calls.
Context {V : vendor}.
Definition initiates_as (public : bd_addr) (cs : list (command V)) (p : connection_parameters) : bd_addr_type :=
  match cp_own_address_type p with
  | OwnPublic | PrivateFallbackPublic => BdPublic public
  | OwnRandom | PrivateFallbackRandom => BdRandom (wanted_address cs)
  end.
End Calls.

(** The calls [cs] of one host and [cs'] of the other ask for a connection. *)
Definition is_to_connect {V V'} (public : bd_addr) (cs : list (command V)) (public' : bd_addr) (cs' : list (command V')) : Prop :=
  wants_connection cs (address_bytes (known_as public' cs'))
  /\ exists p, wanted_connection cs = Some p /\ allows_connection cs' (address_bytes (initiates_as public cs p)).

(** What both are to be told about the connection: an interval as asked for, in units of
    1.25 ms, and the latency and the timeout asked for, the latter in units of 10 ms. *)
Definition agreed (p : connection_parameters) (interval : N) : fixed_conn_interval :=
  {| fci_interval := interval * interval_unit; fci_latency := ci_latency (cp_conn_interval p);
     fci_timeout := ci_timeout (cp_conn_interval p) / timeout_unit * timeout_unit |}.
(** The interval, of those in the range sent, and the rest are accepted from a controller
    (C60 says when this is so whatever the controller chooses). *)
Definition in_range (p : connection_parameters) (interval : N) : Prop :=
  sent_interval (fst (ci_interval (cp_conn_interval p))) <= interval
  /\ interval <= sent_interval (snd (ci_interval (cp_conn_interval p))).
Definition reportable (p : connection_parameters) (interval : N) : Prop :=
  let timeout := ci_timeout (cp_conn_interval p) / timeout_unit in
  6 <= interval /\ 10 < timeout /\ 2 * (1 + ci_latency (cp_conn_interval p)) * (interval * interval_unit) < timeout * timeout_unit.
