(** * What is read from any bytes, however they arrive (specification). *)
From Verif Require Import Base Model_Types Model_EventBase Model_Event Model_Host
  Spec_Wire Spec_Errors Spec_Host Spec_Link Spec_Split.
Open Scope list_scope.
Open Scope N_scope.

(** The whole packets at the start of any bytes, one after the other, up to the
    first thing that is not one.  [extra] bytes of each are not part of the packet. *)
Fixpoint packets_from (front_of : list N -> front) (extra fuel : nat) (l : list N) : list (list N) :=
  match fuel with
  | O => []
  | S fuel =>
      match front_of l with
      | Whole p => p :: packets_from front_of extra fuel (skipn (extra + length p) l)
      | _ => []
      end
  end.
Definition uart_packets_in (l : list N) : list (list N) := packets_from uart_front 1 (length l) l.
Definition link_packets_in (l : list N) : list (list N) := packets_from link_front 0 (length l) l.
(** What comes after them: a packet that is not complete, or not an event. *)
Definition uart_end (l : list N) : front := uart_front (skipn (length (flat_map uart_frame (uart_packets_in l))) l).

(** What an application gets to know of packets, in order: events and reasons why
    there is none. *)
Definition read_of {V E} (log : list (operation V * report V E)) : list (outcome (event_error (VError V)) (event V)) :=
  flat_map (fun x => match x with
                     | (_, Received (Ok (PEvent ev))) => [Ok ev]
                     | (_, Received (Err (Other (UBLE e)))) => [Err e]
                     | (_, Received Panic) => [Panic]
                     | _ => []
                     end) log.
Definition split_read_of {V E} (log : list (operation V * split_report V E))
    : list (outcome (event_error (VError V)) (event V)) :=
  flat_map (fun x => match x with
                     | (_, SplitReceived (Ok ev)) => [Ok ev]
                     | (_, SplitReceived (Err (Other (LBLE e)))) => [Err e]
                     | (_, SplitReceived Panic) => [Panic]
                     | _ => []
                     end) log.

(** One list is the beginning of the other. *)
Definition begins {A} (a b : list A) : Prop := exists more, b = a ++ more.
