(** * The example in the documentation of [Controller::peek]. *)
From Verif Require Import Base Model_Types Model_EventBase Model_Event Model_Host.
Open Scope list_scope.
Open Scope N_scope.

(** src/lib.rs:297-310.  The result is the buffer, which the example leaves to
    the code after it. *)
Definition documented_read {St E} (C : controller St E) : act St (nb_error E) (list N) :=
  let MAX_EVENT_LENGTH := 255%nat in
  let HEADER_LENGTH := 2%nat in
  let buffer := zeros (MAX_EVENT_LENGTH + HEADER_LENGTH) in
  do! packet_type := (fun st => ctl_peek C st 0) in
  if packet_type =? 4 then
    do! param_len := (fun st => ctl_peek C st 3) in
    read_into_prefix C buffer (HEADER_LENGTH + N.to_nat param_len)
  else pure (Ok buffer).
