(** * Vendor commands.

    The crate has no calls for them: "The vendor crate will have to serialize the
    command packets directly and write them to the [Controller]"
    (src/lib.rs:35-36).  This is the program that does so with the public parts of
    this crate. *)
From Verif Require Import Base Model_Types Model_EventBase Model_Command Model_Event Model_Host.
Open Scope list_scope.
Open Scope N_scope.

(** [Opcode::new(0x3F, ocf)] (src/opcode.rs:9-11), [H::new(opcode, params.len())]
    and [copy_into_slice] with a buffer of [H::HEADER_LENGTH] bytes
    (src/host/mod.rs:42-56), then [Controller::write] (src/lib.rs:126-129). *)
Definition vendor_write (H : hci_header) {St E} (C : controller St E) (ocf : N) (params : list N)
    : act St (nb_error E) unit :=
  do! header := pure (hdr_copy H _ (hdr_new H (opcode_new 0x3F ocf) (length params)) (zeros (hdr_length H))) in
  fun s => ctl_write C s header params.
