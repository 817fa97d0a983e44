(** * Vendor commands among the others (specification). *)
From Verif Require Import Base Model_Types Model_EventBase Model_Command Model_Event Model_Host Model_VendorCall
  Spec_Wire Spec_Errors Spec_Host Spec_Link Spec_Retry Spec_Dialogue Spec_Split.
Open Scope list_scope.
Open Scope N_scope.

(** What a program does: calls and reads of the crate, and vendor commands. *)
Inductive mixed (V : vendor) := Crate (o : operation V) | VendorCommand (ocf : N) (params : list N).
Arguments Crate {V} o.
Arguments VendorCommand {V} ocf params.
Definition typed_mixed (F : features) {V} (o : mixed V) : Prop :=
  match o with
  | Crate o => typed_operation F o
  | VendorCommand ocf params => ocf < 1024 /\ bytes params /\ (length params <= 255)%nat
  end.
Inductive mixed_report (R E : Type) := CrateReport (r : R) | VendorReport (r : outcome (nb_error E) unit).
Arguments CrateReport {R E} r.
Arguments VendorReport {R E} r.

(** [perform] is that of the transport (Spec_Link.v, Spec_Split.v). *)
Definition mixed_perform {V St E R} (perform : operation V -> St -> St * R) (H : hci_header) (C : controller St E)
    (o : mixed V) (s : St) : St * mixed_report R E :=
  match o with
  | Crate o => let (s, r) := perform o s in (s, CrateReport r)
  | VendorCommand ocf params => let (s, r) := vendor_write H C ocf params s in (s, VendorReport r)
  end.
Fixpoint mixed_session {V St E R} (perform : operation V -> St -> St * R) (H : hci_header) (C : controller St E)
    (os : list (mixed V)) (s : St) : St * list (mixed V * mixed_report R E) :=
  match os with
  | [] => (s, [])
  | o :: os =>
      let (s, r) := mixed_perform perform H C o s in
      let (s, rs) := mixed_session perform H C os s in
      (s, (o, r) :: rs)
  end.
(** What the crate did, of all this. *)
Definition crate_log {V R E} (log : list (mixed V * mixed_report R E)) : list (operation V * R) :=
  flat_map (fun x => match x with (Crate o, CrateReport r) => [(o, r)] | _ => [] end) log.
(** The commands taken, with their parameters; [ok] tells which calls succeeded. *)
Definition taken {V R E} (ok : R -> bool) (log : list (mixed V * mixed_report R E)) : list (N * list N) :=
  flat_map (fun x => match x with
                     | (Crate (Send c), CrateReport r) =>
                         if ok r then [(command_opcode c, command_params c)] else []
                     | (VendorCommand ocf params, VendorReport (Ok _)) => [(hci_opcode 0x3F ocf, params)]
                     | _ => []
                     end) log.
Definition sent_ok {V E} (r : report V E) : bool := match r with Sent r => succeeded r | Received _ => false end.
Definition split_sent_ok {V E} (r : split_report V E) : bool :=
  match r with SplitSent r => succeeded r | SplitReceived _ => false end.
