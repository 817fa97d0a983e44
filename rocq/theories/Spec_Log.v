(** * What log texts tell (specification). *)
From Verif Require Import Base Model_Types Model_EventBase Model_Command Model_Event Model_Debug Model_Log
  Spec_Wire Spec_Flags Spec_Debug.
From Coq Require Import String Ascii.
Open Scope list_scope.
Open Scope N_scope.

(** What can come after a text in a larger one: the text ends there, or an
    argument, a list or a struct goes on or ends. *)
Definition closes (r : string) : Prop :=
  r = ""%string
  \/ (exists c t, r = String c t /\ In c [","; ")"; "]"]%char)
  \/ (exists t, r = " }" ++ t)%string.

(** Within a larger text one can see where the text ends and what the value
    was. *)
Definition legible {A} (P : A -> Prop) (show : A -> string) : Prop :=
  forall x y r r', P x -> P y -> closes r -> closes r' ->
    (show x ++ r = show y ++ r')%string -> x = y /\ r = r'.
Definition any {A} (x : A) : Prop := True.

(** This is assumed of the vendor's types. *)
Definition vendor_legible {V} (D : vendor_debug V) : Prop :=
  legible any (show_status D) /\ legible any (show_event D)
  /\ legible any (show_return D) /\ legible any (show_error D).

(** Two events tell the same: they are the same, or their entries are, or they
    list supported commands that agree in the first 39 octets. *)
Inductive tell_same {V} : event V -> event V -> Prop :=
| same_event e : tell_same e e
| same_pairs a b l : iterates (@ncp_next Empty_set a) O l -> iterates (@ncp_next Empty_set b) O l ->
    tell_same (EvNumberOfCompletedPackets a) (EvNumberOfCompletedPackets b)
| same_advertisements a b l : iterates (@lar_next Empty_set a) O l -> iterates (@lar_next Empty_set b) O l ->
    tell_same (EvLeAdvertisingReport a) (EvLeAdvertisingReport b)
| same_first_commands n s f g : (forall i, i < 8 * 39 -> array_bit f i = array_bit g i) ->
    tell_same
      (EvCommandComplete (Build_command_complete n
        (RetReadLocalSupportedCommands (Build_local_supported_commands s f))))
      (EvCommandComplete (Build_command_complete n
        (RetReadLocalSupportedCommands (Build_local_supported_commands s g)))).
