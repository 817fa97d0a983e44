(** * What a conforming controller sends (specification).

    The events and return parameters of the Bluetooth specification 5.0 (Vol 2,
    Part E, 7.7 and 7.8) that the crate supports, as lists of fields with their
    ranges. *)
From Verif Require Import Base Model_Types Model_Event Spec_Wire Spec_Errors Spec_FlagNames Spec_Core
  Spec_Versions.
Open Scope list_scope.
Open Scope N_scope.

(** ** Fields *)
Inductive field :=
| Status                                     (* an assigned error code *)
| Octet (lo hi : N)                          (* one octet, a number in a range *)
| Word (lo hi : N)                           (* two octets, a number in a range *)
| Octets (n : nat)                           (* any octets *)
| Flags (n : nat) (bits : features -> N -> bool). (* octets with assigned bits only *)

(** Assigned error codes: up to 0x40, since version 5.0 up to 0x44. *)
Definition last_status (F : features) : N := if version_5_0 F then 0x44 else 0x40.

Definition field_matches (F : features) (f : field) (bs : list N) : Prop :=
  match f with
  | Status => exists b, b <= last_status F /\ bs = [b]
  | Octet lo hi => exists b, lo <= b /\ b <= hi /\ bs = [b]
  | Word lo hi => exists v, lo <= v /\ v <= hi /\ bs = le 2 v
  | Octets n => length bs = n /\ bytes bs
  | Flags n bits => length bs = n /\ bytes bs /\ only_defined (bits F) (array_bit bs)
  end.
Fixpoint matches (F : features) (fs : list field) (bs : list N) : Prop :=
  match fs with
  | [] => bs = []
  | f :: fs => exists b bs', bs = b ++ bs' /\ field_matches F f b /\ matches F fs bs'
  end.

Definition Handle : field := Word 0 0x0EFF.
Definition Code (b : N) : field := Octet b b.

(** ** Return parameters *)
Definition return_layouts : list (N * list field) := [
  (hci_opcode 0x03 0x001 (* Set Event Mask *), [Status]);
  (hci_opcode 0x03 0x003 (* Reset *), [Status]);
  (hci_opcode 0x03 0x02D (* Read Transmit Power Level *), [Status; Handle; Octets 1]);
  (hci_opcode 0x04 0x001 (* Read Local Version Information *),
     [Status; Octets 1; Octets 2; Octets 1; Octets 2; Octets 2]);
  (hci_opcode 0x04 0x002 (* Read Local Supported Commands *), [Status; Flags 64 assigned_command_bit]);
  (hci_opcode 0x04 0x003 (* Read Local Supported Features *), [Status; Octets 8]);
  (hci_opcode 0x04 0x009 (* Read BD_ADDR *), [Status; Octets 6]);
  (hci_opcode 0x05 0x005 (* Read RSSI *), [Status; Handle; Octets 1]);
  (hci_opcode 0x08 0x001 (* LE Set Event Mask *), [Status]);
  (hci_opcode 0x08 0x002 (* LE Read Buffer Size *), [Status; Octets 2; Octets 1]);
  (hci_opcode 0x08 0x003 (* LE Read Local Supported Features *), [Status; Octets 8]);
  (hci_opcode 0x08 0x005 (* LE Set Random Address *), [Status]);
  (hci_opcode 0x08 0x006 (* LE Set Advertising Parameters *), [Status]);
  (hci_opcode 0x08 0x007 (* LE Read Advertising Channel Tx Power *), [Status; Octets 1]);
  (hci_opcode 0x08 0x008 (* LE Set Advertising Data *), [Status]);
  (hci_opcode 0x08 0x009 (* LE Set Scan Response Data *), [Status]);
  (hci_opcode 0x08 0x00A (* LE Set Advertising Enable *), [Status]);
  (hci_opcode 0x08 0x00B (* LE Set Scan Parameters *), [Status]);
  (hci_opcode 0x08 0x00C (* LE Set Scan Enable *), [Status]);
  (hci_opcode 0x08 0x00E (* LE Create Connection Cancel *), [Status]);
  (hci_opcode 0x08 0x00F (* LE Read White List Size *), [Status; Octets 1]);
  (hci_opcode 0x08 0x010 (* LE Clear White List *), [Status]);
  (hci_opcode 0x08 0x011 (* LE Add Device To White List *), [Status]);
  (hci_opcode 0x08 0x012 (* LE Remove Device From White List *), [Status]);
  (hci_opcode 0x08 0x014 (* LE Set Host Channel Classification *), [Status]);
  (hci_opcode 0x08 0x015 (* LE Read Channel Map *),
     [Status; Handle; Flags 5 (fun _ => channel_defined)]);
  (hci_opcode 0x08 0x017 (* LE Encrypt *), [Status; Octets 16]);
  (hci_opcode 0x08 0x018 (* LE Rand *), [Status; Octets 8]);
  (hci_opcode 0x08 0x01A (* LE Long Term Key Request Reply *), [Status; Handle]);
  (hci_opcode 0x08 0x01B (* LE Long Term Key Request Negative Reply *), [Status; Handle]);
  (hci_opcode 0x08 0x01C (* LE Read Supported States *),
     [Status; Flags 8 (fun _ => le_state_defined)]);
  (hci_opcode 0x08 0x01D (* LE Receiver Test *), [Status]);
  (hci_opcode 0x08 0x01E (* LE Transmitter Test *), [Status]);
  (hci_opcode 0x08 0x01F (* LE Test End *), [Status; Octets 2])
].

(** ** Events of a fixed length whose fields do not depend on each other *)
Definition event_layouts : list (N * list field) := [
  (0x03 (* Connection Complete *), [Status; Handle; Octets 6; Octet 0 1; Octet 0 1]);
  (0x05 (* Disconnection Complete *), [Status; Handle; Status]);
  (0x08 (* Encryption Change *), [Status; Handle; Octet 0 2]);
  (0x0C (* Read Remote Version Information Complete *), [Status; Handle; Octets 1; Octets 2; Octets 2]);
  (0x0F (* Command Status *), [Status; Octets 1; Octets 2]);
  (0x10 (* Hardware Error *), [Octets 1]);
  (0x1A (* Data Buffer Overflow *), [Octet 0 1]);
  (0x30 (* Encryption Key Refresh Complete *), [Status; Handle]);
  (0x3E (* LE Read Remote Features Complete *),
     [Code 0x04; Status; Handle; Flags 8 le_feature_defined]);
  (0x3E (* LE Long Term Key Request *), [Code 0x05; Handle; Octets 8; Octets 2]);
  (0x3E (* LE Data Length Change *),
     [Code 0x07; Handle; Word 0x001B 0x00FB; Word 0x0148 0x4290; Word 0x001B 0x00FB; Word 0x0148 0x4290]);
  (0x3E (* LE PHY Update Complete *), [Code 0x0C; Status; Handle; Octet 1 3; Octet 1 3])
].

(** ** All events *)

(** Supervision timeout in 10 ms, interval in 1.25 ms: more than
    2 (1 + latency) intervals. *)
Definition timeout_suffices (interval latency timeout : N) : Prop :=
  2 * (1 + latency) * interval * 125 < timeout * 1000.
Definition connection_body (h role kind interval latency timeout accuracy : N) (addr : list N) : list N :=
  le 2 h ++ [role; kind] ++ addr ++ le 2 interval ++ le 2 latency ++ le 2 timeout ++ [accuracy].
Definition update_body (h interval latency timeout : N) : list N :=
  le 2 h ++ le 2 interval ++ le 2 latency ++ le 2 timeout.
Definition parameter_ranges (h interval latency timeout : N) : Prop :=
  h <= 0x0EFF /\ 0x0006 <= interval <= 0x0C80 /\ latency <= 0x01F3 /\ 0x000A <= timeout <= 0x0C80
  /\ timeout_suffices interval latency timeout.

(** [conforming F code p]: a controller of the version of [F] may send the event
    [code] with the parameters [p]. *)
Inductive conforming (F : features) : N -> list N -> Prop :=
| conforming_event code fs p : In (code, fs) event_layouts -> matches F fs p -> conforming F code p
| conforming_return n op fs ret : byte n -> In (op, fs) return_layouts -> matches F fs ret ->
    conforming F 0x0E ([n] ++ le 2 op ++ ret)
| conforming_flow n : byte n -> conforming F 0x0E ([n] ++ le 2 0)
| conforming_completed l : (length l <= 63)%nat ->
    Forall (fun x => cpp_conn_handle x <= 0x0EFF /\ u16 (cpp_num_completed_packets x)) l ->
    conforming F 0x13 (N.of_nat (length l) :: flat_map pair_bytes l)
| conforming_reports rs : Forall air_report_ok rs -> (1 <= length rs <= 0x19)%nat ->
    (length (flat_map air_report_bytes rs) <= 253)%nat ->
    conforming F 0x3E ([0x02; N.of_nat (length rs)] ++ flat_map air_report_bytes rs)
| conforming_connection h role kind interval latency timeout accuracy addr :
    parameter_ranges h interval latency timeout -> role <= 1 -> kind <= 1 -> length addr = 6%nat ->
    bytes addr -> accuracy <= 7 ->
    conforming F 0x3E ([0x01; 0x00] ++ connection_body h role kind interval latency timeout accuracy addr)
| conforming_update h interval latency timeout : parameter_ranges h interval latency timeout ->
    conforming F 0x3E ([0x03; 0x00] ++ update_body h interval latency timeout)
  (* the other fields of a failure mean nothing *)
| conforming_failed_connection sb body : 0 < sb -> sb <= last_status F -> length body = 17%nat ->
    bytes body -> conforming F 0x3E ([0x01; sb] ++ body)
| conforming_failed_update sb body : 0 < sb -> sb <= last_status F -> length body = 8%nat ->
    bytes body -> conforming F 0x3E ([0x03; sb] ++ body).

(** ** Those among them that the crate refuses *)
Inductive refused_event : N -> list N -> Prop :=
  (* a supervision timeout of 100 ms *)
| refused_timeout_connection head accuracy : length head = 14%nat ->
    refused_event 0x3E ([0x01; 0x00] ++ head ++ le 2 10 ++ [accuracy])
| refused_timeout_update head : length head = 6%nat ->
    refused_event 0x3E ([0x03; 0x00] ++ head ++ le 2 10)
  (* a failure, if the other fields are not those of a connection *)
| refused_failed_connection sb body : 0 < sb -> length body = 17%nat -> ~ connection_fields_ok body ->
    refused_event 0x3E ([0x01; sb] ++ body)
| refused_failed_update sb body : 0 < sb -> length body = 8%nat -> ~ update_fields_ok body ->
    refused_event 0x3E ([0x03; sb] ++ body)
  (* the coded PHY *)
| refused_phy sb h0 h1 tx rx : tx = 3 \/ rx = 3 -> refused_event 0x3E [0x0C; sb; h0; h1; tx; rx]
  (* a report with an identity address *)
| refused_report count rs : Forall air_report_ok rs -> Exists (fun r => 2 <= ar_address_kind r) rs ->
    refused_event 0x3E ([0x02; count] ++ flat_map air_report_bytes rs)
  (* Set or Delete Reserved LT_ADDR among the supported commands *)
| refused_commands n sb m : (array_bit m (31 * 8 + 4) || array_bit m (31 * 8 + 5))%bool = true ->
    refused_event 0x0E ([n] ++ le 2 (hci_opcode 0x04 0x002) ++ [sb] ++ m).
