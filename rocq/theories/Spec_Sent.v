(** * What a conforming host sends (specification).

    The parameters of the supported commands, with their ranges, as the Bluetooth
    specification 5.0 gives them (Vol 2, Part E, 7.1 to 7.8). *)
From Verif Require Import Base Model_Types Model_Intervals Model_EventBase Model_Event Model_Host
  Spec_Wire Spec_Errors Spec_Interval Spec_Host Spec_Conform.
Open Scope list_scope.
Open Scope N_scope.

(** Resolvable private addresses and identity addresses: since version 4.2. *)
Definition privacy (F : features) : bool := version_4_2 F || version_5_0 F.
Definition last_address (F : features) : N := if privacy F then 3 else 1.

Definition disconnect_reasons : list N := [0x05; 0x13; 0x14; 0x15; 0x1A; 0x29; 0x3B].

Definition advertising_parameters_format (F : features) (p : list N) : Prop :=
  exists min max kind own peer addr channels filter,
    kind <= 4 /\ own <= last_address F /\ peer <= 1 /\ length addr = 6%nat /\ bytes addr
    /\ 1 <= channels /\ channels <= 7 /\ filter <= 3
    (* high duty cycle directed advertising does not use the interval *)
    /\ u16 min /\ u16 max
    /\ (kind <> 1 -> 0x0020 <= min /\ min <= max /\ max <= 0x4000)
    (* before 5.0 scannable and non-connectable advertising is slower *)
    /\ (version_5_0 F = false -> kind = 2 \/ kind = 3 -> 0x00A0 <= min)
    /\ p = le 2 min ++ le 2 max ++ [kind; own; peer] ++ addr ++ [channels; filter].

Definition scan_parameters_format (F : features) (p : list N) : Prop :=
  exists kind interval window own filter,
    kind <= 1 /\ 0x0004 <= window /\ window <= interval /\ interval <= 0x4000
    /\ own <= last_address F /\ filter <= (if privacy F then 3 else 1)
    /\ p = [kind] ++ le 2 interval ++ le 2 window ++ [own; filter].

(** Interval, latency and timeout of a connection, then the lengths of its events. *)
Definition connection_timing (p : list N) : Prop :=
  exists min max latency timeout ce_min ce_max,
    0x0006 <= min /\ min <= max /\ max <= 0x0C80 /\ latency <= 0x01F3
    /\ 0x000A <= timeout /\ timeout <= 0x0C80 /\ timeout_suffices max latency timeout
    /\ ce_min <= ce_max /\ ce_max <= 0xFFFF
    /\ p = le 2 min ++ le 2 max ++ le 2 latency ++ le 2 timeout ++ le 2 ce_min ++ le 2 ce_max.

Definition create_connection_format (F : features) (p : list N) : Prop :=
  exists interval window filter peer addr own timing,
    0x0004 <= window /\ window <= interval /\ interval <= 0x4000 /\ filter <= 1
    /\ peer <= last_address F /\ length addr = 6%nat /\ bytes addr /\ own <= last_address F
    /\ connection_timing timing
    /\ p = le 2 interval ++ le 2 window ++ [filter; peer] ++ addr ++ [own] ++ timing.

Definition connection_update_format (p : list N) : Prop :=
  exists h timing, h <= 0x0EFF /\ connection_timing timing /\ p = le 2 h ++ timing.

Definition advertising_data_format (p : list N) : Prop :=
  exists data, (length data <= 31)%nat /\ bytes data /\ p = outbound_data data.

(** An address to add to or to remove from the white list; since 5.0 also anonymous devices. *)
Definition white_list_format (F : features) (p : list N) : Prop :=
  exists kind addr, (kind <= 1 \/ (version_5_0 F = true /\ kind = 0xFF))
    /\ length addr = 6%nat /\ bytes addr /\ p = kind :: addr.

(** At least one of the channels 0 to 36, the other bits clear. *)
Definition channel_classification_format (p : list N) : Prop :=
  length p = 5%nat /\ bytes p /\ only_defined channel_defined (array_bit p)
  /\ exists i, array_bit p i = true.

Definition command_formats (F : features) : list (N * (list N -> Prop)) := [
  (hci_opcode 0x01 0x006 (* Disconnect *),
     fun p => exists h reason, h <= 0x0EFF /\ In reason disconnect_reasons /\ p = le 2 h ++ [reason]);
  (hci_opcode 0x01 0x01D (* Read Remote Version Information *), matches F [Handle]);
  (hci_opcode 0x03 0x001 (* Set Event Mask *), matches F [Octets 8]);
  (hci_opcode 0x03 0x003 (* Reset *), matches F []);
  (hci_opcode 0x03 0x02D (* Read Transmit Power Level *), matches F [Handle; Octet 0 1]);
  (hci_opcode 0x04 0x001 (* Read Local Version Information *), matches F []);
  (hci_opcode 0x04 0x002 (* Read Local Supported Commands *), matches F []);
  (hci_opcode 0x04 0x003 (* Read Local Supported Features *), matches F []);
  (hci_opcode 0x04 0x009 (* Read BD_ADDR *), matches F []);
  (hci_opcode 0x05 0x005 (* Read RSSI *), matches F [Handle]);
  (hci_opcode 0x08 0x001 (* LE Set Event Mask *), matches F [Octets 8]);
  (hci_opcode 0x08 0x002 (* LE Read Buffer Size *), matches F []);
  (hci_opcode 0x08 0x003 (* LE Read Local Supported Features *), matches F []);
  (hci_opcode 0x08 0x005 (* LE Set Random Address *),
     fun p => length p = 6%nat /\ bytes p /\ valid_random_address p = true);
  (hci_opcode 0x08 0x006 (* LE Set Advertising Parameters *), advertising_parameters_format F);
  (hci_opcode 0x08 0x007 (* LE Read Advertising Channel Tx Power *), matches F []);
  (hci_opcode 0x08 0x008 (* LE Set Advertising Data *), advertising_data_format);
  (hci_opcode 0x08 0x009 (* LE Set Scan Response Data *), advertising_data_format);
  (hci_opcode 0x08 0x00A (* LE Set Advertising Enable *), matches F [Octet 0 1]);
  (hci_opcode 0x08 0x00B (* LE Set Scan Parameters *), scan_parameters_format F);
  (hci_opcode 0x08 0x00C (* LE Set Scan Enable *), matches F [Octet 0 1; Octet 0 1]);
  (hci_opcode 0x08 0x00D (* LE Create Connection *), create_connection_format F);
  (hci_opcode 0x08 0x00E (* LE Create Connection Cancel *), matches F []);
  (hci_opcode 0x08 0x00F (* LE Read White List Size *), matches F []);
  (hci_opcode 0x08 0x010 (* LE Clear White List *), matches F []);
  (hci_opcode 0x08 0x011 (* LE Add Device To White List *), white_list_format F);
  (hci_opcode 0x08 0x012 (* LE Remove Device From White List *), white_list_format F);
  (hci_opcode 0x08 0x013 (* LE Connection Update *), connection_update_format);
  (hci_opcode 0x08 0x014 (* LE Set Host Channel Classification *), channel_classification_format);
  (hci_opcode 0x08 0x015 (* LE Read Channel Map *), matches F [Handle]);
  (hci_opcode 0x08 0x016 (* LE Read Remote Features *), matches F [Handle]);
  (hci_opcode 0x08 0x017 (* LE Encrypt *), matches F [Octets 16; Octets 16]);
  (hci_opcode 0x08 0x018 (* LE Rand *), matches F []);
  (hci_opcode 0x08 0x019 (* LE Start Encryption *), matches F [Handle; Octets 8; Octets 2; Octets 16]);
  (hci_opcode 0x08 0x01A (* LE Long Term Key Request Reply *), matches F [Handle; Octets 16]);
  (hci_opcode 0x08 0x01B (* LE Long Term Key Request Negative Reply *), matches F [Handle]);
  (hci_opcode 0x08 0x01C (* LE Read Supported States *), matches F []);
  (hci_opcode 0x08 0x01D (* LE Receiver Test *), matches F [Octet 0 0x27]);
  (hci_opcode 0x08 0x01E (* LE Transmitter Test *),
     matches F [Octet 0 0x27; Octet 0 (if privacy F then 0xFF else 0x25); Octet 0 7]);
  (hci_opcode 0x08 0x01F (* LE Test End *), matches F [])
].
Definition command_conforming (F : features) (op : N) (params : list N) : Prop :=
  match find (fun e => fst e =? op) (command_formats F) with
  | Some e => snd e params
  | None => False
  end.

(** ** Arguments for which the crate does not send such parameters *)

(** A minimum below 8 ms is sent as 6.25 ms; rounding can make the timeout too
    short for the interval. *)
Definition badly_rounded (ci : conn_interval) : Prop :=
  fst (ci_interval ci) < ms 8
  \/ ~ timeout_suffices (sent_interval (snd (ci_interval ci))) (ci_latency ci) (ci_timeout ci / timeout_unit).

Definition nonconforming_arguments {V} (F : features) (c : command V) : Prop :=
  match c with
  | CDisconnect h _ | CReadRemoteVersionInformation h | CReadTxPowerLevel h _ | CReadRssi h
  | CLeReadChannelMap h | CLeReadRemoteUsedFeatures h | CLeLongTermKeyRequestReply h _
  | CLeLongTermKeyRequestNegativeReply h => 0x0EFF < h
  | CLeStartEncryption p => 0x0EFF < enc_conn_handle p
  | CLeConnectionUpdate p => 0x0EFF < cu_conn_handle p \/ badly_rounded (cu_conn_interval p)
  | CLeCreateConnection p => badly_rounded (cp_conn_interval p)
  | CLeSetAdvertisingParameters p =>
      version_5_0 F = false /\ ai_type (ap_interval p) = NonConnectableUndirected
      /\ fst (ai_interval (ap_interval p)) < ms 100
  | _ => False
  end.

(** ** A connection made as the host asked

    Interval, latency and timeout in the parameters of LE Create Connection (from
    byte 13) and LE Connection Update (from byte 2). *)
Record timing := { asked_min : N; asked_max : N; asked_latency : N; asked_timeout : N }.
Definition asked (params : list N) (i : nat) : timing :=
  {| asked_min := u16_le params i; asked_max := u16_le params (i + 2);
     asked_latency := u16_le params (i + 4); asked_timeout := u16_le params (i + 6) |}.

(** The controller chooses an interval and keeps the rest. *)
Definition connected (t : timing) (interval h : N) (role : connection_role) (peer : bd_addr_type)
    (accuracy : clock_accuracy) : list N :=
  framed 0x3E ([0x01; 0x00] ++ le 2 h ++ [role_code role] ++ address_bytes peer ++ le 2 interval
    ++ le 2 (asked_latency t) ++ le 2 (asked_timeout t) ++ [clock_accuracy_code accuracy]).
Definition updated (t : timing) (interval h : N) : list N :=
  framed 0x3E ([0x03; 0x00] ++ update_body h interval (asked_latency t) (asked_timeout t)).

(** The choices that are reported. *)
Definition reported_choice (t : timing) (interval : N) : Prop :=
  0x0006 <= interval /\ 0x000A < asked_timeout t
  /\ timeout_suffices interval (asked_latency t) (asked_timeout t).

(** Enough for every choice to be reported: at least 8 ms, and a timeout of at least 110 ms
    and at least 10 ms longer than necessary. *)
Definition ample (ci : conn_interval) : Prop :=
  ms 8 <= fst (ci_interval ci) /\ ms 110 <= ci_timeout ci
  /\ 2 * (1 + ci_latency ci) * snd (ci_interval ci) + ms 10 <= ci_timeout ci.
