(** * Following the connections of a controller (specification). *)
From Verif Require Import Base Model_Types Model_Intervals Model_EventBase Model_Command Model_Event Model_Host
  Spec_Wire Spec_Errors Spec_Host Spec_Link Spec_Split Spec_Conform Spec_Pass.
Open Scope list_scope.
Open Scope N_scope.

(** ** The controller

    A connection as the events of the Bluetooth specification describe it. *)
Inductive link_kind :=
| Classic (link : N)             (* 0 SCO, 1 ACL *)
          (peer : list N)        (* address *)
| LowEnergy (role : N)           (* 0 central, 1 peripheral *)
            (peer : list N)      (* kind of address, address *)
            (interval : N)       (* in 1.25 ms *)
            (latency : N)
            (timeout : N).       (* in 10 ms *)
Record connection := { c_handle : N; c_kind : link_kind; c_encrypted : bool }.
Definition with_parameters (interval latency timeout : N) (k : link_kind) : link_kind :=
  match k with
  | Classic _ _ => k
  | LowEnergy role peer _ _ _ => LowEnergy role peer interval latency timeout
  end.

(** An LE event with a status that reports success. *)
Definition le_success (sub : N) (pkt : list N) : bool :=
  (at_ pkt 0 =? 0x3E) && (at_ pkt 2 =? sub) && (at_ pkt 3 =? 0x00).
Definition other_than {A} (handle_of : A -> N) (h : N) (l : list A) : list A :=
  filter (fun x => negb (handle_of x =? h)) l.
Definition changed {A} (handle_of : A -> N) (h : N) (f : A -> A) (l : list A) : list A :=
  map (fun x => if handle_of x =? h then f x else x) l.

(** The connections after what the packet reports: a connection is made, its
    parameters change, it ends, it is encrypted or not; a reset ends all. *)
Definition happened (cs : list connection) (pkt : list N) : list connection :=
  if le_success 0x01 pkt then
    {| c_handle := u16_le pkt 4;
       c_kind := LowEnergy (at_ pkt 6) (slice 7 7 pkt) (u16_le pkt 14) (u16_le pkt 16) (u16_le pkt 18);
       c_encrypted := false |} :: other_than c_handle (u16_le pkt 4) cs
  else if (at_ pkt 0 =? 0x03) && (at_ pkt 2 =? 0x00) then
    {| c_handle := u16_le pkt 3; c_kind := Classic (at_ pkt 11) (slice 5 6 pkt);
       c_encrypted := negb (at_ pkt 12 =? 0) |} :: other_than c_handle (u16_le pkt 3) cs
  else if le_success 0x03 pkt then
    changed c_handle (u16_le pkt 4)
      (fun c => {| c_handle := c_handle c;
                   c_kind := with_parameters (u16_le pkt 6) (u16_le pkt 8) (u16_le pkt 10) (c_kind c);
                   c_encrypted := c_encrypted c |}) cs
  else if (at_ pkt 0 =? 0x05) && (at_ pkt 2 =? 0x00) then other_than c_handle (u16_le pkt 3) cs
  else if (at_ pkt 0 =? 0x08) && (at_ pkt 2 =? 0x00) then
    changed c_handle (u16_le pkt 3)
      (fun c => {| c_handle := c_handle c; c_kind := c_kind c; c_encrypted := negb (at_ pkt 5 =? 0) |}) cs
  else if (at_ pkt 0 =? 0x0E) && (u16_le pkt 3 =? hci_opcode 0x03 0x003) && (at_ pkt 5 =? 0x00) then []
  else cs.

(** Connections and changes with a supervision timeout of 100 ms. *)
Definition hidden (pkt : list N) : bool :=
  (le_success 0x01 pkt && (u16_le pkt 18 =? 10)) || (le_success 0x03 pkt && (u16_le pkt 10 =? 10)).

(** ** The host

    A connection as an application knows it from the events it reads. *)
Inductive known_kind :=
| KnownClassic (link : link_type) (peer : bd_addr)
| KnownLe (role : connection_role) (peer : bd_addr_type) (parameters : fixed_conn_interval).
Record known := { k_handle : N; k_kind : known_kind; k_encrypted : bool }.
Definition with_known_parameters (ci : fixed_conn_interval) (k : known_kind) : known_kind :=
  match k with KnownClassic _ _ => k | KnownLe role peer _ => KnownLe role peer ci end.
Definition follow {V} (ks : list known) (ev : event V) : list known :=
  match ev with
  | EvLeConnectionComplete e =>
      match lcc_status e with
      | Success =>
          {| k_handle := lcc_conn_handle e;
             k_kind := KnownLe (lcc_role e) (lcc_peer_bd_addr e) (lcc_conn_interval e);
             k_encrypted := false |}
          :: other_than k_handle (lcc_conn_handle e) ks
      | _ => ks
      end
  | EvConnectionComplete e =>
      match cnc_status e with
      | Success =>
          {| k_handle := cnc_conn_handle e; k_kind := KnownClassic (cnc_link_type e) (cnc_bd_addr e);
             k_encrypted := cnc_encryption_enabled e |}
          :: other_than k_handle (cnc_conn_handle e) ks
      | _ => ks
      end
  | EvLeConnectionUpdateComplete e =>
      match lcu_status e with
      | Success =>
          changed k_handle (lcu_conn_handle e)
            (fun k => {| k_handle := k_handle k;
                         k_kind := with_known_parameters (lcu_conn_interval e) (k_kind k);
                         k_encrypted := k_encrypted k |}) ks
      | _ => ks
      end
  | EvDisconnectionComplete e =>
      match dsc_status e with
      | Success => other_than k_handle (dsc_conn_handle e) ks
      | _ => ks
      end
  | EvEncryptionChange e =>
      match ech_status e with
      | Success =>
          changed k_handle (ech_conn_handle e)
            (fun k => {| k_handle := k_handle k; k_kind := k_kind k;
                         k_encrypted := match ech_encryption e with EncOff => false | _ => true end |}) ks
      | _ => ks
      end
  | EvCommandComplete e => match cc_return_params e with RetReset Success => [] | _ => ks end
  | _ => ks
  end.

(** The events among the results of the reads in a session. *)
Definition events_read {V E} (log : list (operation V * report V E)) : list (event V) :=
  flat_map (fun x => match x with (_, Received (Ok (PEvent ev))) => [ev] | _ => [] end) log.

Definition split_events_read {V E} (log : list (operation V * split_report V E)) : list (event V) :=
  flat_map (fun x => match x with (_, SplitReceived (Ok ev)) => [ev] | _ => [] end) log.

(** The two agree. *)
Definition same_kind (c : link_kind) (k : known_kind) : Prop :=
  match c, k with
  | Classic link peer, KnownClassic link' peer' => link = link_type_code link' /\ peer = peer'
  | LowEnergy role peer interval latency timeout, KnownLe role' peer' ci =>
      role = role_code role' /\ peer = address_bytes peer'
      /\ fci_interval ci = interval * interval_unit /\ fci_latency ci = latency
      /\ fci_timeout ci = timeout * timeout_unit
  | _, _ => False
  end.
Definition describes (c : connection) (k : known) : Prop :=
  c_handle c = k_handle k /\ same_kind (c_kind c) (k_kind k) /\ c_encrypted c = k_encrypted k.
Definition conforming_packet (F : features) (pkt : list N) : Prop :=
  exists code p, pkt = framed code p /\ conforming F code p.
