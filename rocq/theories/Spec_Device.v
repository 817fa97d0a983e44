(** * A controller that does as it is told (specification).

    The settings of a controller and how the commands of the Bluetooth
    specification (Vol 2, Part E, 7.3 and 7.8) change them, read from the bytes of
    the command; and what the documentation of the methods of [Hci] says that
    they ask for, in terms of their arguments.  Refusals by the controller are
    left out: it takes every command. *)
From Verif Require Import Base Model_Types Model_Intervals Model_EventBase Model_Command Model_Event Model_Host
  Spec_Wire Spec_Interval Spec_Errors Spec_Host Spec_Pass.
Open Scope list_scope.
Open Scope N_scope.

(** ** Settings *)

(** Times in the units of the specification; policies, types and kinds of
    address by their codes. *)
Record advertising := {
  adv_interval : N * N;
  adv_type : N;
  adv_own : N;
  adv_peer : list N;           (* kind of address, address *)
  adv_channels : N;
  adv_filter : N
}.
Record scanning := {
  scn_type : N;
  scn_interval : N;
  scn_window : N;
  scn_own : N;
  scn_filter : N
}.
Record initiating := {
  ini_interval : N;
  ini_window : N;
  ini_peer : option (list N);  (* [None]: any device of the white list *)
  ini_own : N;
  ini_range : N * N;
  ini_latency : N;
  ini_timeout : N;
  ini_length : N * N
}.
Record settings := {
  event_mask : N;
  le_event_mask : N;
  random_address : list N;
  advertising_with : advertising;
  advertising_data : list N;
  scan_response : list N;
  is_advertising : bool;
  scanning_with : scanning;
  is_scanning : bool;
  filters_duplicates : bool;
  white_list : list (list N);  (* kind of address, address *)
  channels_used : list N;
  connecting : option initiating
}.

Definition with_event_mask x d := Build_settings x (le_event_mask d) (random_address d) (advertising_with d)
  (advertising_data d) (scan_response d) (is_advertising d) (scanning_with d) (is_scanning d)
  (filters_duplicates d) (white_list d) (channels_used d) (connecting d).
Definition with_le_event_mask x d := Build_settings (event_mask d) x (random_address d) (advertising_with d)
  (advertising_data d) (scan_response d) (is_advertising d) (scanning_with d) (is_scanning d)
  (filters_duplicates d) (white_list d) (channels_used d) (connecting d).
Definition with_random_address x d := Build_settings (event_mask d) (le_event_mask d) x (advertising_with d)
  (advertising_data d) (scan_response d) (is_advertising d) (scanning_with d) (is_scanning d)
  (filters_duplicates d) (white_list d) (channels_used d) (connecting d).
Definition with_advertising x d := Build_settings (event_mask d) (le_event_mask d) (random_address d) x
  (advertising_data d) (scan_response d) (is_advertising d) (scanning_with d) (is_scanning d)
  (filters_duplicates d) (white_list d) (channels_used d) (connecting d).
Definition with_advertising_data x d := Build_settings (event_mask d) (le_event_mask d) (random_address d)
  (advertising_with d) x (scan_response d) (is_advertising d) (scanning_with d) (is_scanning d)
  (filters_duplicates d) (white_list d) (channels_used d) (connecting d).
Definition with_scan_response x d := Build_settings (event_mask d) (le_event_mask d) (random_address d)
  (advertising_with d) (advertising_data d) x (is_advertising d) (scanning_with d) (is_scanning d)
  (filters_duplicates d) (white_list d) (channels_used d) (connecting d).
Definition with_is_advertising x d := Build_settings (event_mask d) (le_event_mask d) (random_address d)
  (advertising_with d) (advertising_data d) (scan_response d) x (scanning_with d) (is_scanning d)
  (filters_duplicates d) (white_list d) (channels_used d) (connecting d).
Definition with_scanning x d := Build_settings (event_mask d) (le_event_mask d) (random_address d)
  (advertising_with d) (advertising_data d) (scan_response d) (is_advertising d) x (is_scanning d)
  (filters_duplicates d) (white_list d) (channels_used d) (connecting d).
Definition with_is_scanning x y d := Build_settings (event_mask d) (le_event_mask d) (random_address d)
  (advertising_with d) (advertising_data d) (scan_response d) (is_advertising d) (scanning_with d) x
  y (white_list d) (channels_used d) (connecting d).
Definition with_white_list x d := Build_settings (event_mask d) (le_event_mask d) (random_address d)
  (advertising_with d) (advertising_data d) (scan_response d) (is_advertising d) (scanning_with d)
  (is_scanning d) (filters_duplicates d) x (channels_used d) (connecting d).
Definition with_channels x d := Build_settings (event_mask d) (le_event_mask d) (random_address d)
  (advertising_with d) (advertising_data d) (scan_response d) (is_advertising d) (scanning_with d)
  (is_scanning d) (filters_duplicates d) (white_list d) x (connecting d).
Definition with_connecting x d := Build_settings (event_mask d) (le_event_mask d) (random_address d)
  (advertising_with d) (advertising_data d) (scan_response d) (is_advertising d) (scanning_with d)
  (is_scanning d) (filters_duplicates d) (white_list d) (channels_used d) x.

(** After a reset. *)
Definition after_reset : settings :=
  {| event_mask := 0x00001FFFFFFFFFFF; le_event_mask := 0x1F; random_address := repeat 0 6;
     advertising_with := {| adv_interval := (0x0800, 0x0800); adv_type := 0; adv_own := 0; adv_peer := repeat 0 7;
                            adv_channels := 7; adv_filter := 0 |};
     advertising_data := []; scan_response := []; is_advertising := false;
     scanning_with := {| scn_type := 0; scn_interval := 0x0010; scn_window := 0x0010; scn_own := 0;
                         scn_filter := 0 |};
     is_scanning := false; filters_duplicates := false; white_list := [];
     channels_used := map N.of_nat (seq 0 37); connecting := None |}.

(** The white list is a set. *)
Definition same_entry (x y : list N) : bool := if list_eq_dec N.eq_dec x y then true else false.
Definition enter (x : list N) (l : list (list N)) : list (list N) := if existsb (same_entry x) l then l else x :: l.
Definition strike (x : list N) (l : list (list N)) : list (list N) := filter (fun y => negb (same_entry x y)) l.

(** ** What the controller reads from the bytes of a command *)
Definition carry_out (d : settings) (packet : N * list N) : settings :=
  let (op, p) := packet in
  if op =? hci_opcode 0x03 0x001 then with_event_mask (number_le (slice 0 8 p)) d else
  if op =? hci_opcode 0x03 0x003 then after_reset else
  if op =? hci_opcode 0x08 0x001 then with_le_event_mask (number_le (slice 0 8 p)) d else
  if op =? hci_opcode 0x08 0x005 then with_random_address (slice 0 6 p) d else
  if op =? hci_opcode 0x08 0x006 then
    with_advertising
      {| adv_interval := (u16_le p 0, u16_le p 2); adv_type := at_ p 4; adv_own := at_ p 5;
         adv_peer := slice 6 7 p; adv_channels := at_ p 13; adv_filter := at_ p 14 |} d else
  if op =? hci_opcode 0x08 0x008 then with_advertising_data (slice 1 (N.to_nat (at_ p 0)) p) d else
  if op =? hci_opcode 0x08 0x009 then with_scan_response (slice 1 (N.to_nat (at_ p 0)) p) d else
  if op =? hci_opcode 0x08 0x00A then with_is_advertising (at_ p 0 =? 1) d else
  if op =? hci_opcode 0x08 0x00B then
    with_scanning
      {| scn_type := at_ p 0; scn_interval := u16_le p 1; scn_window := u16_le p 3; scn_own := at_ p 5;
         scn_filter := at_ p 6 |} d else
  if op =? hci_opcode 0x08 0x00C then with_is_scanning (at_ p 0 =? 1) (at_ p 1 =? 1) d else
  if op =? hci_opcode 0x08 0x00D then
    with_connecting (Some
      {| ini_interval := u16_le p 0; ini_window := u16_le p 2;
         ini_peer := if at_ p 4 =? 0 then Some (slice 5 7 p) else None; ini_own := at_ p 12;
         ini_range := (u16_le p 13, u16_le p 15); ini_latency := u16_le p 17; ini_timeout := u16_le p 19;
         ini_length := (u16_le p 21, u16_le p 23) |}) d else
  if op =? hci_opcode 0x08 0x00E then with_connecting None d else
  if op =? hci_opcode 0x08 0x010 then with_white_list [] d else
  if op =? hci_opcode 0x08 0x011 then with_white_list (enter (slice 0 7 p) (white_list d)) d else
  if op =? hci_opcode 0x08 0x012 then with_white_list (strike (slice 0 7 p) (white_list d)) d else
  if op =? hci_opcode 0x08 0x014 then
    with_channels (filter (array_bit (slice 0 5 p)) (map N.of_nat (seq 0 37))) d
  else d.

(** ** What a call asks for *)
Definition any_anonymous : list N := 0xFF :: repeat 0 6.
Definition asked {V} (d : settings) (c : command V) : settings :=
  match c with
  | CReset => after_reset
  | CSetEventMask mask => with_event_mask mask d
  | CLeSetEventMask mask => with_le_event_mask mask d
  | CLeSetRandomAddress a => with_random_address a d
  | CLeSetAdvertisingParameters p =>
      with_advertising
        {| adv_interval :=
             match ai_type (ap_interval p) with
             | ConnectableDirectedHighDutyCycle => (0, 0)     (* has no interval *)
             | _ => (slots (fst (ai_interval (ap_interval p))), slots (snd (ai_interval (ap_interval p))))
             end;
           adv_type := advertising_type_code (ai_type (ap_interval p));
           adv_own := own_address_code (ap_own_address_type p);
           adv_peer := address_bytes (ap_peer_address p);
           adv_channels := ap_channel_map p;
           adv_filter := advertising_filter_code (ap_filter_policy p) |} d
  | CLeSetAdvertisingData data => with_advertising_data data d
  | CLeSetScanResponseData data => with_scan_response data d
  | CLeSetAdvertiseEnable enable | CLeSetAdvertisingEnable enable => with_is_advertising enable d
  | CLeSetScanParameters p =>
      with_scanning
        {| scn_type := scan_type_code (sp_scan_type p);
           scn_interval := slots (sw_interval (sp_scan_window p));
           scn_window := slots (sw_window (sp_scan_window p));
           scn_own := own_address_code (sp_own_address_type p);
           scn_filter := scan_filter_code (sp_filter_policy p) |} d
  | CLeSetScanEnable enable filter_duplicates => with_is_scanning enable filter_duplicates d
  | CLeCreateConnection p =>
      with_connecting (Some
        {| ini_interval := slots (sw_interval (cp_scan_window p));
           ini_window := slots (sw_window (cp_scan_window p));
           ini_peer := match cp_initiator_filter_policy p with
                       | UseAddress => Some (peer_address_bytes (cp_peer_address p))
                       | UseWhiteList => None
                       end;
           ini_own := own_address_code (cp_own_address_type p);
           ini_range := (sent_interval (fst (ci_interval (cp_conn_interval p))),
                         sent_interval (snd (ci_interval (cp_conn_interval p))));
           ini_latency := ci_latency (cp_conn_interval p);
           ini_timeout := ci_timeout (cp_conn_interval p) / timeout_unit;
           ini_length := (slots (fst (ecl_range (cp_expected_connection_length p))),
                          slots (snd (ecl_range (cp_expected_connection_length p)))) |}) d
  | CLeCreateConnectionCancel => with_connecting None d
  | CLeClearWhiteList => with_white_list [] d
  | CLeAddDeviceToWhiteList a => with_white_list (enter (address_bytes a) (white_list d)) d
  | CLeAddAnonAdvertisingDevicesToWhiteList => with_white_list (enter any_anonymous (white_list d)) d
  | CLeRemoveDeviceFromWhiteList a => with_white_list (strike (address_bytes a) (white_list d)) d
  | CLeRemoveAnonAdvertisingDevicesFromWhiteList => with_white_list (strike any_anonymous (white_list d)) d
  | CLeSetHostChannelClassification channels =>
      with_channels (filter (array_bit channels) (map N.of_nat (seq 0 37))) d
  | _ => d
  end.

(** ** Histories of the white list *)

(** The calls that put an entry on the list, and those that take it off. *)
Definition adds {V} (c : command V) : option (list N) :=
  match c with
  | CLeAddDeviceToWhiteList a => Some (address_bytes a)
  | CLeAddAnonAdvertisingDevicesToWhiteList => Some any_anonymous
  | _ => None
  end.
Definition takes_off {V} (x : list N) (c : command V) : Prop :=
  match c with
  | CReset | CLeClearWhiteList => True
  | CLeRemoveDeviceFromWhiteList a => address_bytes a = x
  | CLeRemoveAnonAdvertisingDevicesFromWhiteList => any_anonymous = x
  | _ => False
  end.
(** [x] is put on the list at some point and not taken off afterwards, or it was
    there at the beginning and is not taken off. *)
Definition stays {V} (x : list N) (initial : list (list N)) (cs : list (command V)) : Prop :=
  (In x initial /\ Forall (fun c => ~ takes_off x c) cs)
  \/ exists before c after, cs = before ++ c :: after /\ adds c = Some x
       /\ Forall (fun c => ~ takes_off x c) after.
