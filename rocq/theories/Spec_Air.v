(** * Between two devices (specification).

    What a controller with given settings (Spec_Device.v) sends and answers over
    the air, and what another one tells its host about it (Vol 6, Part B, 4.4;
    Vol 2, Part E, 7.7.65.2, 7.8.5 to 7.8.12); and the same in terms of the
    calls of the hosts.  Without entries in the resolving list, the private
    address types stand for the public and the random address. *)
From Verif Require Import Base Model_Types Model_Intervals Model_EventBase Model_Command Model_Event Model_Host
  Spec_Wire Spec_Errors Spec_Host Spec_Link Spec_Split Spec_Device.
Open Scope list_scope.
Open Scope N_scope.

(** ** The controllers *)

(** Kind of address and address, for a controller with a given public address. *)
Definition address_used (public : list N) (own : N) (d : settings) : list N :=
  if (own =? 0) || (own =? 2) then 0 :: public else 1 :: random_address d.
Definition advertised_as (public : list N) (d : settings) : list N :=
  address_used public (adv_own (advertising_with d)) d.

(** The reports of a scanner that receives the advertisement of a controller,
    and its response to a scan request. *)
Definition is_directed (code : N) : bool := (code =? 1) || (code =? 4).
Definition kind_on_air (code : N) : N := if is_directed code then 1 else code.
Definition one_report (kind : N) (address data : list N) (rssi : N) : list N :=
  framed 0x3E ([0x02; 1; kind] ++ address ++ [N.of_nat (length data)] ++ data ++ [rssi]).
Definition report_of_advertisement (public : list N) (rssi : N) (d : settings) : option (list N) :=
  let code := adv_type (advertising_with d) in
  if is_advertising d then
    Some (one_report (kind_on_air code) (advertised_as public d)
            (if is_directed code then [] else advertising_data d) rssi)
  else None.
Definition report_of_response (public : list N) (rssi : N) (d : settings) : option (list N) :=
  let code := adv_type (advertising_with d) in
  if is_advertising d && ((code =? 0) || (code =? 2)) then
    Some (one_report 4 (advertised_as public d) (scan_response d) rssi)
  else None.

(** A controller tries to connect to the device with address [x]; it lets the
    device with address [x] connect. *)
Definition attempts (d : settings) (x : list N) : Prop :=
  match connecting d with
  | Some i => match ini_peer i with Some peer => peer = x | None => In x (white_list d) end
  | None => False
  end.
Definition admits (d : settings) (x : list N) : Prop :=
  let a := advertising_with d in
  is_advertising d = true
  /\ (if adv_type a =? 0 then (adv_filter a = 0 \/ adv_filter a = 1 \/ In x (white_list d))
      else is_directed (adv_type a) = true /\ adv_peer a = x).

(** ** The hosts

    What the calls since the last reset asked for. *)
Section Calls.
Context {V : vendor}.

Definition latest {A} (f : command V -> option A) (initial : A) (cs : list (command V)) : A :=
  fold_left (fun a c => match f c with Some x => x | None => a end) cs initial.

Definition wants_advertising : list (command V) -> bool :=
  latest (fun c => match c with
                   | CReset => Some false
                   | CLeSetAdvertiseEnable on | CLeSetAdvertisingEnable on => Some on
                   | _ => None
                   end) false.
Definition wanted_parameters : list (command V) -> option advertising_parameters :=
  latest (fun c => match c with
                   | CReset => Some None
                   | CLeSetAdvertisingParameters p => Some (Some p)
                   | _ => None
                   end) None.
Definition wanted_data : list (command V) -> list N :=
  latest (fun c => match c with
                   | CReset => Some []
                   | CLeSetAdvertisingData data => Some data
                   | _ => None
                   end) [].
Definition wanted_response : list (command V) -> list N :=
  latest (fun c => match c with
                   | CReset => Some []
                   | CLeSetScanResponseData data => Some data
                   | _ => None
                   end) [].
Definition wanted_address : list (command V) -> bd_addr :=
  latest (fun c => match c with
                   | CReset => Some (repeat 0 6)
                   | CLeSetRandomAddress a => Some a
                   | _ => None
                   end) (repeat 0 6).
Definition wanted_connection : list (command V) -> option connection_parameters :=
  latest (fun c => match c with
                   | CReset | CLeCreateConnectionCancel => Some None
                   | CLeCreateConnection p => Some (Some p)
                   | _ => None
                   end) None.

(** The defaults of the parameters: connectable and undirected, from the public
    address, for everyone. *)
Definition wanted_type (cs : list (command V)) : advertising_type :=
  match wanted_parameters cs with
  | Some p => ai_type (ap_interval p)
  | None => ConnectableUndirected
  end.
Definition wanted_own (cs : list (command V)) : own_address_type :=
  match wanted_parameters cs with Some p => ap_own_address_type p | None => OwnPublic end.
Definition wanted_filter (cs : list (command V)) : advertising_filter_policy :=
  match wanted_parameters cs with Some p => ap_filter_policy p | None => AllowConnectionAndScan end.

(** The address others know the device by. *)
Definition known_as (public : bd_addr) (cs : list (command V)) : bd_addr_type :=
  match wanted_own cs with
  | OwnPublic | PrivateFallbackPublic => BdPublic public
  | OwnRandom | PrivateFallbackRandom => BdRandom (wanted_address cs)
  end.

(** What a scanner is told. *)
Definition seen_as (t : advertising_type) : advertisement_event :=
  match t with
  | ConnectableUndirected => AdvAdvertisement
  | ConnectableDirectedHighDutyCycle | ConnectableDirectedLowDutyCycle => AdvDirectAdvertisement
  | ScannableUndirected => AdvScan
  | NonConnectableUndirected => AdvNonConnectableAdvertisement
  end.
Definition carries_data (t : advertising_type) : bool :=
  match t with
  | ConnectableDirectedHighDutyCycle | ConnectableDirectedLowDutyCycle => false
  | _ => true
  end.
Definition answers_scans (t : advertising_type) : bool :=
  match t with ConnectableUndirected | ScannableUndirected => true | _ => false end.
(** Signal strength in dBm; 127 stands for unknown. *)
Definition strength (rssi : N) : option Z :=
  if rssi =? 127 then None
  else Some (if rssi <? 128 then Z.of_N rssi else (Z.of_N rssi - 256)%Z).
Definition seen_advertisement (public : bd_addr) (rssi : N) (cs : list (command V)) : le_advertisement :=
  {| la_event_type := seen_as (wanted_type cs);
     la_address := known_as public cs;
     la_data := if carries_data (wanted_type cs) then wanted_data cs else [];
     la_rssi := strength rssi |}.
Definition seen_response (public : bd_addr) (rssi : N) (cs : list (command V)) : le_advertisement :=
  {| la_event_type := AdvScanResponse;
     la_address := known_as public cs;
     la_data := wanted_response cs;
     la_rssi := strength rssi |}.

(** The calls ask to connect to the device known as [x]: it is named in the
    call, or it is on the white list. *)
Definition wants_connection (cs : list (command V)) (x : list N) : Prop :=
  match wanted_connection cs with
  | Some p =>
      match cp_initiator_filter_policy p with
      | UseAddress => peer_address_bytes (cp_peer_address p) = x
      | UseWhiteList => stays x [] cs
      end
  | None => False
  end.
(** The calls allow the device known as [x] to connect. *)
Definition allows_connection (cs : list (command V)) (x : list N) : Prop :=
  wants_advertising cs = true
  /\ match wanted_type cs with
     | ConnectableUndirected =>
         match wanted_filter cs with
         | AllowConnectionAndScan | AllowConnectionWhiteListScan => True
         | WhiteListConnectionAllowScan | WhiteListConnectionAndScan => stays x [] cs
         end
     | ConnectableDirectedHighDutyCycle | ConnectableDirectedLowDutyCycle =>
         match wanted_parameters cs with
         | Some p => address_bytes (ap_peer_address p) = x
         | None => False
         end
     | ScannableUndirected | NonConnectableUndirected => False
     end.
End Calls.

(** A session after which a controller that had been reset has the settings [d]
    and the calls [cs] have succeeded, over a UART or over a command link. *)
Definition told (F : features) (V : vendor) {St E} (C : controller St E) (h : history St)
    (os : list (operation V)) (s : St) (d : settings) (cs : list (command V)) : Prop :=
  (let (s', log) := session F V C os s in
   cs = sent_commands log
   /\ exists stream packets, written h s' = written h s ++ stream
        /\ parse_commands stream = Some packets /\ d = fold_left carry_out packets after_reset)
  \/ (let (s', log) := split_session F V C os s in
      cs = split_sent log
      /\ exists stream packets, written h s' = written h s ++ stream
           /\ parse_link_commands stream = Some packets /\ d = fold_left carry_out packets after_reset).

(** The argument of a connection command for a device that was seen. *)
Definition as_peer (a : bd_addr_type) : peer_addr_type :=
  match a with BdPublic x => PublicDeviceAddress x | BdRandom x => RandomDeviceAddress x end.
