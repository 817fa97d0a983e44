(** * Whom a scanner hears (specification).

    Between a scanner and an advertiser, as in Spec_Air.v (Vol 6, Part B, 4.3.2, 4.3.3 and
    4.4.3; Vol 2, Part E, 7.8.10 and 7.8.11). *)
From Verif Require Import Base Model_Types Model_Intervals Model_EventBase Model_Command Model_Event Model_Host
  Spec_Wire Spec_Errors Spec_Host Spec_Link Spec_Split Spec_Device Spec_Air.
Open Scope list_scope.
Open Scope N_scope.

(** ** The controllers *)

(** The address that a scanner uses. *)
Definition scanner_address (public : list N) (d : settings) : list N :=
  address_used public (scn_own (scanning_with d)) d.

(** A scanner with settings [d] takes note of the advertisements of a controller with
    settings [a]: policies 1 and 3 let only those on the white list through, and directed
    advertisements must be addressed to the scanner.  (Policies 2 and 3 also let some of
    those addressed to others through, but these are not reported with the event of C78.) *)
Definition hears (public : list N) (d : settings) (public' : list N) (a : settings) : Prop :=
  is_scanning d = true /\ is_advertising a = true
  /\ (scn_filter (scanning_with d) = 0 \/ scn_filter (scanning_with d) = 2 \/ In (advertised_as public' a) (white_list d))
  /\ (is_directed (adv_type (advertising_with a)) = true -> adv_peer (advertising_with a) = scanner_address public d).
(** It asks for a scan response; the other one answers. *)
Definition scannable (a : settings) : Prop :=
  adv_type (advertising_with a) = 0 \/ adv_type (advertising_with a) = 2.
Definition asks (d a : settings) : Prop := scn_type (scanning_with d) = 1 /\ scannable a.
Definition answers (a : settings) (x : list N) : Prop :=
  scannable a
  /\ (adv_filter (advertising_with a) = 0 \/ adv_filter (advertising_with a) = 2 \/ In x (white_list a)).
(** What the scanner's controller reports to its host. *)
Definition reports (public : list N) (d : settings) (public' : list N) (a : settings) (rssi : N) (packet : list N) : Prop :=
  hears public d public' a
  /\ (report_of_advertisement public' rssi a = Some packet
      \/ asks d a /\ answers a (scanner_address public d) /\ report_of_response public' rssi a = Some packet).

(** ** The hosts *)
Section Calls.
Context {V : vendor}.
Definition wants_scanning : list (command V) -> bool :=
  latest (fun c => match c with
                   | CReset => Some false
                   | CLeSetScanEnable on _ => Some on
                   | _ => None
                   end) false.
Definition wants_no_duplicates : list (command V) -> bool :=
  latest (fun c => match c with
                   | CReset => Some false
                   | CLeSetScanEnable _ no_duplicates => Some no_duplicates
                   | _ => None
                   end) false.
Definition wanted_scan : list (command V) -> option scan_parameters :=
  latest (fun c => match c with
                   | CReset => Some None
                   | CLeSetScanParameters p => Some (Some p)
                   | _ => None
                   end) None.
Definition wanted_scan_type (cs : list (command V)) : scan_type :=
  match wanted_scan cs with Some p => sp_scan_type p | None => Passive end.
Definition wanted_scan_filter (cs : list (command V)) : scan_filter_policy :=
  match wanted_scan cs with Some p => sp_filter_policy p | None => AcceptAll end.
Definition scans_as (public : bd_addr) (cs : list (command V)) : bd_addr_type :=
  match (match wanted_scan cs with Some p => sp_own_address_type p | None => OwnPublic end) with
  | OwnPublic | PrivateFallbackPublic => BdPublic public
  | OwnRandom | PrivateFallbackRandom => BdRandom (wanted_address cs)
  end.
(** Whom directed advertising is for. *)
Definition directed_to (cs : list (command V)) : option bd_addr_type :=
  match wanted_parameters cs with
  | Some p =>
      match ai_type (ap_interval p) with
      | ConnectableDirectedHighDutyCycle | ConnectableDirectedLowDutyCycle => Some (ap_peer_address p)
      | _ => None
      end
  | None => None
  end.
(** The advertiser lets the device known as [x] scan it. *)
Definition allows_scan (cs : list (command V)) (x : list N) : Prop :=
  match wanted_filter cs with
  | AllowConnectionAndScan | WhiteListConnectionAllowScan => True
  | AllowConnectionWhiteListScan | WhiteListConnectionAndScan => stays x [] cs
  end.
End Calls.

(** The calls [cs] of the scanner's host and [cs'] of the advertiser's ask for the
    advertisements, and for the responses, to be seen. *)
Definition is_to_hear {V V'} (public : bd_addr) (cs : list (command V)) (public' : bd_addr) (cs' : list (command V')) : Prop :=
  wants_scanning cs = true /\ wants_advertising cs' = true
  /\ match wanted_scan_filter cs with
     | AcceptAll | AddressedToThisDevice => True
     | ScanWhiteList | WhiteListAddressedToThisDevice => stays (address_bytes (known_as public' cs')) [] cs
     end
  /\ match directed_to cs' with Some a => a = scans_as public cs | None => True end.
Definition is_to_be_answered {V V'} (public : bd_addr) (cs : list (command V)) (cs' : list (command V')) : Prop :=
  wanted_scan_type cs = Active /\ answers_scans (wanted_type cs') = true
  /\ allows_scan cs' (address_bytes (scans_as public cs)).
