(** * Where the crate and the Bluetooth specification differ (specification).

    The codes and layouts here are those of the Bluetooth specification 5.0. *)
From Verif Require Import Base Model_Types Model_EventBase Model_Event Spec_Wire Spec_Errors.

(** ** PHYs (Vol 2, Part E, 7.7.65.12) *)
Definition core_phy_code (p : phy) : N :=
  match p with Le1M => 1 | Le2M => 2 | LeCoded => 3 end.
Definition phy_update_packet (sb h : N) (tx rx : phy) : list N :=
  framed 0x3E ([0x0C; sb] ++ le 2 h ++ [core_phy_code tx; core_phy_code rx]).

(** ** Entries of an LE Advertising Report (Vol 2, Part E, 7.7.65.2)

    The kinds of addresses: public and random device addresses (0 and 1), and
    since Bluetooth 4.2 public and random identity addresses (2 and 3). *)
Record air_report := {
  ar_type : advertisement_event;
  ar_address_kind : N;
  ar_address : bd_addr;
  ar_data : list N;
  ar_rssi : option Z
}.
Definition air_report_ok (a : air_report) : Prop :=
  ar_address_kind a <= 3 /\ length (ar_address a) = 6%nat /\ bytes (ar_address a)
  /\ bytes (ar_data a) /\ (length (ar_data a) <= 31)%nat
  /\ match ar_rssi a with Some z => is_i8 z /\ z <> 127%Z | None => True end.
Definition air_report_bytes (a : air_report) : list N :=
  [advertisement_event_code (ar_type a); ar_address_kind a] ++ ar_address a
  ++ [N.of_nat (length (ar_data a))] ++ ar_data a ++ [rssi_byte (ar_rssi a)].

(** The value of the crate for it; there is none with an identity address. *)
Definition air_report_value (a : air_report) : option le_advertisement :=
  match ar_address_kind a with
  | 0 => Some (Build_le_advertisement (ar_type a) (BdPublic (ar_address a)) (ar_data a) (ar_rssi a))
  | 1 => Some (Build_le_advertisement (ar_type a) (BdRandom (ar_address a)) (ar_data a) (ar_rssi a))
  | _ => None
  end.

(** Two entries, for the examples. *)
Definition public_entry :=
  Build_air_report AdvScan 0 [1; 2; 3; 4; 5; 6] [2; 1; 6] (Some (-40)%Z).
Definition identity_entry :=
  Build_air_report AdvAdvertisement 2 [6; 5; 4; 3; 2; 1] [] None.
