(** * Reports made from advertisements (specification). *)
From Verif Require Import Base Model_Types Model_Event Spec_Wire.

(** What the types say: an address is 6 bytes, data is bytes, an RSSI is an [i8]. *)
Definition advertisement_typed (a : le_advertisement) : Prop :=
  match la_address a with BdPublic x | BdRandom x => length x = 6%nat /\ bytes x end
  /\ bytes (la_data a)
  /\ match la_rssi a with Some z => is_i8 z | None => True end.

(** The bytes of a report that an advertisement takes: type, kind of address,
    address, length of the data, data and RSSI. *)
Definition advertisement_size (a : le_advertisement) : nat := 1 + 1 + 6 + 1 + length (la_data a) + 1.
Definition report_size (l : list le_advertisement) : nat :=
  list_sum (map advertisement_size l).

(** What a report can hold: 255 parameters without subevent code and count. *)
Definition report_room : nat := 255 - 1 - 1.

(** 127 stands for "not available". *)
Definition rssi_on_the_wire (r : option Z) : option Z :=
  match r with Some z => if (z =? 127)%Z then None else Some z | None => None end.
Definition as_reported (a : le_advertisement) : le_advertisement :=
  Build_le_advertisement (la_event_type a) (la_address a) (la_data a) (rssi_on_the_wire (la_rssi a)).
