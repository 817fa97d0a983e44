(** * The hand-written [Debug] implementations, and the derived ones they use.

    The output of [{:?}] (without [#]) as a string. *)
From Verif Require Import Base Model_Types Model_Event Model_Command Model_Host.
From Coq Require Import String Ascii DecimalString.
Open Scope list_scope.
Open Scope N_scope.
Open Scope string_scope.

(** [Debug] of unsigned and signed integers in core: decimal digits, no padding
    (used in src/event/command.rs:1042). *)
Definition debug_uint (n : N) : string := NilEmpty.string_of_uint (N.to_uint n).
Definition debug_int (z : Z) : string :=
  (if (z <? 0)%Z then "-" else "") ++ debug_uint (Z.to_N (Z.abs z)).

(** [{:X?}] of a [u8]: upper case hexadecimal digits, no padding (used in
    src/event/command.rs:1492 and src/host/mod.rs:2134). *)
Definition hex_digit (n : N) : string :=
  match nth_error ["0"; "1"; "2"; "3"; "4"; "5"; "6"; "7"; "8"; "9"; "A"; "B"; "C"; "D"; "E"; "F"]
          (N.to_nat n) with Some s => s | None => "" end.
Definition debug_hex (b : N) : string :=
  if (b <? 16)%N then hex_digit b else hex_digit (b / 16) ++ hex_digit (b mod 16).

(** [Debug] of slices and arrays in core, and what [writeln!] appends (used in
    src/event/command.rs:1042). *)
Definition debug_list (show : N -> string) (l : list N) : string :=
  "[" ++ concat ", " (map show l) ++ "]".
Definition newline : string := String "010" "".

(** src/event/command.rs:1040-1046, [Debug for CommandFlags]; [self.0] has 64
    bytes. *)
Definition debug_command_flags {E} (flags : list N) : outcome E string :=
  let! a := slice flags 0 16 in
  let! b := slice flags 16 32 in
  let! c := slice flags 32 39 in
  Ok (debug_list debug_uint a ++ newline
      ++ debug_list debug_uint b ++ newline
      ++ debug_list debug_uint c ++ newline).

(** src/event/command.rs:1490-1494, [Debug for EncryptedBlock]. *)
Definition debug_encrypted_block (b : list N) : string :=
  "AES-128 Encrypted Data (" ++ debug_list debug_hex b ++ ")" ++ newline.

(** src/host/mod.rs:2132-2136, [Debug for EncryptionKey]. *)
Definition debug_encryption_key (k : list N) : string :=
  "AES-128 Key (" ++ debug_list debug_hex k ++ ")".

(** src/host/mod.rs:2144-2148, [Debug for PlaintextBlock]. *)
Definition debug_plaintext_block (p : list N) : string := "AES-128 Plaintext (REDACTED)".

(** src/host/mod.rs:2111, derived for [AesParameters]. *)
Definition debug_aes_parameters (p : aes_parameters) : string :=
  "AesParameters { key: " ++ debug_encryption_key (aes_key p)
  ++ ", plaintext_data: " ++ debug_plaintext_block (aes_plaintext_data p) ++ " }".

(** [for x in iter { write!(f, "{:?}", x)?; }], with the braces around it
    (src/event/mod.rs:670-676 and 994-1000).  [None] means that the loop did not
    end within [fuel] iterations. *)
Fixpoint debug_loop {E St A} (fuel : nat) (next : St -> outcome E (option A * St))
    (show : A -> string) (s : St) : option (outcome E string) :=
  match fuel with
  | O => None
  | S fuel' =>
      match next s with
      | Ok (Some x, s') =>
          match debug_loop fuel' next show s' with
          | Some (Ok t) => Some (Ok (show x ++ t))
          | r => r
          end
      | Ok (None, _) => Some (Ok "}")
      | Err e => Some (Err e)
      | Panic => Some Panic
      end
  end.
Definition debug_braces {E} (r : option (outcome E string)) : option (outcome E string) :=
  match r with Some (Ok t) => Some (Ok ("{" ++ t)) | r => r end.

(** src/event/mod.rs:718, derived for [NumberOfCompletedPacketsPair], with
    [ConnectionHandle] (src/lib.rs:707). *)
Definition debug_completed_packets_pair (p : completed_packets_pair) : string :=
  "NumberOfCompletedPacketsPair { conn_handle: ConnectionHandle(" ++ debug_uint (cpp_conn_handle p)
  ++ "), num_completed_packets: " ++ debug_uint (cpp_num_completed_packets p) ++ " }".

(** src/event/mod.rs:669-677, [Debug for NumberOfCompletedPackets]. *)
Definition debug_number_of_completed_packets {E} (fuel : nat) (ev : number_of_completed_packets)
    : option (outcome E string) :=
  debug_braces (debug_loop fuel (ncp_next ev) debug_completed_packets_pair O).

(** src/event/mod.rs:1084, derived for [AdvertisementEvent]. *)
Definition debug_advertisement_event (e : advertisement_event) : string :=
  match e with
  | AdvAdvertisement => "Advertisement"
  | AdvDirectAdvertisement => "DirectAdvertisement"
  | AdvScan => "Scan"
  | AdvNonConnectableAdvertisement => "NonConnectableAdvertisement"
  | AdvScanResponse => "ScanResponse"
  end.

(** src/lib.rs:711-716, derived for [BdAddr] and [BdAddrType]. *)
Definition debug_bd_addr (a : bd_addr) : string := "BdAddr(" ++ debug_list debug_uint a ++ ")".
Definition debug_bd_addr_type (a : bd_addr_type) : string :=
  match a with
  | BdPublic x => "Public(" ++ debug_bd_addr x ++ ")"
  | BdRandom x => "Random(" ++ debug_bd_addr x ++ ")"
  end.

(** src/event/mod.rs:1064, derived for [LeAdvertisement]. *)
Definition debug_le_advertisement (a : le_advertisement) : string :=
  "LeAdvertisement { event_type: " ++ debug_advertisement_event (la_event_type a)
  ++ ", address: " ++ debug_bd_addr_type (la_address a)
  ++ ", data: " ++ debug_list debug_uint (la_data a)
  ++ ", rssi: " ++ match la_rssi a with Some z => "Some(" ++ debug_int z ++ ")" | None => "None" end
  ++ " }".

(** src/event/mod.rs:993-1001, [Debug for LeAdvertisingReport]. *)
Definition debug_le_advertising_report {E} (fuel : nat) (r : le_advertising_report)
    : option (outcome E string) :=
  debug_braces (debug_loop fuel (lar_next r) debug_le_advertisement O).
